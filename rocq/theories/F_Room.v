(** Encoders whose success and output depend on nothing but the value: proof rules. *)
From Verif Require Import Base BaseFacts M_Util S_Wire F_Util M_Nlri S_Nlri F_Nlri M_Vpls F_Lay M_Prefix M_Evpn M_Flowspec M_Addrs M_Attr M_Update M_Cap M_Open S_Room.
Ltac Zify.zify_post_hook ::= idtac.

Definition fit {A} (a : nat) (e : Enc A) (Q : A -> nat -> Prop) : Prop :=
  forall buf x b', e buf = Ok (x, b') ->
    length b' = length buf /\
    exists bs, (bs <> [] -> (a + length bs <= length buf)%nat) /\ Q x (a + length bs)%nat /\ writes_at a e bs x.

Lemma fit_ext {A} a (e e' : Enc A) Q : (forall buf, e' buf = e buf) -> fit a e Q -> fit a e' Q.
Proof.
  intros H F buf x b' E. rewrite H in E. destruct (F buf x b' E) as (L & bs & C & HQ & W). split; [exact L|].
  exists bs. split; [exact C|]. split; [exact HQ|]. intros buf2 L2. rewrite H. now apply W.
Qed.
Lemma fit_post {A} a (e : Enc A) (Q Q' : A -> nat -> Prop) : fit a e Q -> (forall x q, Q x q -> Q' x q) -> fit a e Q'.
Proof.
  intros F H buf x b' E. destruct (F buf x b' E) as (L & bs & C & HQ & W). split; [exact L|].
  exists bs. split; [exact C|]. split; [now apply H|exact W].
Qed.
Lemma fit_ret {A} a (x : A) (Q : A -> nat -> Prop) : Q x a -> fit a (eret x) Q.
Proof.
  intros H buf y b' E. unfold eret in E. assert (y = x) as -> by congruence. assert (b' = buf) as -> by congruence. split; [reflexivity|].
  exists []. split; [congruence|]. cbn [length]. rewrite Nat.add_0_r. split; [exact H|apply writes_at_ret].
Qed.
Lemma fit_err {A} a e (Q : A -> nat -> Prop) : fit a (eerr e) Q.
Proof. intros buf x b' E. discriminate. Qed.
Lemma fit_panic {A} a (Q : A -> nat -> Prop) : fit a epanic Q.
Proof. intros buf x b' E. discriminate. Qed.
Lemma fit_lift {A} a (r : res A) (Q : A -> nat -> Prop) : (forall x, r = Ok x -> Q x a) -> fit a (elift r) Q.
Proof.
  intros H buf x b' E. unfold elift in E. destruct r as [y| | |]; try discriminate.
  assert (y = x) as -> by congruence. assert (b' = buf) as -> by congruence. split; [reflexivity|].
  exists []. split; [congruence|]. cbn [length]. rewrite Nat.add_0_r. split; [now apply H|].
  intros buf2 L2. unfold elift. now rewrite splice_nil by (cbn [length] in L2; lia).
Qed.
Lemma fit_bind {A B} a (m : Enc A) (f : A -> Enc B) Q1 Q : fit a m Q1 -> (forall x q, Q1 x q -> fit q (f x) Q) -> fit a (ebind m f) Q.
Proof.
  intros F1 F2 buf y b' E. unfold ebind in E. destruct (m buf) as [[x b1]| | |] eqn:E1; try discriminate.
  destruct (F1 _ _ _ E1) as (L1 & bs1 & C1 & H1 & W1).
  destruct (F2 _ _ H1 _ _ _ E) as (L2 & bs2 & C2 & H2 & W2). split; [congruence|].
  exists (bs1 ++ bs2). rewrite app_length, Nat.add_assoc. split; [|split; [exact H2|]].
  - intros Hne. destruct bs2 as [|b bs2].
    + rewrite app_nil_r in Hne. cbn [length]. specialize (C1 Hne). lia.
    + specialize (C2 ltac:(congruence)). lia.
  - eapply writes_at_bind; eassumption.
Qed.
Lemma fit_rev {A B} a b (m : Enc A) (s : A -> Enc B) Q1 (R : A -> nat -> B -> Prop) :
  fit b m Q1 -> (forall x q, Q1 x q -> fit a (s x) (fun u r => r = b /\ R x q u)) ->
  fit a (x <~ m ;; u <~ s x ;; eret (x, u)) (fun xu q => Q1 (fst xu) q /\ R (fst xu) q (snd xu)).
Proof.
  intros F1 F2 buf [x u] b' E. unfold ebind in E. destruct (m buf) as [[x1 b1]| | |] eqn:E1; try discriminate.
  destruct (s x1 b1) as [[u1 b2]| | |] eqn:E2; try discriminate. unfold eret in E.
  assert (x1 = x) as -> by congruence. assert (u1 = u) as -> by congruence. assert (b' = b2) as -> by congruence. clear E.
  destruct (F1 _ _ _ E1) as (L1 & bs1 & C1 & H1 & W1).
  destruct (F2 _ _ H1 _ _ _ E2) as (L2 & bs2 & C2 & [Hb HR] & W2). split; [congruence|].
  exists (bs2 ++ bs1). cbn [fst snd]. rewrite app_length.
  replace (a + (length bs2 + length bs1))%nat with (b + length bs1)%nat by lia. split; [|split; [now split|]].
  - intros Hne. destruct bs1 as [|c bs1].
    + rewrite app_nil_r in Hne. cbn [length]. specialize (C2 Hne). lia.
    + apply C1. congruence.
  - eapply (writes_at_bind_rev a m _ bs2 bs1 x).
    + rewrite Hb. exact W1.
    + eapply writes_at_map; [exact W2|]. reflexivity.
Qed.
(** a field in front written after what is behind it *)
Lemma fit_back {A B C} a b (m : Enc A) (s : A -> Enc B) (g : A -> B -> Enc C) Q1 (R : A -> nat -> B -> Prop) Q :
  fit b m Q1 -> (forall x q, Q1 x q -> fit a (s x) (fun u r => r = b /\ R x q u)) ->
  (forall x q u, Q1 x q -> R x q u -> fit q (g x u) Q) ->
  fit a (x <~ m ;; u <~ s x ;; g x u) Q.
Proof.
  intros F1 F2 F3. eapply fit_ext with (e := xu <~ (x <~ m ;; u <~ s x ;; eret (x, u)) ;; g (fst xu) (snd xu)).
  - intros buf. unfold ebind, eret. destruct (m buf) as [[x b1]| | |]; auto. destruct (s x b1) as [[u b2]| | |]; auto.
  - eapply fit_bind; [eapply fit_rev; eassumption|]. intros [x u] q [H1 H2]. cbn [fst snd] in *. eapply F3; eauto.
Qed.
Lemma fit_set_idx i b (Q : unit -> nat -> Prop) : Q tt (i + 1)%nat -> fit i (set_idx i b) Q.
Proof.
  intros H buf x b' E. pose proof E as E0. unfold set_idx in E. destruct (Nat.ltb_spec i (length buf)); [|discriminate].
  assert (b' = splice i [b] buf) as -> by congruence. destruct x. split; [apply length_splice; cbn [length]; lia|].
  exists [b]. split; [cbn [length]; lia|]. split; [exact H|apply writes_at_set_idx].
Qed.
Lemma fit_write_at p bs (Q : unit -> nat -> Prop) : Q tt (p + length bs)%nat -> fit p (write_at p bs) Q.
Proof.
  intros H buf x b' E. unfold write_at in E. destruct (Nat.leb_spec (p + length bs) (length buf)); [|discriminate].
  assert (b' = splice p bs buf) as -> by congruence. destruct x. split; [apply length_splice; lia|].
  exists bs. split; [intros _; assumption|]. split; [exact H|apply writes_at_write_at].
Qed.
Lemma fit_on_from {A} n (e : Enc A) (Q Q' : A -> nat -> Prop) : fit 0 e Q' -> (forall x q, Q' x q -> Q x (n + q)%nat) -> fit n (on_from n e) Q.
Proof.
  intros F H buf x b' E. unfold on_from in E. destruct (Nat.leb_spec n (length buf)); [|discriminate].
  destruct (e (skipn n buf)) as [[y b1]| | |] eqn:E1; try discriminate.
  assert (y = x) as -> by congruence. assert (b' = firstn n buf ++ b1) as -> by congruence. clear E.
  destruct (F _ _ _ E1) as (L1 & bs & C & HQ & W). rewrite skipn_length in L1, C. split.
  { rewrite app_length, firstn_length, L1. lia. }
  exists bs. split; [intros Hne; specialize (C Hne); lia|]. split; [now apply H|]. now apply writes_on_from.
Qed.
(** run on a slice of exactly [k] octets, all of which are written *)
Definition fitx {A} (k : nat) (e : Enc A) (P : A -> Prop) : Prop :=
  forall buf x b', length buf = k -> e buf = Ok (x, b') ->
    P x /\ length b' = k /\ forall buf2, length buf2 = k -> e buf2 = Ok (x, b').
Lemma fitx_fit {A} k (e : Enc A) (P : A -> Prop) : fit 0 e (fun x q => q = k /\ P x) -> fitx k e P.
Proof.
  intros F buf x b' L E. destruct (F _ _ _ E) as (L1 & bs & C & [Hk HP] & W). split; [exact HP|].
  cbn [Nat.add] in Hk. assert (Eb : b' = bs).
  { rewrite (W buf) in E by (cbn [Nat.add]; lia). rewrite splice_full in E by lia. congruence. }
  subst b'. split; [exact Hk|]. intros buf2 L2. rewrite (W buf2) by (cbn [Nat.add]; lia). rewrite splice_full by lia. reflexivity.
Qed.
Lemma fit_on_slice {A} n m (e : Enc A) (Q : A -> nat -> Prop) (P : A -> Prop) : (n <= m)%nat -> fitx (m - n) e P -> (forall x, P x -> Q x m) ->
  fit n (on_slice n m e) Q.
Proof.
  intros Hnm F H buf x b' E. unfold on_slice in E. destruct (Nat.leb_spec n m); [|lia].
  destruct (Nat.leb_spec m (length buf)) as [Hm|]; [|discriminate]. cbn [andb] in E.
  destruct (e (sub buf n m)) as [[y b1]| | |] eqn:E1; try discriminate.
  assert (y = x) as -> by congruence. assert (b' = firstn n buf ++ b1 ++ skipn m buf) as -> by congruence. clear E.
  assert (Ls : length (sub buf n m) = (m - n)%nat) by (apply length_sub; lia).
  destruct (F _ _ _ Ls E1) as (HP & Lb & W). split.
  { rewrite !app_length, firstn_length, skipn_length, Lb. lia. }
  exists b1. rewrite Lb. replace (n + (m - n))%nat with m by lia. split; [lia|]. split; [now apply H|].
  intros buf2 L2. rewrite Lb in L2. unfold on_slice. replace (Nat.leb n m) with true by (symmetry; apply Nat.leb_le; lia).
  replace (Nat.leb m (length buf2)) with true by (symmetry; apply Nat.leb_le; lia). cbn [andb].
  rewrite W by (apply length_sub; lia). unfold splice. rewrite Lb. replace (n + (m - n))%nat with m by lia. reflexivity.
Qed.
Lemma fit_on_eslice {A} n m (e : Enc A) (Q : A -> nat -> Prop) (P : A -> Prop) : (n <= m)%nat -> fitx (m - n) e P -> (forall x, P x -> Q x m) ->
  fit n (on_eslice n m e) Q.
Proof.
  intros Hnm F H buf x b' E. unfold on_eslice in E. destruct (Nat.leb_spec n m); [|lia].
  destruct (Nat.leb_spec m (length buf)) as [Hm|]; [|discriminate]. cbn [andb] in E.
  destruct (e (sub buf n m)) as [[y b1]| | |] eqn:E1; try discriminate.
  assert (y = x) as -> by congruence. assert (b' = firstn n buf ++ b1 ++ skipn m buf) as -> by congruence. clear E.
  assert (Ls : length (sub buf n m) = (m - n)%nat) by (apply length_sub; lia).
  destruct (F _ _ _ Ls E1) as (HP & Lb & W). split.
  { rewrite !app_length, firstn_length, skipn_length, Lb. lia. }
  exists b1. rewrite Lb. replace (n + (m - n))%nat with m by lia. split; [lia|]. split; [now apply H|].
  intros buf2 L2. rewrite Lb in L2. unfold on_eslice. replace (Nat.leb n m) with true by (symmetry; apply Nat.leb_le; lia).
  replace (Nat.leb m (length buf2)) with true by (symmetry; apply Nat.leb_le; lia). cbn [andb].
  rewrite W by (apply length_sub; lia). unfold splice. rewrite Lb. replace (n + (m - n))%nat with m by lia. reflexivity.
Qed.

(** ** Reading the length *)
Lemma fit_guard {A} a k (er : err) (m : Enc A) (Q : A -> nat -> Prop) : fit a m Q -> (forall x q, Q x q -> (k <= q)%nat) ->
  fit a (len <~ elen ;; if Nat.ltb len k then eerr er else m) Q.
Proof.
  intros F H buf x b' E. unfold ebind, elen in E. destruct (Nat.ltb_spec (length buf) k); [discriminate|].
  destruct (F _ _ _ E) as (L & bs & C & HQ & W). split; [exact L|]. exists bs. split; [exact C|]. split; [exact HQ|].
  intros buf2 L2. specialize (H _ _ HQ). unfold ebind, elen.
  replace (Nat.ltb (length buf2) k) with false by (symmetry; apply Nat.ltb_ge; lia). now apply W.
Qed.
Lemma fit_guard' {A} a k (er : err) (m : Enc A) (Q : A -> nat -> Prop) : fit a m Q -> (forall x q, Q x q -> (k <= q)%nat) ->
  fit a (len <~ elen ;; if Nat.leb k len then m else eerr er) Q.
Proof.
  intros F H. eapply fit_ext; [|exact (fit_guard a k er m Q F H)]. intros buf. unfold ebind, elen.
  rewrite Nat.ltb_antisym. now destruct (Nat.leb k (length buf)).
Qed.
Lemma fit_guard_sub {A} a p k (er : err) (m : Enc A) (Q : A -> nat -> Prop) : fit a m Q -> (0 < k)%nat -> (forall x q, Q x q -> (p + k <= q)%nat) ->
  fit a (len <~ elen ;; if Nat.ltb (len - p) k then eerr er else m) Q.
Proof.
  intros F Hk H. eapply fit_ext; [|exact (fit_guard a (p + k) er m Q F H)]. intros buf. unfold ebind, elen.
  destruct (Nat.ltb_spec (length buf - p) k), (Nat.ltb_spec (length buf) (p + k)); try reflexivity; lia.
Qed.
Lemma fit_guard0 {A} a (er : err) (m : Enc A) (Q : A -> nat -> Prop) : fit a m Q -> (forall x q, Q x q -> (1 <= q)%nat) ->
  fit a (len <~ elen ;; if Nat.eqb len 0 then eerr er else m) Q.
Proof.
  intros F H. eapply fit_ext; [|exact (fit_guard a 1 er m Q F H)]. intros buf. unfold ebind, elen.
  destruct (Nat.eqb_spec (length buf) 0), (Nat.ltb_spec (length buf) 1); try reflexivity; lia.
Qed.
Lemma fitx_elen {A} k (f : nat -> Enc A) P : fitx k (f k) P -> fitx k (len <~ elen ;; f len) P.
Proof.
  intros F buf x b' L E. unfold ebind, elen in E. rewrite L in E. destruct (F _ _ _ L E) as (HP & Lb & W).
  split; [exact HP|]. split; [exact Lb|]. intros buf2 L2. unfold ebind, elen. rewrite L2. now apply W.
Qed.
Lemma fitx_err {A} k e (P : A -> Prop) : fitx k (eerr e) P.
Proof. intros buf x b' L E. discriminate. Qed.
Lemma fitx_panic {A} k (P : A -> Prop) : fitx k epanic P.
Proof. intros buf x b' L E. discriminate. Qed.

(** changing an octet written before *)
Definition upd_nth (i : nat) (g : N -> N) (l : list N) : list N := firstn i l ++ match skipn i l with [] => [] | b :: t => g b :: t end.
Lemma length_upd_nth i g l : length (upd_nth i g l) = length l.
Proof.
  unfold upd_nth. rewrite app_length, firstn_length. pose proof (skipn_length i l) as H. destruct (skipn i l); cbn [length] in *; lia.
Qed.
Lemma upd_idx_splice p i g bs buf : (p <= i < p + length bs)%nat -> (p + length bs <= length buf)%nat ->
  upd_idx i g (splice p bs buf) = Ok (tt, splice p (upd_nth (i - p) g bs) buf).
Proof.
  intros Hi L. destruct (nth_error bs (i - p)) as [b|] eqn:E.
  2: { apply nth_error_None in E. lia. }
  destruct (nth_error_split _ _ E) as (l1 & l2 & -> & Hl1). unfold upd_idx.
  assert (Lf : length (firstn p buf) = p) by (rewrite firstn_length; lia).
  assert (E2 : nth_error (splice p (l1 ++ b :: l2) buf) i = Some b).
  { unfold splice. rewrite nth_error_app2 by lia. rewrite Lf, nth_error_app1 by lia. exact E. }
  rewrite E2. do 2 f_equal. unfold splice at 1. cbn [length].
  assert (Es : splice p (l1 ++ b :: l2) buf = (firstn p buf ++ l1) ++ b :: (l2 ++ skipn (p + length (l1 ++ b :: l2)) buf)).
  { unfold splice. rewrite <- !app_assoc. reflexivity. }
  assert (L1 : length (firstn p buf ++ l1) = i) by (rewrite app_length; lia).
  rewrite Es. rewrite firstn_app_exact by exact L1.
  replace (skipn (i + 1) ((firstn p buf ++ l1) ++ b :: l2 ++ skipn (p + length (l1 ++ b :: l2)) buf)) with (l2 ++ skipn (p + length (l1 ++ b :: l2)) buf).
  2: { rewrite <- (skipn_skipn' 1 i). rewrite skipn_app_exact by exact L1. reflexivity. }
  unfold splice, upd_nth. rewrite <- Hl1, firstn_app_exact, skipn_app_exact by reflexivity.
  rewrite !app_length. cbn [length]. rewrite <- !app_assoc. reflexivity.
Qed.
Lemma fit_upd {A B} a (m : Enc A) (pos : A -> nat) (g : N -> N) (f : A -> Enc B) Q1 (Q : B -> nat -> Prop) :
  fit a m Q1 -> (forall x q, Q1 x q -> (a <= pos x < q)%nat) -> (forall x q, Q1 x q -> fit q (f x) Q) ->
  fit a (x <~ m ;; upd_idx (pos x) g ;;; f x) Q.
Proof.
  intros F1 Hp F2. eapply fit_ext with (e := x <~ (x <~ m ;; upd_idx (pos x) g ;;; eret x) ;; f x).
  { intros buf. unfold ebind, eret. destruct (m buf) as [[x b1]| | |]; auto. destruct (upd_idx (pos x) g b1) as [[u b2]| | |]; auto. }
  apply fit_bind with (Q1 := Q1); [|exact F2].
  intros buf x b' E. unfold ebind, eret in E. destruct (m buf) as [[x1 b1]| | |] eqn:E1; try discriminate.
  destruct (upd_idx (pos x1) g b1) as [[u b2]| | |] eqn:E2; try discriminate.
  assert (x1 = x) as -> by congruence. assert (b' = b2) as -> by congruence. clear E.
  destruct (F1 _ _ _ E1) as (L1 & bs & C & HQ & W). specialize (Hp _ _ HQ).
  assert (Hne : bs <> []) by (intros ->; cbn [length] in Hp; lia). specialize (C Hne). split.
  - rewrite (W buf C) in E1. assert (b1 = splice a bs buf) as -> by congruence.
    rewrite upd_idx_splice in E2 by lia. assert (b2 = splice a (upd_nth (pos x - a) g bs) buf) as -> by congruence.
    apply length_splice. rewrite length_upd_nth. lia.
  - exists (upd_nth (pos x - a) g bs). rewrite length_upd_nth. split; [intros _; exact C|]. split; [exact HQ|].
    intros buf2 L2. rewrite length_upd_nth in L2. unfold ebind, eret. rewrite W by exact L2. rewrite upd_idx_splice by lia. reflexivity.
Qed.

(** ** From the rules to the property *)
Lemma fit_settled e : fit 0 e (fun n q => n = q) -> settled e.
Proof.
  intros F buf n b' E. destruct (F _ _ _ E) as (L & bs & C & Hn & W). cbn [Nat.add] in Hn. exists bs. split; [now symmetry|].
  intros buf2. split.
  - intros L2. rewrite (W buf2) by (cbn [Nat.add]; lia). unfold splice. cbn [firstn app Nat.add]. now rewrite Hn.
  - intros L2. destruct (e buf2) as [[n2 b2]| | |] eqn:E2; try reflexivity. exfalso.
    destruct (F _ _ _ E2) as (L3 & bs2 & C2 & Hn2 & W2). cbn [Nat.add] in Hn2, C2.
    assert (Hs : (length bs2 <= length buf2)%nat) by (destruct bs2; [cbn; lia|apply C2; congruence]).
    assert (Hbig : (length bs2 <= length bs)%nat) by lia.
    pose proof (W (repeat 0 (length bs)) ltac:(rewrite repeat_length; cbn; lia)) as B1.
    pose proof (W2 (repeat 0 (length bs)) ltac:(rewrite repeat_length; cbn; lia)) as B2.
    assert (n = n2) by congruence. lia.
Qed.
