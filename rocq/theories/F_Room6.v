(** Which encoders depend on nothing but the value: sending, and BMP messages. *)
From Verif Require Import Base BaseFacts M_Util S_Wire F_Util M_Nlri S_Nlri F_Nlri M_Vpls F_Lay M_Prefix M_Mvpn M_Evpn M_Flowspec M_Addrs M_Attr M_Update M_Cap M_Open M_Session M_Peer M_Bmp S_Bmp F_Bmp
  S_Room F_Room F_Room2 F_Room3 F_Room4 F_Room5.
Ltac Zify.zify_post_hook ::= idtac.

Lemma fit_message oc p m : message_tidy m -> fit 0 (message_encode oc p m) (fun n q => n = q).
Proof.
  destruct m; cbn [message_tidy message_encode]; intros H; [now apply fit_open|now apply fit_update|apply fit_notif|now apply fit_ret].
Qed.

(** the header, without looking at the length of the buffer *)
Definition put_head (oc : bool) (t : msgtype) (messagelen : nat) : Enc nat :=
  write_at 0 (repeat 255 16) ;;;
  lng <~ elift (uadd oc 16 (cast 16 (N.of_nat messagelen)) 19) ;;
  set_idx 16 (cast 8 (N.shiftr lng 8)) ;;;
  set_idx 17 (cast 8 (N.land lng 255)) ;;;
  set_idx 18 (msgtype_encode t) ;;;
  eret (N.to_nat lng).
Lemma prepare_head oc t n buf : (n + 19 <= length buf)%nat -> prepare_message_buf oc t n buf = put_head oc t n buf.
Proof.
  intros L. unfold prepare_message_buf, put_head. unfold ebind at 1, elen.
  replace (Nat.ltb (length buf) (n + 19)) with false by (symmetry; apply Nat.ltb_ge; lia). reflexivity.
Qed.
Lemma fit_head oc t n : fit 0 (put_head oc t n) (fun x q => q = 19%nat /\ exists l, uadd oc 16 (cast 16 (N.of_nat n)) 19 = Ok l /\ x = N.to_nat l).
Proof.
  unfold put_head. fb (fun (_ : unit) q => q = 16%nat); [now apply fit_write_at|]. intros _ q ->.
  fb (fun l q => q = 16%nat /\ uadd oc 16 (cast 16 (N.of_nat n)) 19 = Ok l); [apply fit_lift; auto|]. intros l q [-> E].
  fb (fun (_ : unit) q => q = 17%nat); [now apply fit_set_idx|]. intros _ q ->. fb (fun (_ : unit) q => q = 18%nat); [now apply fit_set_idx|]. intros _ q ->.
  fb (fun (_ : unit) q => q = 19%nat); [now apply fit_set_idx|]. intros _ q ->. apply fit_ret. eauto.
Qed.
Lemma uadd_le oc w a b l : uadd oc w a b = Ok l -> l <= a + b.
Proof.
  unfold uadd. destruct (a + b <? 2 ^ w); [intros H; assert (l = a + b) by congruence; lia|]. destruct oc; [discriminate|]. intros H.
  assert (l = (a + b) mod 2 ^ w) as -> by congruence. apply N.mod_le. apply pow2_nz.
Qed.
Lemma cast_le w x : cast w x <= x.
Proof. unfold cast. apply N.mod_le. apply pow2_nz. Qed.
Lemma body_room n (e : Enc nat) p buf b1 : fit 0 e (fun n q => n = q) -> on_from p e buf = Ok (n, b1) -> length b1 = length buf /\ (n + p <= length b1)%nat.
Proof.
  intros F E. assert (F' : fit p (on_from p e) (fun n q => q = (p + n)%nat)) by (apply fit_from_nq; [exact F|reflexivity]).
  assert (Hp : (p <= length buf)%nat) by (unfold on_from in E; destruct (Nat.leb_spec p (length buf)); [assumption|discriminate]).
  destruct (F' _ _ _ E) as (L & bs & C & Hn & _). split; [exact L|]. rewrite L. destruct bs as [|b bs].
  - cbn [length] in Hn. lia.
  - specialize (C ltac:(congruence)). lia.
Qed.
Lemma fit_with_head oc t (e : Enc nat) : fit 0 e (fun n q => n = q) ->
  fit 0 (n <~ on_from 19 e ;; l <~ prepare_message_buf oc t n ;; eret (n, l))
    (fun nl q => q = (19 + fst nl)%nat /\ exists l, uadd oc 16 (cast 16 (N.of_nat (fst nl))) 19 = Ok l /\ snd nl = N.to_nat l).
Proof.
  intros F. eapply fit_ext with (e := n <~ on_from 19 e ;; l <~ put_head oc t n ;; eret (n, l)).
  - intros buf. unfold ebind at 1 3. destruct (on_from 19 e buf) as [[n b1]| | |] eqn:E; [|reflexivity..].
    destruct (body_room _ _ _ _ _ F E) as [_ L]. unfold ebind. now rewrite prepare_head by exact L.
  - eapply (fit_back 0 19) with (R := fun n _ x => exists l, uadd oc 16 (cast 16 (N.of_nat n)) 19 = Ok l /\ x = N.to_nat l) (Q1 := fun n q => q = (19 + n)%nat).
    + apply fit_from_nq; [exact F|reflexivity].
    + intros n q _. eapply fit_post; [apply fit_head|]. intros x r [-> H]. now split.
    + intros n q u -> H. apply fit_ret. cbn [fst snd]. now split.
Qed.
Lemma send_split oc p m buf : send_message oc p m buf =
  match (n <~ on_from 19 (message_encode oc p m) ;; l <~ prepare_message_buf oc (message_type m) n ;; eret (n, l)) buf with
  | Ok ((_, l), b) => s <- rslice b 0 l ;; Ok (s, b) | Err e => Err e | Panic => Panic | OutOfFuel => OutOfFuel end.
Proof.
  unfold send_message, ebind, eret. destruct (on_from 19 (message_encode oc p m) buf) as [[n b1]| | |]; [|reflexivity..].
  destruct (prepare_message_buf oc (message_type m) n b1) as [[l b2]| | |]; reflexivity.
Qed.
Lemma C104_send_l oc p m : message_tidy m -> settled_send (send_message oc p m).
Proof.
  intros Ht. pose proof (fit_with_head oc (message_type m) _ (fit_message oc p m Ht)) as F.
  set (pre := n <~ on_from 19 (message_encode oc p m) ;; l <~ prepare_message_buf oc (message_type m) n ;; eret (n, l)) in *.
  intros buf s b' E. rewrite send_split in E. fold pre in E. destruct (pre buf) as [[[n l] b]| | |] eqn:E1; try discriminate.
  destruct (F _ _ _ E1) as (L & bs & C & [Hn (w & Hw & Hl)] & W). cbn [fst snd Nat.add] in *.
  assert (Hle : (l <= length bs)%nat).
  { subst l. rewrite Hn. apply uadd_le in Hw. pose proof (cast_le 16 (N.of_nat n)). lia. }
  assert (R : forall buf2, (length bs <= length buf2)%nat -> rslice (splice 0 bs buf2) 0 l = Ok (firstn l bs)).
  { intros buf2 L2. rewrite rslice_ok by (rewrite ?length_splice; cbn [Nat.add]; lia). unfold sub. cbn [skipn]. rewrite Nat.sub_0_r.
    unfold splice. cbn [firstn app]. rewrite firstn_app. replace (l - length bs)%nat with 0%nat by lia. cbn [firstn]. now rewrite app_nil_r. }
  assert (C' : (length bs <= length buf)%nat) by (apply C; intros ->; cbn [length] in Hn; lia).
  rewrite (W buf C') in E1. assert (b = splice 0 bs buf) by congruence. subst b. rewrite (R buf C') in E. cbn [bind] in E.
  assert (Hs : s = firstn l bs) by congruence. assert (Ls : length s = l) by (rewrite Hs, firstn_length; lia).
  exists bs. split; [now rewrite Ls|]. split; [|intros buf2; split].
  - intros Hsmall. rewrite Hs. apply firstn_all2. subst l. unfold cast in Hw.
    rewrite N.mod_small in Hw by (change (2 ^ 16) with 65536; lia). rewrite uadd_ok in Hw by (change (2 ^ 16) with 65536; lia).
    assert (w = N.of_nat n + 19) by congruence. lia.
  - intros L2. rewrite send_split. fold pre. rewrite (W buf2 L2). rewrite (R buf2 L2). cbn [bind]. rewrite Hs. reflexivity.
  - intros L2. rewrite send_split. fold pre. destruct (pre buf2) as [[[n2 l2] b2]| | |] eqn:E2; try reflexivity. exfalso.
    destruct (F _ _ _ E2) as (L3 & bs2 & C2 & [Hn2 _] & W2). cbn [fst snd Nat.add] in *.
    assert (Hs2 : (length bs2 <= length buf2)%nat) by (apply C2; intros ->; cbn [length] in Hn2; lia).
    pose proof (W (repeat 0 (length bs)) ltac:(rewrite repeat_length; cbn; lia)) as B1.
    pose proof (W2 (repeat 0 (length bs)) ltac:(rewrite repeat_length; cbn; lia)) as B2.
    assert (n = n2) by congruence. lia.
Qed.

(** ** BMP *)
Definition fitz {A} (a : nat) (e : Enc A) (Q : A -> nat -> Prop) : Prop :=
  forall buf x b', e buf = Ok (x, b') ->
    length b' = length buf /\
    exists z bs, (bs <> [] -> (a + length bs <= length buf)%nat) /\ Q x (a + length bs)%nat /\ wz z a e bs x.
Lemma fitz_fit {A} a (e : Enc A) Q : fit a e Q -> fitz a e Q.
Proof.
  intros F buf x b' E. destruct (F _ _ _ E) as (L & bs & C & HQ & W). split; [exact L|]. exists false, bs. split; [exact C|]. split; [exact HQ|]. now apply wz_writes.
Qed.
Lemma fitz_bind {A B} a (m : Enc A) (f : A -> Enc B) Q1 Q : fitz a m Q1 -> (forall x q, Q1 x q -> fitz q (f x) Q) -> fitz a (ebind m f) Q.
Proof.
  intros F1 F2 buf y b' E. unfold ebind in E. destruct (m buf) as [[x b1]| | |] eqn:E1; try discriminate.
  destruct (F1 _ _ _ E1) as (L1 & z1 & bs1 & C1 & H1 & W1).
  destruct (F2 _ _ H1 _ _ _ E) as (L2 & z2 & bs2 & C2 & H2 & W2). split; [congruence|].
  exists (z1 || z2)%bool, (bs1 ++ bs2). rewrite app_length, Nat.add_assoc. split; [|split; [exact H2|]].
  - intros Hne. destruct bs2 as [|b bs2].
    + rewrite app_nil_r in Hne. cbn [length]. specialize (C1 Hne). lia.
    + specialize (C2 ltac:(congruence)). lia.
  - eapply wz_bind; eassumption.
Qed.
Lemma fitz_on_from {A} n (e : Enc A) (Q Q' : A -> nat -> Prop) : fitz 0 e Q' -> (forall x q, Q' x q -> Q x (n + q)%nat) -> fitz n (on_from n e) Q.
Proof.
  intros F H buf x b' E. unfold on_from in E. destruct (Nat.leb_spec n (length buf)); [|discriminate].
  destruct (e (skipn n buf)) as [[y b1]| | |] eqn:E1; try discriminate.
  assert (y = x) as -> by congruence. assert (b' = firstn n buf ++ b1) as -> by congruence. clear E.
  destruct (F _ _ _ E1) as (L1 & z & bs & C & HQ & W). rewrite skipn_length in L1, C. split.
  { rewrite app_length, firstn_length, L1. lia. }
  exists z, bs. split; [intros Hne; specialize (C Hne); lia|]. split; [now apply H|]. now apply wz_on_from.
Qed.
Lemma fitz_post {A} a (e : Enc A) (Q Q' : A -> nat -> Prop) : fitz a e Q -> (forall x q, Q x q -> Q' x q) -> fitz a e Q'.
Proof.
  intros F H buf x b' E. destruct (F buf x b' E) as (L & z & bs & C & HQ & W). split; [exact L|].
  exists z, bs. split; [exact C|]. split; [now apply H|exact W].
Qed.
Lemma fitz_ext {A} a (e e' : Enc A) Q : (forall buf, e' buf = e buf) -> fitz a e Q -> fitz a e' Q.
Proof.
  intros H F buf x b' E. rewrite H in E. destruct (F buf x b' E) as (L & z & bs & C & HQ & W). split; [exact L|].
  exists z, bs. split; [exact C|]. split; [exact HQ|]. intros buf2 L2. rewrite H. now apply W.
Qed.
Lemma fitz_guard {A} a k (er : err) (m : Enc A) (Q : A -> nat -> Prop) : fitz a m Q -> (forall x q, Q x q -> (k <= q)%nat) ->
  fitz a (len <~ elen ;; if Nat.ltb len k then eerr er else m) Q.
Proof.
  intros F H buf x b' E. unfold ebind, elen in E. destruct (Nat.ltb_spec (length buf) k); [discriminate|].
  destruct (F _ _ _ E) as (L & z & bs & C & HQ & W). split; [exact L|]. exists z, bs. split; [exact C|]. split; [exact HQ|].
  apply wz_guard; [now apply (H x)|exact W].
Qed.
Ltac zb Q := eapply fitz_bind with (Q1 := Q).
Lemma fitz_addr a (Q : nat -> nat -> Prop) : Q 16%nat 16%nat -> fitz 0 (bmp_addr_encode a) Q.
Proof.
  intros H buf x b' E. pose proof (wz_addr a) as W.
  assert (L : (16 <= length buf)%nat).
  { unfold bmp_addr_encode, ebind, elen in E. destruct (Nat.ltb_spec (length buf) 16); [discriminate|assumption]. }
  assert (Lf : length (addr_field a) = 16%nat) by apply length_field.
  rewrite (W buf) in E by (rewrite Lf; cbn [Nat.add]; lia). assert (x = 16%nat) as -> by congruence.
  assert (Eb : b' = firstn 0 buf ++ addr_field a ++ behind (is_v4 a) (0 + length (addr_field a)) buf) by congruence. split.
  { rewrite Eb. rewrite !app_length, length_behind, Lf. cbn [firstn length Nat.add]. lia. }
  exists (is_v4 a), (addr_field a). rewrite Lf. split; [intros _; exact L|]. split; [exact H|exact W].
Qed.
Lemma fitz_peerhdr h (Q : nat -> nat -> Prop) : Q 42%nat 42%nat -> fitz 0 (peerhdr_encode h) Q.
Proof.
  intros H. unfold peerhdr_encode. apply fitz_post with (Q := fun n q => n = 42%nat /\ q = 42%nat); [|now intros x q [-> ->]].
  apply fitz_guard; [|intros x q [_ ->]; lia].
  zb (fun (_ : unit) q => q = 1%nat); [now apply fitz_fit, fit_set_idx|]. intros _ q ->. zb (fun (_ : unit) q => q = 2%nat); [now apply fitz_fit, fit_set_idx|]. intros _ q ->.
  zb (fun (_ : nat) q => q = 10%nat).
  { apply fitz_fit. eapply fit_on_from with (Q' := fun _ q => q = 8%nat); [now apply fit_rd|]. intros _ q ->. reflexivity. } intros _ q ->.
  zb (fun (_ : nat) q => q = 26%nat).
  { eapply fitz_on_from with (Q' := fun _ q => q = 16%nat); [now apply fitz_addr|]. intros _ q ->. reflexivity. } intros _ q ->.
  zb (fun (_ : unit) q => q = 30%nat); [now apply fitz_fit, fit_from_u32|]. intros _ q ->.
  zb (fun (_ : nat) q => q = 34%nat); [now apply fitz_fit, fit_f4|]. intros _ q ->.
  zb (fun (_ : unit) q => q = 42%nat).
  { apply fitz_fit. eapply fit_on_from with (Q' := fun _ q => q = 8%nat); [now apply fit_u64|]. intros _ q ->. reflexivity. } intros _ q ->.
  apply fitz_fit. now apply fit_ret.
Qed.
Lemma on_from_ext {A} n (e e' : Enc A) buf : e (skipn n buf) = e' (skipn n buf) -> on_from n e buf = on_from n e' buf.
Proof. intros H. unfold on_from. now rewrite H. Qed.
(** an outcome that is known to occur *)
Lemma fit_seen {A} a (e : Enc A) (Q Q' : A -> nat -> Prop) : fit a e Q -> (forall buf x b q, e buf = Ok (x, b) -> Q x q -> Q' x q) -> fit a e Q'.
Proof.
  intros F H buf x b' E. destruct (F buf x b' E) as (L & bs & C & HQ & W). split; [exact L|].
  exists bs. split; [exact C|]. split; [eapply H; eassumption|exact W].
Qed.
Lemma fit_bgp_put_min oc t (e : Enc nat) cp k : fit 0 e (fun n q => n = q) -> fits16 e -> (forall buf n b, e buf = Ok (n, b) -> (k <= n)%nat) ->
  fit cp (bgp_put oc t e cp) (fun n q => n = q /\ (cp + 19 + k <= q)%nat).
Proof.
  intros F H16 Hk. unfold bgp_put.
  eapply fit_ext with (e := n <~ on_from (cp + 19) e ;; l <~ on_from cp (put_head oc t n) ;; eret (cp + l)%nat).
  { intros buf. unfold ebind. destruct (on_from (cp + 19) e buf) as [[n b1]| | |] eqn:E; [|reflexivity..].
    destruct (body_room _ _ _ _ _ F E) as [_ L]. rewrite (on_from_ext cp (prepare_message_buf oc t n) (put_head oc t n)); [reflexivity|].
    apply prepare_head. rewrite skipn_length. lia. }
  eapply (fit_back cp (cp + 19)) with (R := fun n _ x => exists l, uadd oc 16 (cast 16 (N.of_nat n)) 19 = Ok l /\ x = N.to_nat l)
    (Q1 := fun n q => q = (cp + 19 + n)%nat /\ N.of_nat n <= 65516 /\ (k <= n)%nat).
  - eapply fit_on_from with (Q' := fun n q => n = q /\ N.of_nat n <= 65516 /\ (k <= n)%nat); [|intros n q [-> H]; auto].
    eapply fit_seen; [exact F|]. intros buf n b q E ->. split; [reflexivity|]. split; [now apply H16 in E|now apply Hk in E].
  - intros n q _. eapply fit_on_from; [apply fit_head|]. intros x r [-> H]. now split.
  - intros n q u [-> [Hn Hn2]] (l & Hl & ->). apply fit_ret. unfold cast in Hl.
    rewrite N.mod_small in Hl by (change (2 ^ 16) with 65536; lia). rewrite uadd_ok in Hl by (change (2 ^ 16) with 65536; lia).
    assert (l = N.of_nat n + 19) by congruence. lia.
Qed.
Lemma fit_bgp_put oc t (e : Enc nat) cp : fit 0 e (fun n q => n = q) -> fits16 e -> fit cp (bgp_put oc t e cp) (fun n q => n = q /\ (cp + 19 <= q)%nat).
Proof. intros F H. eapply fit_post; [apply (fit_bgp_put_min oc t e cp 0 F H); intros; lia|]. intros n q [-> H0]. split; [reflexivity|lia]. Qed.
Lemma fits16_notif m : fits16 (notif_encode m).
Proof.
  intros buf n b E. unfold notif_encode, ebind, elen in E. destruct (Nat.ltb (length buf) 4); [discriminate|].
  repeat match type of E with context [set_idx ?i ?v ?b] => destruct (set_idx i v b) as [[? ?]| | |]; try discriminate end.
  unfold eret in E. assert (n = 4%nat) as -> by congruence. lia.
Qed.
Lemma fit_infoval t s : fit 0 (infoval_encode t s) (fun n q => n = q).
Proof.
  unfold infoval_encode. apply fit_post with (Q := fun n q => n = q /\ q = (4 + length s)%nat); [|now intros n q [H _]].
  apply fit_guard; [|intros n q [_ ->]; lia].
  fb (fun (_ : unit) q => q = 2%nat); [now apply fit_from_u16|]. intros _ q ->. fb (fun (_ : unit) q => q = 4%nat); [now apply fit_from_u16|]. intros _ q ->.
  fb (fun (_ : unit) q => q = (4 + length s)%nat); [now apply fit_write_at|]. intros _ q ->. now apply fit_ret.
Qed.
Lemma fit_init_field p s : fit p (init_field p s) (fun n q => q = n :> nat).
Proof.
  destruct s as [s|]; cbn [init_field]; [|now apply fit_ret].
  fb (fun n q => q = (p + n)%nat); [apply fit_from_nq; [apply fit_infoval|reflexivity]|]. intros n q ->. now apply fit_ret.
Qed.
Lemma fit_init m : fit 0 (init_encode m) (fun n q => n = q).
Proof.
  unfold init_encode. eapply fit_bind; [apply fit_init_field|]. intros n q ->. eapply fit_bind; [apply fit_init_field|]. intros n2 q ->.
  eapply fit_post; [apply fit_init_field|]. intros; cbn beta in *; lia.
Qed.
Lemma fit_term m : fit 0 (term_encode m) (fun n q => n = q).
Proof.
  unfold term_encode. fb (fun n q => q = n :> nat).
  - destruct (tm_str m) as [s|]; [|now apply fit_ret].
    apply fit_post with (Q := fun n q => n = q /\ q = (4 + length s)%nat); [|intros n q [-> ->]; reflexivity].
    apply fit_guard_sub; [|lia|intros n q [_ ->]; lia].
    fb (fun (_ : unit) q => q = 2%nat); [now apply fit_from_u16|]. intros _ q ->. fb (fun (_ : unit) q => q = 4%nat); [now apply fit_from_u16|]. intros _ q ->.
    fb (fun (_ : unit) q => q = (4 + length s)%nat); [now apply fit_write_at|]. intros _ q ->. now apply fit_ret.
  - intros cp q ->. destruct (tm_reason m) as [r|]; [|now apply fit_ret].
    apply fit_post with (Q := fun n q => n = q /\ q = (cp + 6)%nat); [|now intros n q [H _]].
    apply fit_guard_sub; [|lia|intros n q [_ ->]; lia].
    fb (fun (_ : unit) q => q = (cp + 2)%nat); [now apply fit_from_u16|]. intros _ q ->.
    fb (fun (_ : unit) q => q = (cp + 4)%nat); [apply fit_from_u16; lia|]. intros _ q ->.
    fb (fun (_ : unit) q => q = (cp + 6)%nat); [apply fit_from_u16; lia|]. intros _ q ->. now apply fit_ret.
Qed.
Lemma ebind_Ok_inv {A B} (m : Enc A) (f : A -> Enc B) buf y b : ebind m f buf = Ok (y, b) -> exists x b1, m buf = Ok (x, b1) /\ f x b1 = Ok (y, b).
Proof. unfold ebind. destruct (m buf) as [[x b1]| | |]; try discriminate. eauto. Qed.
Lemma withdraws_min oc p a buf n b : upd_withdraws oc p a buf = Ok (n, b) -> (2 <= n)%nat.
Proof.
  unfold upd_withdraws. destruct (upd_nlri_encode oc p a) as [e|]; intros H.
  - apply ebind_Ok_inv in H as (w & b1 & _ & H). destruct (65535 <? N.of_nat w); [discriminate|]. apply ebind_Ok_inv in H as (u & b2 & _ & H).
    unfold eret in H. assert (n = (2 + w)%nat) by congruence. lia.
  - apply ebind_Ok_inv in H as (u & b2 & _ & H). unfold eret in H. assert (n = 2%nat) by congruence. lia.
Qed.
Lemma attrs_min oc p v pp : forall cp buf n b, upd_attrs_encode oc p v pp cp buf = Ok (n, b) -> (cp <= n)%nat.
Proof.
  induction v as [|a v IH]; intros cp buf n b H; cbn [upd_attrs_encode] in H.
  - unfold eret in H. assert (n = cp) by congruence. lia.
  - destruct (65535 <? N.of_nat (cp - pp)); [discriminate|]. apply ebind_Ok_inv in H as (w & b1 & _ & H). apply IH in H. lia.
Qed.
Lemma update_min oc p m buf n b : update_encode oc p m buf = Ok (n, b) -> (4 <= n)%nat.
Proof.
  unfold update_encode. intros H. apply ebind_Ok_inv in H as (pp & b1 & H1 & H). apply ebind_Ok_inv in H as (cp & b2 & H2 & H).
  apply ebind_Ok_inv in H as (u & b3 & _ & H). apply withdraws_min in H1. apply attrs_min in H2.
  destruct (upd_nlri_encode oc p (u_updates m)) as [e|].
  - apply ebind_Ok_inv in H as (w & b4 & _ & H). unfold eret in H. assert (n = (cp + w)%nat) by congruence. lia.
  - unfold eret in H. assert (n = cp) by congruence. lia.
Qed.
Lemma fitz_rmon oc m : update_tidy (rm_update m) -> fits16 (update_encode oc (params_of_peer (rm_peer m)) (rm_update m)) ->
  fitz 0 (rmon_encode oc m) (fun n q => n = q).
Proof.
  intros Ht H16. unfold rmon_encode. apply fitz_post with (Q := fun n q => n = q /\ (62 <= q)%nat); [|now intros n q [H _]].
  apply fitz_guard; [|now intros n q [_ H]]. zb (fun n q => n = 42%nat /\ q = 42%nat); [now apply fitz_peerhdr|]. intros n q [-> ->].
  apply fitz_fit. eapply fit_post; [apply (fit_bgp_put_min oc MUpdate _ 42 4); [now apply fit_update|exact H16|]|].
  - intros buf n b E. now apply update_min in E.
  - intros n q [-> H]. split; [reflexivity|lia].
Qed.
Lemma fitz_peerup oc m : open_tidy (pu_msg1 m) -> open_tidy (pu_msg2 m) -> fits16 (open_encode (pu_msg1 m)) -> fits16 (open_encode (pu_msg2 m)) ->
  fitz 0 (peerup_encode oc m) (fun n q => n = q).
Proof.
  intros H1 H2 S1 S2. unfold peerup_encode. apply fitz_post with (Q := fun n q => n = q /\ (62 <= q)%nat); [|now intros n q [H _]].
  apply fitz_guard; [|now intros n q [_ H]]. zb (fun n q => n = 42%nat /\ q = 42%nat); [now apply fitz_peerhdr|]. intros n q [-> ->].
  zb (fun (_ : nat) q => q = 58%nat).
  { eapply fitz_on_from with (Q' := fun _ q => q = 16%nat); [now apply fitz_addr|]. intros _ q ->. reflexivity. } intros _ q ->.
  apply fitz_fit. fb (fun (_ : unit) q => q = 60%nat); [now apply fit_from_u16|]. intros _ q ->.
  fb (fun (_ : unit) q => q = 62%nat); [now apply fit_from_u16|]. intros _ q ->.
  fb (fun n q => n = q /\ (62 <= q)%nat).
  { eapply fit_post; [apply fit_bgp_put; [now apply fit_open|exact S1]|]. intros n q [-> H]. split; [reflexivity|lia]. }
  intros n q [-> H]. eapply fit_post; [apply fit_bgp_put; [now apply fit_open|exact S2]|]. intros n q0 [-> H0]. split; [reflexivity|lia].
Qed.
(** the length is looked at again instead of kept *)
Lemma fitz_peerdown oc m : fitz 0 (peerdown_encode oc m) (fun n q => n = q).
Proof.
  set (put := fun code nt => set_idx 42 code ;;; len <~ elen ;; if Nat.ltb (len - 43) 19 then eerr EInsufficient else bgp_put oc MNotification (notif_encode nt) 43).
  apply fitz_ext with (e := len <~ elen ;; if Nat.ltb len 43 then eerr EInsufficient else
    (peerhdr_encode (pd_peer m) ;;; match pd_reason m with
      | AdminClosed nt => put 1 nt
      | LocalState s => set_idx 42 2 ;;; len <~ elen ;; if Nat.ltb (len - 43) 2 then eerr EInsufficient else (on_from 43 (setn_u16 s) ;;; eret 45%nat)
      | RemoteNotif nt => put 3 nt
      | RemoteClosed => set_idx 42 4 ;;; eret 43%nat
      | BmpDisabled => set_idx 42 5 ;;; eret 43%nat end)).
  { intros buf. unfold peerdown_encode, put, ebind, elen. set (len := length buf). destruct (Nat.ltb len 43); [reflexivity|].
    destruct (peerhdr_encode (pd_peer m) buf) as [[cp b1]| | |] eqn:E; [|reflexivity..].
    assert (Hc : cp = 42%nat /\ length b1 = len).
    { assert (F : fitz 0 (peerhdr_encode (pd_peer m)) (fun n _ => n = 42%nat)) by now apply fitz_peerhdr.
      destruct (F _ _ _ E) as (L & _ & _ & _ & Hq & _). now split. }
    destruct Hc as [-> L1].
    assert (Ls : forall i v b2 u, set_idx i v b1 = Ok (u, b2) -> length b2 = len).
    { intros i v b2 u Es. assert (F : fit i (set_idx i v) (fun _ _ => True)) by now apply fit_set_idx. destruct (F _ _ _ Es) as (L & _). congruence. }
    destruct (pd_reason m) as [nt|s|nt| |]; try reflexivity;
      match goal with |- context [set_idx 42 ?c b1] => destruct (set_idx 42 c b1) as [[u b2]| | |] eqn:Es; [|reflexivity..]; rewrite (Ls _ _ _ _ Es); reflexivity end. }
  apply fitz_post with (Q := fun n q => n = q /\ (43 <= q)%nat); [|now intros n q [H _]].
  apply fitz_guard; [|now intros n q [_ H]]. zb (fun n q => n = 42%nat /\ q = 42%nat); [now apply fitz_peerhdr|]. intros n q [-> ->]. apply fitz_fit.
  assert (P : forall c nt, fit 42 (put c nt) (fun n q => n = q /\ (43 <= q)%nat)).
  { intros c nt. subst put. cbn beta. fb (fun (_ : unit) q => q = 43%nat); [now apply fit_set_idx|]. intros _ q ->.
    apply fit_post with (Q := fun n q => n = q /\ (43 + 19 <= q)%nat); [|intros n q [-> H]; split; [reflexivity|lia]].
    apply fit_guard_sub; [|lia|now intros n q [_ H]]. apply fit_bgp_put; [apply fit_notif|apply fits16_notif]. }
  destruct (pd_reason m) as [nt|s|nt| |]; try apply P.
  - fb (fun (_ : unit) q => q = 43%nat); [now apply fit_set_idx|]. intros _ q ->.
    apply fit_post with (Q := fun n q => n = q /\ q = 45%nat); [|intros n q [-> ->]; lia].
    apply fit_guard_sub; [|lia|intros n q [_ ->]; lia]. fb (fun (_ : unit) q => q = 45%nat); [now apply fit_from_u16|]. intros _ q ->. now apply fit_ret.
  - fb (fun (_ : unit) q => q = 43%nat); [now apply fit_set_idx|]. intros _ q ->. apply fit_ret. lia.
  - fb (fun (_ : unit) q => q = 43%nat); [now apply fit_set_idx|]. intros _ q ->. apply fit_ret. lia.
Qed.
Lemma fitz_bmp oc m : bmp_tidy oc m -> fitz 0 (bmp_encode oc m) (fun n q => n = q).
Proof.
  intros Ht. unfold bmp_encode.
  assert (G : forall (e : Enc nat), fitz 0 e (fun n q => n = q /\ (1 <= q)%nat) -> fitz 0 (len <~ elen ;; if Nat.eqb len 0 then eerr EInsufficient else e) (fun n q => n = q)).
  { intros e F. eapply fitz_post with (Q := fun n q => n = q /\ (1 <= q)%nat); [|now intros n q [H _]].
    eapply fitz_ext; [|apply (fitz_guard 0 1 EInsufficient e); [exact F|now intros n q [_ H]]]. intros buf. unfold ebind, elen.
    destruct (Nat.eqb_spec (length buf) 0), (Nat.ltb_spec (length buf) 1); try reflexivity; lia. }
  assert (Put : forall c (e : Enc nat), fitz 0 e (fun n q => n = q) -> fitz 0 (set_idx 0 c ;;; n <~ on_from 1 e ;; eret (1 + n)%nat) (fun n q => n = q /\ (1 <= q)%nat)).
  { intros c e F. zb (fun (_ : unit) q => q = 1%nat); [now apply fitz_fit, fit_set_idx|]. intros _ q ->.
    zb (fun n q => q = (1 + n)%nat); [eapply fitz_on_from; [exact F|]; intros; cbn beta in *; lia|]. intros n q ->. apply fitz_fit, fit_ret. lia. }
  apply G. destruct m; cbn [bmp_tidy] in Ht.
  - apply Put, fitz_rmon; tauto.
  - apply fitz_fit, fit_panic.
  - apply Put, fitz_peerdown.
  - apply Put, fitz_peerup; tauto.
  - apply Put, fitz_fit, fit_init.
  - apply Put, fitz_fit, fit_term.
  - apply fitz_fit, fit_panic.
Qed.
Lemma fitz_settled e : fitz 0 e (fun n q => n = q) -> settled_front e.
Proof.
  intros F buf n b' E. destruct (F _ _ _ E) as (L & z & bs & C & Hn & W). cbn [Nat.add] in Hn. exists bs. split; [now symmetry|].
  intros buf2. split.
  - intros L2. exists (behind z (length bs) buf2). split.
    + rewrite app_length, length_behind. lia.
    + rewrite (W buf2) by (cbn [Nat.add]; lia). cbn [firstn app Nat.add]. reflexivity.
  - intros L2. destruct (e buf2) as [[n2 b2]| | |] eqn:E2; try reflexivity. exfalso.
    destruct (F _ _ _ E2) as (L3 & z2 & bs2 & C2 & Hn2 & W2). cbn [Nat.add] in Hn2, C2.
    assert (Hs : (length bs2 <= length buf2)%nat) by (destruct bs2; [cbn; lia|apply C2; congruence]).
    pose proof (W (repeat 0 (length bs)) ltac:(rewrite repeat_length; cbn; lia)) as B1.
    pose proof (W2 (repeat 0 (length bs)) ltac:(rewrite repeat_length; cbn; lia)) as B2.
    assert (n = n2) by congruence. lia.
Qed.
Lemma C104_bmp_l oc m : bmp_tidy oc m -> settled_front (bmp_encode oc m).
Proof. intros H. now apply fitz_settled, fitz_bmp. Qed.
Lemma C104_addrs_l oc a : addrs_tidy a -> settled (addrs_encode oc a).
Proof. intros H. now apply fit_settled, fit_addrs. Qed.
Lemma C104_attr_l oc p a : attr_tidy a -> settled (attr_encode oc p a).
Proof. intros H. now apply fit_settled, fit_attr. Qed.
Lemma C104_message_l oc p m : message_tidy m -> settled (message_encode oc p m).
Proof. intros H. now apply fit_settled, fit_message. Qed.
