(** Proofs about the order of prefixes and routes. *)
From Verif Require Import Base BaseFacts M_Util M_Prefix M_Nlri M_Vpls M_Mvpn M_Evpn M_Flowspec M_Cap M_Open M_Session M_Addrs M_Attr
  M_Order S_Prefix F_Prefix S_Order F_Order S_Sort.
Ltac Zify.zify_post_hook ::= idtac.

(** ** Dictionary order *)
Definition lexc : list N -> list N -> comparison := list_cmp N.compare.

Lemma lexc_refl x : lexc x x = Eq.
Proof. induction x as [|a x IH]; [reflexivity|]. unfold lexc in *. cbn. now rewrite N.compare_refl. Qed.
Lemma lexc_lt x : forall y, lexc x y = Lt <-> lex_lt x y.
Proof.
  induction x as [|a x IH]; intros [|b y].
  - split; [discriminate|]. intros [(p & a & b & r & s & E & _)|(a & s & E)]; [destruct p; discriminate E|discriminate E].
  - split; [|reflexivity]. intros _. right. now exists b, y.
  - split; [discriminate|]. intros [(p & c & b & r & s & _ & E & _)|(c & s & E)]; [destruct p; discriminate E|discriminate E].
  - unfold lexc. cbn. fold (lexc x y). destruct (N.compare_spec a b) as [E|E|E].
    + subst b. rewrite IH. split.
      * intros [(p & c & d & r & s & -> & -> & H)|(c & s & ->)]; [left; exists (a :: p), c, d, r, s; auto|right; now exists c, s].
      * intros [(p & c & d & r & s & E1 & E2 & H)|(c & s & E)].
        -- destruct p as [|e p]; cbn in E1, E2.
           ++ exfalso. assert (a = c) by congruence. assert (a = d) by congruence. subst. revert H. apply N.lt_irrefl.
           ++ left. exists p, c, d, r, s. repeat split; congruence || exact H.
        -- right. exists c, s. cbn in E. congruence.
    + split; [|reflexivity]. intros _. left. now exists [], a, b, x, y.
    + split; [discriminate|]. intros [(p & c & d & r & s & E1 & E2 & H)|(c & s & E')]; exfalso.
      * destruct p as [|e p]; cbn in E1, E2.
        -- assert (a = c) by congruence. assert (b = d) by congruence. subst. revert E. apply N.lt_asymm, H.
        -- assert (a = b) by congruence. subst. revert E. apply N.lt_irrefl.
      * cbn in E'. assert (a = b) by congruence. subst. revert E. apply N.lt_irrefl.
Qed.

(** Keys neither of which continues the other. *)
Definition apart (x y : list N) : Prop := x = y \/ (forall r s, lexc (x ++ r) (y ++ s) = lexc x y) /\ lexc x y <> Eq.
Lemma apart_lexc x y r s : apart x y -> lexc (x ++ r) (y ++ s) = match lexc x y with Eq => lexc r s | c => c end.
Proof.
  intros [->|[H N]].
  - rewrite lexc_refl. induction y as [|a y IH]; [reflexivity|]. unfold lexc in *. cbn. now rewrite N.compare_refl.
  - rewrite H. now destruct (lexc x y).
Qed.
Lemma lexc_eq x : forall y, lexc x y = Eq -> x = y.
Proof.
  induction x as [|a x IH]; intros [|b y]; try discriminate; [reflexivity|]. unfold lexc. cbn. fold (lexc x y).
  destruct (N.compare_spec a b) as [->|H|H]; try discriminate. intros E. now rewrite (IH _ E).
Qed.
Lemma apart_cons a b x y : a <> b \/ apart x y -> apart (a :: x) (b :: y).
Proof.
  intros H. destruct (N.eq_dec a b) as [->|Hn].
  - destruct H as [H|[->|[H1 H2]]]; [now destruct H|now left|]. right. unfold lexc. cbn. rewrite N.compare_refl. auto.
  - right. unfold lexc. cbn. destruct (N.compare_spec a b) as [E|E|E]; [contradiction|now split..].
Qed.
Lemma apart_len x : forall y, length x = length y -> apart x y.
Proof.
  induction x as [|a x IH]; intros [|b y] L; try discriminate L; [now left|]. apply apart_cons. right. apply IH. now injection L.
Qed.
Lemma apart_app x y r s : apart x y -> (x = y -> apart r s) -> apart (x ++ r) (y ++ s).
Proof.
  intros [->|[H N]] A.
  - specialize (A eq_refl). induction y as [|a y IH]; [exact A|]. cbn. apply apart_cons. now right.
  - right. split; [|now rewrite H]. intros t u. now rewrite <- !app_assoc, !H.
Qed.

(** [o] sorts by the keys [k], none of which continues another. *)
Definition keyed {T} (o : ord T) (k : T -> list N) (P : T -> Prop) : Prop :=
  forall x y, P x -> P y -> ocmp o x y = lexc (k x) (k y) /\ apart (k x) (k y).
Lemma keyed_sorted {T} (o : ord T) k P : keyed o k P -> sorted_by o k P.
Proof. intros H x y Px Py. rewrite (proj1 (H x y Px Py)). apply lexc_lt. Qed.
Lemma keyed_weak {T} (o : ord T) k (P Q : T -> Prop) : (forall x, Q x -> P x) -> keyed o k P -> keyed o k Q.
Proof. intros W H x y Qx Qy. apply H; now apply W. Qed.
Lemma keyed_ext {T} (o : ord T) k k' P : (forall x, k x = k' x) -> keyed o k P -> keyed o k' P.
Proof. intros E H x y Px Py. rewrite <- !E. now apply H. Qed.
Lemma keyed_num P : keyed onum (fun x => [x]) P.
Proof. intros x y _ _. split; [|now apply apart_len]. cbn. unfold lexc. cbn. now destruct (x ?= y). Qed.
Lemma keyed_bool P : keyed obool (fun x => [N.b2n x]) P.
Proof. intros x y _ _. split; [|now apply apart_len]. now destruct x, y. Qed.
Lemma keyed_labels P : keyed olabels (fun _ => []) P.
Proof. intros x y _ _. split; [reflexivity|now left]. Qed.
Lemma keyed_view {A B} (f : A -> B) (o : ord B) k P : keyed o k P -> keyed (oview f o) (fun x => k (f x)) (fun x => P (f x)).
Proof. intros H x y Px Py. now apply H. Qed.
Lemma keyed_fields {A B} (a : ord A) (b : ord B) ka kb P Q : keyed a ka P -> keyed b kb Q ->
  keyed (ofields a b) (fun x => ka (fst x) ++ kb (snd x)) (fun x => P (fst x) /\ Q (snd x)).
Proof.
  intros Ha Hb [x1 x2] [y1 y2] [P1 P2] [Q1 Q2]. cbn in *. destruct (Ha _ _ P1 Q1) as [E1 A1]. destruct (Hb _ _ P2 Q2) as [E2 A2].
  split; [|now apply apart_app]. rewrite apart_lexc by exact A1. now rewrite E1, E2.
Qed.
Lemma keyed_bytes n : keyed (olist onum) (fun x => x) (fun x => length x = n).
Proof. intros x y Hx Hy. split; [reflexivity|]. apply apart_len. congruence. Qed.
(** Enumerations: the keys of [b] all begin with a number of at least [n]. *)
Definition from {T} (n : N) (k : T -> list N) : Prop := forall x, exists i r, k x = i :: r /\ n <= i.
Lemma keyed_variants {A B} n (a : ord A) (b : ord B) ka kb P Q : keyed a ka P -> keyed b kb Q -> from (n + 1) kb ->
  keyed (ovariants a b) (fun x => match x with inl x => n :: ka x | inr x => kb x end)
    (fun x => match x with inl x => P x | inr x => Q x end).
Proof.
  intros Ha Hb F [x|x] [y|y] Px Py.
  - destruct (Ha x y Px Py) as [E AP]. split; [|apply apart_cons; now right]. cbn. unfold lexc. cbn. now rewrite N.compare_refl.
  - destruct (F y) as (i & r & -> & L). assert (n < i) by (clear - L; lia). split; [|apply apart_cons; left; clear - H; lia].
    cbn. unfold lexc. cbn. destruct (N.compare_spec n i); [exfalso; clear - H H0; lia|reflexivity|exfalso; clear - H H0; lia].
  - destruct (F x) as (i & r & -> & L). assert (n < i) by (clear - L; lia). split; [|apply apart_cons; left; clear - H; lia].
    cbn. unfold lexc. cbn. destruct (N.compare_spec i n); [exfalso; clear - H H0; lia|exfalso; clear - H H0; lia|reflexivity].
  - now apply Hb.
Qed.
Lemma keyed_last {A} n (a : ord A) ka P : keyed a ka P -> keyed a (fun x => n :: ka x) P.
Proof.
  intros Ha x y Px Py. destruct (Ha x y Px Py) as [E AP]. split; [|apply apart_cons; now right].
  unfold lexc. cbn. now rewrite N.compare_refl.
Qed.
Lemma from_variants {A B} n (ka : A -> list N) (kb : B -> list N) : from (n + 1) kb ->
  from n (fun x : A + B => match x with inl x => n :: ka x | inr x => kb x end).
Proof.
  intros F [x|x]; [exists n, (ka x); split; [reflexivity|apply N.le_refl]|]. destruct (F x) as (i & r & E & L). exists i, r. split; [exact E|clear - L; lia].
Qed.
Lemma from_last {A} n (ka : A -> list N) : from n (fun x => n :: ka x).
Proof. intros x. exists n, (ka x). split; [reflexivity|apply N.le_refl]. Qed.
Lemma keyed_list {A} (a : ord A) k P : keyed a k P -> keyed (olist a) (list_key k) (Forall P).
Proof.
  intros H x. induction x as [|a0 x IH]; intros [|b0 y] Px Py; unfold list_key in *.
  - split; [reflexivity|now left].
  - split; [reflexivity|]. cbn. apply apart_cons. now left.
  - split; [reflexivity|]. cbn. apply apart_cons. left. discriminate.
  - apply Forall_cons_iff in Px as [Pa Px]. apply Forall_cons_iff in Py as [Pb Py]. destruct (IH y Px Py) as [E AP].
    destruct (H a0 b0 Pa Pb) as [E0 A0]. cbn [map concat]. rewrite <- !app_assoc. cbn [app]. split.
    + cbn [ocmp olist list_cmp]. change (list_cmp (ocmp a) x y) with (ocmp (olist a) x y). rewrite E0.
      unfold lexc at 2. cbn [list_cmp]. rewrite N.compare_refl.
      match goal with |- _ = list_cmp N.compare ?u ?v => change (list_cmp N.compare u v) with (lexc u v) end.
      rewrite apart_lexc by exact A0. now rewrite E.
    + apply apart_cons. right. apply apart_app; auto.
Qed.

(** ** The route types *)
Lemma keyed_imp {T} (o : ord T) k k' (P Q : T -> Prop) : keyed o k P -> (forall x, k x = k' x) -> (forall x, Q x -> P x) -> keyed o k' Q.
Proof. intros H E W. apply (keyed_weak o k' P Q W). now apply (keyed_ext o k k' P E). Qed.
Ltac ktac := repeat first [apply keyed_num | apply keyed_bool | apply keyed_labels | apply keyed_fields].
Ltac kview t := eapply keyed_imp; [apply keyed_view; t| |].
Lemma keyed_v4 : keyed ov4 v4_key any.
Proof. kview ltac:(apply keyed_fields; [apply (keyed_num any)|apply (keyed_num any)]); [reflexivity|]. intros x _. now split. Qed.
Lemma keyed_v6 : keyed ov6 v6_key any.
Proof. kview ltac:(apply keyed_fields; [apply (keyed_num any)|apply (keyed_num any)]); [reflexivity|]. intros x _. now split. Qed.
Lemma keyed_rd : keyed ord_rd rd_key any.
Proof. kview ltac:(apply keyed_fields; [apply (keyed_num any)|apply (keyed_num any)]); [reflexivity|]. intros x _. now split. Qed.
Lemma keyed_ip : keyed oip ip_key any.
Proof.
  kview ltac:(apply (keyed_variants 0); [apply (keyed_num any)|apply (keyed_last 1), (keyed_num any)|apply from_last]).
  - now intros [x|x].
  - now intros [x|x] _.
Qed.
Lemma keyed_unit : keyed ounit (fun _ => []) any.
Proof. intros x y _ _. split; [reflexivity|now left]. Qed.
Lemma keyed_optip : keyed (ooption oip) optip_key any.
Proof.
  unfold ooption. kview ltac:(apply (keyed_variants 0); [apply keyed_unit|apply (keyed_last 1), keyed_ip|apply from_last]).
  - now intros [x|].
  - now intros [x|] _.
Qed.
Lemma keyed_macpfx : keyed omacpfx macp_key (fun p => length (mc_addr p) = 6%nat).
Proof. kview ltac:(apply keyed_fields; [apply (keyed_bytes 6)|apply (keyed_num any)]); [reflexivity|]. intros x H. now split. Qed.
Lemma keyed_net : keyed onet net_key net_sized.
Proof.
  kview ltac:(apply (keyed_variants 0); [apply keyed_v4| |apply from_variants, from_last];
    apply (keyed_variants 1); [apply keyed_v6|apply (keyed_last 2), keyed_macpfx|apply from_last]).
  - now intros [p|p|p].
  - now intros [p|p|p] H.
Qed.
Lemma keyed_labeled {T} (o : ord T) k : keyed o k any -> keyed (olabeled o) (lab_key k) any.
Proof. intros H x y _ _. now apply H. Qed.
Lemma keyed_withrd {T} (o : ord T) k : keyed o k any -> keyed (owithrd o) (wrd_key k) any.
Proof.
  intros H x y _ _. destruct (H (wrd_prefix x) (wrd_prefix y) I I) as [E A]. destruct (keyed_rd (wrd_rd x) (wrd_rd y) I I) as [E2 A2].
  split; [|now apply apart_app]. unfold wrd_key. rewrite apart_lexc by exact A. cbn [ocmp owithrd]. rewrite E, E2. now destruct (lexc _ _).
Qed.
Lemma keyed_withpid {T} (o : ord T) k : keyed o k any -> keyed (owithpid o) (pid_key k) any.
Proof.
  intros H x y _ _. destruct (H (pid_nlri x) (pid_nlri y) I I) as [E A]. destruct (keyed_num any (pid x) (pid y) I I) as [E2 A2].
  split; [|now apply apart_app]. unfold pid_key. rewrite apart_lexc by exact A. cbn [ocmp owithpid]. rewrite E, E2. now destruct (lexc _ _).
Qed.
Lemma keyed_mdt4 : keyed omdt4 mdt4_key any.
Proof. kview ltac:(apply keyed_fields; [apply keyed_v4|apply (keyed_num any)]); [reflexivity|]. intros x _. now split. Qed.
Lemma keyed_mdt6 : keyed omdt6 mdt6_key any.
Proof. kview ltac:(apply keyed_fields; [apply keyed_v6|apply (keyed_num any)]); [reflexivity|]. intros x _. now split. Qed.
Ltac kf := repeat first [apply keyed_fields | apply keyed_rd | apply keyed_ip | apply keyed_optip | apply (keyed_num any) | apply (keyed_labels any) | apply (keyed_bool any)].
Ltac kdone := intros x; intros; cbn; unfold any; tauto.
Lemma keyed_l2 : keyed ol2 l2_key any.
Proof. kview kf; [reflexivity|kdone]. Qed.
Lemma keyed_l2a : keyed ol2a l2a_key any.
Proof. kview kf; [reflexivity|kdone]. Qed.
Lemma keyed_mv3 : keyed omvpn3 mv3_key any.
Proof. kview kf; [reflexivity|kdone]. Qed.
Lemma keyed_mv67 : keyed omvpn67 mv67_key any.
Proof. kview kf; [reflexivity|kdone]. Qed.
Lemma keyed_mvpn : keyed omvpn mvpn_key any.
Proof.
  eapply keyed_imp.
  - apply keyed_view. apply (keyed_variants 1); [apply keyed_view; kf| |].
    apply (keyed_variants 2); [apply keyed_view; kf| |].
    apply (keyed_variants 3); [apply keyed_mv3| |].
    apply (keyed_variants 4); [apply keyed_view, keyed_fields; [apply keyed_mv3|apply keyed_ip]| |].
    apply (keyed_variants 5); [apply keyed_view; kf| |].
    apply (keyed_variants 6); [apply keyed_mv67|apply (keyed_last 7), keyed_mv67|].
    all: repeat apply from_variants; apply from_last.
  - now intros [r|r|r|r|r|r|r].
  - intros [r|r|r|r|r|r|r] _; cbn; unfold any; tauto.
Qed.
Lemma keyed_evpn : keyed oevpn evpn_key evpn_sized.
Proof.
  eapply keyed_imp.
  - apply keyed_view. apply (keyed_variants 1);
      [apply keyed_view, keyed_fields; [apply keyed_rd|]; apply keyed_fields; [apply (keyed_num any)|]; apply keyed_fields; [apply (keyed_bytes 9)|kf]| |].
    apply (keyed_variants 2);
      [apply keyed_view, keyed_fields; [apply keyed_rd|]; apply keyed_fields; [apply (keyed_num any)|]; apply keyed_fields; [apply (keyed_bytes 9)|];
       apply keyed_fields; [apply (keyed_num any)|]; apply keyed_fields; [apply (keyed_bytes 6)|kf]| |].
    apply (keyed_variants 3); [apply keyed_view; kf| |].
    apply (keyed_variants 4);
      [apply keyed_view, keyed_fields; [apply keyed_rd|]; apply keyed_fields; [apply (keyed_num any)|]; apply keyed_fields; [apply (keyed_bytes 9)|kf]| |].
    apply (keyed_last 5).
    apply keyed_view, keyed_fields; [apply keyed_rd|]; apply keyed_fields; [apply (keyed_num any)|]; apply keyed_fields; [apply (keyed_bytes 9)|kf].
    all: repeat apply from_variants; apply from_last.
  - intros [r|r|r|r|r]; cbn; rewrite ?app_nil_r; try reflexivity.
    all: repeat (rewrite ?app_nil_r; cbn [app]); try reflexivity.
  - intros [r|r|r|r|r]; cbn; unfold any; tauto.
Qed.
Lemma keyed_fs6 : keyed ofs6 fs6_key any.
Proof. kview ltac:(apply keyed_fields; [apply keyed_v6|apply (keyed_num any)]); [reflexivity|kdone]. Qed.
Lemma keyed_fsval : keyed ofsval fsval_key any.
Proof. kview kf; [reflexivity|kdone]. Qed.
Lemma keyed_fsmask : keyed ofsmask fsmask_key any.
Proof. kview kf; [reflexivity|kdone]. Qed.
Lemma Forall_any {A} (l : list A) : Forall any l.
Proof. induction l; constructor; [exact I|assumption]. Qed.
Lemma keyed_vals {A} (a : ord A) k : keyed a k any -> keyed (olist a) (list_key k) any.
Proof. intros H. apply (keyed_weak _ _ (Forall any)); [intros; apply Forall_any|]. now apply keyed_list. Qed.
Lemma keyed_flowspec {T} (o : ord T) k : keyed o k any -> keyed (oflowspec o) (flowspec_key k) any.
Proof.
  intros H x y _ _.
  assert (S : forall i j (u v : list N) c, i = j -> c = lexc u v /\ apart u v ->
    (match i ?= j with Eq => c | d => d end) = lexc (i + 1 :: u) (j + 1 :: v) /\ apart (i + 1 :: u) (j + 1 :: v)).
  { intros i j u v c -> [-> A]. rewrite N.compare_refl. split; [|apply apart_cons; now right]. unfold lexc. cbn. now rewrite N.compare_refl. }
  pose proof (keyed_vals _ _ keyed_fsval) as Hv. pose proof (keyed_vals _ _ keyed_fsmask) as Hm.
  destruct x as [a|a|v|v|v|v|v|v|v|v|v|v|v], y as [b|b|w|w|w|w|w|w|w|w|w|w|w];
    cbn [flowspec_key ocmp oflowspec oview ofields flowspec_view fst snd onum ovariants];
    match goal with |- _ = lexc (?i :: _) (?j :: _) /\ _ =>
      let i' := eval vm_compute in (i - 1) in let j' := eval vm_compute in (j - 1) in
      first [ constr_eq i j; refine (S i' j' _ _ _ eq_refl _); first [apply H; exact I|apply Hv; exact I|apply Hm; exact I]
            | split; [reflexivity|apply apart_cons; left; discriminate] ]
    end.
Qed.

Ltac kroute := first [apply keyed_v4 | apply keyed_v6 | apply keyed_l2a | apply keyed_mvpn | apply keyed_evpn | apply keyed_mdt4 | apply keyed_mdt6
  | apply keyed_fs6 | apply keyed_labeled; kroute | apply keyed_withrd; kroute | apply keyed_withpid; kroute | apply keyed_flowspec; kroute].
Ltac kvars n := first [ apply (keyed_variants n); [first [apply keyed_unit|apply keyed_list; kroute]|let m := eval vm_compute in (n + 1) in kvars m|repeat apply from_variants; apply from_last]
  | apply (keyed_last n), keyed_list; kroute ].
Lemma keyed_addrs : keyed oaddrs addrs_key addrs_sized.
Proof.
  eapply keyed_imp.
  - apply keyed_view. kvars 0.
  - intros []; reflexivity.
  - intros [] H; cbn [addrs_view]; first [exact I|exact H|apply Forall_any].
Qed.

(** ** Covered prefixes form one run *)
Lemma upto_pair {T} (o : ord T) (k : T -> list N) x y a b c d : keyed o k any -> k x = [a; b] -> k y = [c; d] ->
  (upto o x y <-> a < c \/ (a = c /\ b <= d)).
Proof.
  intros K E1 E2. unfold upto. rewrite (proj1 (K x y I I)), E1, E2. unfold lexc. cbn.
  destruct (N.compare_spec a c) as [H|H|H].
  - destruct (N.compare_spec b d) as [G|G|G].
    + split; [intros _; right; clear - H G; lia|discriminate].
    + split; [intros _; right; clear - H G; lia|discriminate].
    + split; [intros W; now destruct W|]. intros W. exfalso. clear - H G W. lia.
  - split; [intros _; now left|discriminate].
  - split; [intros W; now destruct W|]. intros W. exfalso. clear - H W. lia.
Qed.
Definition top (w l s : N) : N := s / 2 ^ (w - l) * 2 ^ (w - l) + (2 ^ (w - l) - 1).
Lemma run_val w ls s la a : s < 2 ^ w -> a < 2 ^ w -> ls <= w -> la <= w -> normalised w ls s -> normalised w la a ->
  (cont_val w ls s la a = true <->
   (s < a \/ (s = a /\ ls <= la)) /\ (a < top w ls s \/ (a = top w ls s /\ la <= w))).
Proof.
  intros Hs Ha Ls La Ns Na. rewrite normalised_mod in Ns, Na by assumption. unfold cont_val, top.
  set (k := w - ls). fold k in Ns. pose proof (interval_div k s a) as IV. pose proof (N.div_mod s (2 ^ k) (pow2_nz k)) as Ds.
  rewrite Ns, N.add_0_r in Ds. rewrite N.mul_comm in Ds. rewrite <- Ds in *.
  destruct (N.ltb_spec ls 1) as [L0|L0].
  { assert (ls = 0) by (clear - L0; lia). subst ls. assert (k = w) by (unfold k; clear; lia). rewrite H in *.
    assert (s = 0). { rewrite N.div_small in Ds by exact Hs. exact Ds. } subst s. split; [|reflexivity]. intros _.
    split; clear - Ha La; lia. }
  destruct (N.ltb_spec la ls) as [L1|L1].
  { split; [discriminate|]. intros [H1 H2]. exfalso.
    assert (Hlt : s < a) by (clear - H1 L1; lia).
    assert (Hq : s / 2 ^ k = a / 2 ^ k). { apply IV. clear - H1 H2. lia. }
    assert (a mod 2 ^ k = 0).
    { assert (E : 2 ^ (w - la) = 2 ^ k * 2 ^ (ls - la)) by (rewrite <- N.pow_add_r; f_equal; unfold k; clear - L1 Ls La; lia).
      rewrite E in Na. apply N.mod_divide; [apply pow2_nz|]. apply N.mod_divide in Na; [|rewrite <- E; apply pow2_nz].
      destruct Na as [z ->]. exists (z * 2 ^ (ls - la)). rewrite (N.mul_comm (2 ^ k)). apply N.mul_assoc. }
    pose proof (N.div_mod a (2 ^ k) (pow2_nz k)) as Da. rewrite H, N.add_0_r, <- Hq, N.mul_comm, <- Ds in Da.
    clear - Da Hlt. lia. }
  assert (W : (s < a \/ (s = a /\ ls <= la)) /\ (a < s + (2 ^ k - 1) \/ (a = s + (2 ^ k - 1) /\ la <= w)) <-> s / 2 ^ k = a / 2 ^ k).
  { rewrite <- IV. clear - L1 La. lia. }
  rewrite W. destruct (N.eqb_spec ls la) as [E|E]; rewrite N.eqb_eq; [|reflexivity].
  subst la. split; [now intros ->|]. intros H. pose proof (N.div_mod a (2 ^ k) (pow2_nz k)) as Da.
  fold k in Na. rewrite Na, N.add_0_r, <- H, N.mul_comm, <- Ds in Da. now symmetry.
Qed.
Lemma v4_run oc p : v4_wf p -> normalised 32 (v4_len p) (v4_addr p) -> exists last, v4_range_last oc p = Ok last /\
  forall q, v4_wf q -> normalised 32 (v4_len q) (v4_addr q) ->
    (v4_contains oc p q = Ok true <-> upto ov4 p q /\ upto ov4 q (mkV4 last 32)).
Proof.
  intros Hp Np. eexists. split; [now apply v4_range_last_ok|]. intros q Hq Nq. rewrite v4_contains_eval by assumption.
  change (Ok (cont_val 32 (v4_len p) (v4_addr p) (v4_len q) (v4_addr q)) = Ok true <-> 
    upto ov4 p q /\ upto ov4 q (mkV4 (top 32 (v4_len p) (v4_addr p)) 32)).
  rewrite !(upto_pair ov4 v4_key _ _ _ _ _ _ keyed_v4 eq_refl eq_refl). cbn [v4_addr v4_len].
  destruct Hp as [Hp1 Hp2], Hq as [Hq1 Hq2]. rewrite <- run_val by assumption. split; congruence.
Qed.
Lemma v6_run oc p : v6_wf p -> normalised 128 (v6_len p) (v6_addr p) -> exists last, v6_range_last oc p = Ok last /\
  forall q, v6_wf q -> normalised 128 (v6_len q) (v6_addr q) ->
    (v6_contains oc p q = Ok true <-> upto ov6 p q /\ upto ov6 q (mkV6 last 128)).
Proof.
  intros Hp Np. eexists. split; [now apply v6_range_last_ok|]. intros q Hq Nq. rewrite v6_contains_eval by assumption.
  change (Ok (cont_val 128 (v6_len p) (v6_addr p) (v6_len q) (v6_addr q)) = Ok true <-> 
    upto ov6 p q /\ upto ov6 q (mkV6 (top 128 (v6_len p) (v6_addr p)) 128)).
  rewrite !(upto_pair ov6 v6_key _ _ _ _ _ _ keyed_v6 eq_refl eq_refl). cbn [v6_addr v6_len].
  destruct Hp as [Hp1 Hp2], Hq as [Hq1 Hq2]. rewrite <- run_val by assumption. split; congruence.
Qed.
Lemma upto_same {A B} (a : ord A) (f : A -> B) (b : ord B) x y : (forall x y, ocmp b (f x) (f y) = ocmp a x y) -> upto b (f x) (f y) <-> upto a x y.
Proof. intros H. unfold upto. now rewrite H. Qed.
Lemma net_run oc p : net_clean p -> net_kind p <> KMac -> exists last, last_covered oc p last /\
  forall q, net_clean q -> (net_contains oc p q = Ok true <-> upto onet p q /\ upto onet q last).
Proof.
  intros [Wp Np] K. destruct p as [p|p|p]; [| |now destruct K].
  - destruct (v4_run oc p Wp Np) as (l & E & H). exists (NetV4 (mkV4 l 32)). split; [now exists l|].
    intros [q|q|q] [Wq Nq]; cbn [net_contains].
    + rewrite (H q Wq Nq). reflexivity.
    + split; [discriminate|]. intros [_ W]. now destruct W.
    + split; [discriminate|]. intros [_ W]. now destruct W.
  - destruct (v6_run oc p Wp Np) as (l & E & H). exists (NetV6 (mkV6 l 128)). split; [now exists l|].
    intros [q|q|q] [Wq Nq]; cbn [net_contains].
    + split; [discriminate|]. intros [W _]. now destruct W.
    + rewrite (H q Wq Nq). reflexivity.
    + split; [discriminate|]. intros [_ W]. now destruct W.
Qed.

(** MAC prefixes: the least significant octet is compared first. *)
Lemma low_octet m : mac_wf m -> exists b0 b1 b2 b3 b4 b5, m = [b0; b1; b2; b3; b4; b5] /\
  b0 < 256 /\ b5 < 256 /\ mac_val m mod 256 = b0 /\ mac_val m / 2 ^ 40 = b5.
Proof.
  intros [L B]. destruct m as [|b0 [|b1 [|b2 [|b3 [|b4 [|b5 [|? ?]]]]]]]; try discriminate L.
  exists b0, b1, b2, b3, b4, b5. split; [reflexivity|].
  unfold bytes_ok in B. repeat (apply Forall_cons_iff in B as [? B]).
  assert (V : mac_val [b0; b1; b2; b3; b4; b5] = b5 * 2 ^ 40 + b4 * 2 ^ 32 + b3 * 2 ^ 24 + b2 * 2 ^ 16 + b1 * 2 ^ 8 + b0).
  { unfold mac_val, be_val. cbn [rev app fold_left].
    change (2 ^ 40) with 1099511627776. change (2 ^ 32) with 4294967296. change (2 ^ 24) with 16777216. change (2 ^ 16) with 65536. change (2 ^ 8) with 256.
    clear. lia. }
  rewrite V. repeat split; try assumption.
  - symmetry. apply (N.mod_unique _ _ (b5 * 2 ^ 32 + b4 * 2 ^ 24 + b3 * 2 ^ 16 + b2 * 2 ^ 8 + b1)); [assumption|].
    change (2 ^ 40) with 1099511627776. change (2 ^ 32) with 4294967296. change (2 ^ 24) with 16777216. change (2 ^ 16) with 65536. change (2 ^ 8) with 256.
    clear. lia.
  - symmetry. apply (N.div_unique _ _ _ (b4 * 2 ^ 32 + b3 * 2 ^ 24 + b2 * 2 ^ 16 + b1 * 2 ^ 8 + b0)); [|change (2 ^ 40) with 1099511627776; change (2 ^ 32) with 4294967296; change (2 ^ 24) with 16777216; change (2 ^ 16) with 65536; change (2 ^ 8) with 256; clear; lia].
    clear V. change (2 ^ 40) with 1099511627776. change (2 ^ 32) with 4294967296. change (2 ^ 24) with 16777216. change (2 ^ 16) with 65536. change (2 ^ 8) with 256.
    clear - H H0 H1 H2 H3. unfold is_byte in *. lia.
Qed.

Lemma last_low k v : 2 <= k -> k <= 47 -> v mod 2 ^ k = 0 -> v mod 256 + 1 < (v + (2 ^ k - 1)) mod 256.
Proof.
  intros K1 K2 D. destruct (N.le_gt_cases 8 k) as [K|K].
  - assert (E : 2 ^ k = 256 * 2 ^ (k - 8)). { change 256 with (2 ^ 8). rewrite <- N.pow_add_r. f_equal. clear - K. lia. }
    apply N.mod_divide in D; [|apply pow2_nz]. destruct D as [z ->]. rewrite E. pose proof (pow2_nz (k - 8)) as Nz. set (m := 2 ^ (k - 8)) in *. clearbody m.
    replace ((z * (256 * m)) mod 256) with 0.
    + replace (z * (256 * m) + (256 * m - 1)) with (255 + (z * m + (m - 1)) * 256) by (clear - Nz; nia).
      rewrite N.mod_add by discriminate. reflexivity.
    + symmetry. replace (z * (256 * m)) with ((z * m) * 256) by (clear; nia). apply N.mod_mul. discriminate.
  - assert (E : k = 2 \/ k = 3 \/ k = 4 \/ k = 5 \/ k = 6 \/ k = 7) by (clear - K K1; lia).
    apply N.mod_divide in D; [|apply pow2_nz]. destruct D as [z ->]. pose proof (N.mod_lt z (2 ^ (8 - k)) (pow2_nz _)) as Hr.
    pose proof (N.div_mod z (2 ^ (8 - k)) (pow2_nz _)) as Dz. set (q := z / 2 ^ (8 - k)) in *. set (r := z mod 2 ^ (8 - k)) in *. clearbody q r.
    assert (P : 256 = 2 ^ (8 - k) * 2 ^ k). { rewrite <- N.pow_add_r. replace (8 - k + k) with 8 by (clear - K; lia). reflexivity. }
    assert (B : r * 2 ^ k + 2 ^ k <= 256). { rewrite P. set (m := 2 ^ k) in *. clearbody m. clear - Hr. nia. }
    assert (F : 4 <= 2 ^ k) by (repeat destruct E as [E|E]; subst k; try discriminate).
    assert (Z : z * 2 ^ k = r * 2 ^ k + q * 256). { rewrite Dz, P. set (m := 2 ^ k) in *. clearbody m. clear. nia. }
    rewrite Z. set (m := 2 ^ k) in *. clearbody m.
    rewrite N.mod_add by discriminate. replace (r * m + q * 256 + (m - 1)) with (r * m + (m - 1) + q * 256) by (clear; lia).
    rewrite N.mod_add by discriminate. rewrite !N.mod_small; clear - B F; lia.
Qed.
Lemma mac_run_refuted46 oc p : macp_wf p -> normalised 48 (mc_len p) (mac_val (mc_addr p)) -> 1 <= mc_len p -> mc_len p <= 46 ->
  exists last q, mac_range_last oc p = Ok last /\ macp_wf q /\ mc_len q = 48 /\
    upto omacpfx p q /\ upto omacpfx q (mkMac last 48) /\ mac_contains oc p q = Ok false.
Proof.
  intros Wp Np L1 L2. pose proof Wp as [Wm Wl]. rewrite normalised_mod in Np by exact Wl.
  assert (K : 2 <= 48 - mc_len p /\ 48 - mc_len p <= 47) by (clear - L1 L2; lia).
  destruct (low_octet _ Wm) as (b0 & b1 & b2 & b3 & b4 & b5 & E & B0 & B5 & V0 & V5).
  pose proof (last_low _ _ (proj1 K) (proj2 K) Np) as Hlast. rewrite V0 in Hlast.
  pose proof (N.div_mod (mac_val (mc_addr p)) (2 ^ (48 - mc_len p)) (pow2_nz _)) as D. rewrite Np, N.add_0_r, N.mul_comm in D.
  eexists. exists (mkMac [b0 + 1; 0; 0; 0; 0; if b5 <? 128 then 128 else 0] 48). split; [now apply mac_range_last_ok|].
  rewrite <- D.
  pose proof (top_bound 48 (48 - mc_len p) (mac_val (mc_addr p)) (mac_val_bound _ Wm) ltac:(clear; lia)) as Tb. rewrite <- D in Tb.
  set (top := mac_val (mc_addr p) + (2 ^ (48 - mc_len p) - 1)) in *.
  destruct (low_octet _ (mac_from_u64_wf top)) as (t0 & t1 & t2 & t3 & t4 & t5 & Et & T0 & _ & U0 & _).
  rewrite mac_val_from_u64 in U0 by exact Tb. rewrite U0 in Hlast.
  assert (Wq : mac_wf [b0 + 1; 0; 0; 0; 0; if b5 <? 128 then 128 else 0]).
  { split; [reflexivity|]. unfold bytes_ok. repeat apply Forall_cons; try exact (Forall_nil _); try reflexivity.
    - unfold is_byte. clear - Hlast T0. lia.
    - now destruct (b5 <? 128). }
  split; [split; [exact Wq|discriminate]|]. split; [reflexivity|].
  rewrite Et. split; [|split].
  - unfold upto. cbn. rewrite E. cbn. destruct (N.compare_spec b0 (b0 + 1)); [exfalso; clear - H; lia|discriminate|exfalso; clear - H; lia].
  - unfold upto. cbn. destruct (N.compare_spec (b0 + 1) t0); [exfalso; clear - H Hlast; lia|discriminate|exfalso; clear - H Hlast; lia].
  - rewrite mac_contains_eval; [|exact Wp|split; [exact Wq|discriminate]]. cbn [mc_len mc_addr].
    destruct (N.ltb_spec (mc_len p) 1); [exfalso; clear - H L1; lia|].
    destruct (N.ltb_spec 48 (mc_len p)); [exfalso; clear - H0 L2; lia|].
    destruct (N.eqb_spec (mc_len p) 48); [exfalso; clear - e L2; lia|]. f_equal. apply N.eqb_neq. intros Q.
    apply (div_pow_coarser _ _ _ 47) in Q; [|exact (proj2 K)].
    destruct (low_octet _ Wq) as (c0 & c1 & c2 & c3 & c4 & c5 & Ec & _ & _ & _ & W5). injection Ec as _ _ _ _ _ Ec.
    change (2 ^ 47) with (2 ^ 40 * 128) in Q. rewrite <- !N.div_div in Q by discriminate. rewrite V5, W5, <- Ec in Q.
    destruct (N.ltb_spec b5 128).
    + rewrite N.div_small in Q by assumption. discriminate Q.
    + assert (1 <= b5 / 128) by (apply N.div_le_lower_bound; [discriminate|clear - H1; lia]). rewrite Q in H2. now destruct H2.
Qed.

Lemma mac_run_refuted47 oc p : macp_wf p -> normalised 48 (mc_len p) (mac_val (mc_addr p)) -> mc_len p = 47 ->
  exists last q, mac_range_last oc p = Ok last /\ macp_wf q /\ mc_len q = 48 /\
    upto omacpfx p q /\ upto omacpfx q (mkMac last 48) /\ mac_contains oc p q = Ok false.
Proof.
  intros Wp Np L. pose proof Wp as [Wm Wl]. rewrite normalised_mod in Np by exact Wl.
  destruct (low_octet _ Wm) as (b0 & b1 & b2 & b3 & b4 & b5 & E & B0 & B5 & V0 & V5).
  pose proof (N.div_mod (mac_val (mc_addr p)) (2 ^ (48 - mc_len p)) (pow2_nz _)) as D. rewrite Np, N.add_0_r, N.mul_comm in D.
  pose proof (top_bound 48 (48 - mc_len p) (mac_val (mc_addr p)) (mac_val_bound _ Wm) ltac:(clear; lia)) as Tb. rewrite <- D in Tb.
  pose proof (mac_range_last_ok oc p Wp) as R. rewrite <- D in R.
  set (top := mac_val (mc_addr p) + (2 ^ (48 - mc_len p) - 1)) in *.
  destruct (low_octet _ (mac_from_u64_wf top)) as (t0 & t1 & t2 & t3 & t4 & t5 & Et & T0 & _ & U0 & _).
  rewrite mac_val_from_u64 in U0 by exact Tb.
  assert (H0 : t0 = b0 + 1).
  { subst top. rewrite L in *. change (2 ^ (48 - 47)) with 2 in *. set (v := mac_val (mc_addr p)) in *. clearbody v.
    apply N.mod_divide in Np; [|discriminate]. destruct Np as [z ->].
    pose proof (N.div_mod (z * 2) 256 ltac:(discriminate)) as D2. rewrite V0 in D2. set (w := z * 2 / 256) in *. clearbody w.
    assert (B : b0 + 1 < 256) by (clear - D2 B0; lia).
    rewrite <- U0. symmetry. apply (N.mod_unique _ _ w); [exact B|]. clear - D2. lia. }
  set (q := if b5 <? 255 then [b0; b1; b2; b3; b4; 255] else [b0 + 1; 0; 0; 0; 0; 0]).
  assert (Wq : mac_wf q).
  { unfold q. destruct Wm as [_ Bm]. rewrite E in Bm. unfold bytes_ok in *. repeat (apply Forall_cons_iff in Bm as [? Bm]).
    destruct (b5 <? 255); (split; [reflexivity|]); repeat apply Forall_cons; try exact (Forall_nil _); try reflexivity; try assumption.
    unfold is_byte. rewrite <- H0. exact T0. }
  exists (mac_from_u64 top), (mkMac q 48). split; [exact R|]. split; [split; [exact Wq|discriminate]|]. split; [reflexivity|].
  rewrite Et. split; [|split].
  - unfold upto, q. cbn. rewrite E. destruct (N.ltb_spec b5 255); cbn.
    + rewrite !N.compare_refl. destruct (N.compare_spec b5 255); [exfalso; clear - H H1; lia|discriminate|exfalso; clear - H H1; lia].
    + destruct (N.compare_spec b0 (b0 + 1)); [exfalso; clear - H1; lia|discriminate|exfalso; clear - H1; lia].
  - unfold upto, q. cbn. destruct (b5 <? 255); cbn.
    + destruct (N.compare_spec b0 t0); [exfalso; clear - H H0; lia|discriminate|exfalso; clear - H H0; lia].
    + rewrite H0, N.compare_refl. destruct t1, t2, t3, t4, t5; cbn; discriminate.
  - rewrite mac_contains_eval; [|exact Wp|split; [exact Wq|discriminate]]. cbn [mc_len mc_addr]. rewrite L. cbn.
    f_equal. apply N.eqb_neq. intros Q.
    apply (div_pow_coarser (mac_val (mc_addr p)) (mac_val q) 1 40) in Q; [|discriminate]. rewrite V5 in Q.
    destruct (low_octet _ Wq) as (c0 & c1 & c2 & c3 & c4 & c5 & Ec & _ & _ & _ & W5). rewrite W5 in Q. unfold q in Ec.
    destruct (N.ltb_spec b5 255); injection Ec as _ _ _ _ _ Ec; clear - H B5 Q Ec; lia.
Qed.
Lemma mac_run_refuted oc p : macp_wf p -> normalised 48 (mc_len p) (mac_val (mc_addr p)) -> 1 <= mc_len p -> mc_len p <= 47 ->
  exists last q, mac_range_last oc p = Ok last /\ macp_wf q /\ mc_len q = 48 /\
    upto omacpfx p q /\ upto omacpfx q (mkMac last 48) /\ mac_contains oc p q = Ok false.
Proof.
  intros W Np L1 L2. destruct (N.eq_dec (mc_len p) 47) as [E|E]; [now apply mac_run_refuted47|].
  apply mac_run_refuted46; try assumption. clear - L2 E. lia.
Qed.
Lemma mac_upto_fields a n b k : upto omacpfx (mkMac a n) (mkMac b k) <-> (ocmp omac a b = Lt \/ ocmp omac a b = Eq /\ n <= k).
Proof.
  unfold upto. change (ocmp omacpfx (mkMac a n) (mkMac b k)) with (match ocmp omac a b with Eq => n ?= k | c => c end).
  destruct (ocmp omac a b).
  - split; intros H; [right; split; [reflexivity|exact H]|]. destruct H as [H|[_ H]]; [discriminate H|exact H].
  - split; intros H; [now left|discriminate].
  - split; intros H; [now destruct H|]. destruct H as [H|[H _]]; discriminate H.
Qed.
Lemma omac_eq a b : ocmp omac a b = Eq <-> a = b.
Proof. exact (law_cmp_eq _ _ laws_bytes a b). Qed.
Lemma omac_lt_irrefl a b : ocmp omac a b = Lt -> ocmp omac b a = Lt -> False.
Proof. intros H G. rewrite (law_cmp_opp _ _ laws_bytes a b : ocmp omac b a = _) in G. change (ocmp (olist onum) a b) with (ocmp omac a b) in G. rewrite H in G. discriminate G. Qed.
Lemma mac_run_ends oc p : macp_wf p -> normalised 48 (mc_len p) (mac_val (mc_addr p)) -> mc_len p = 0 \/ mc_len p = 48 ->
  exists last, mac_range_last oc p = Ok last /\
  forall q, macp_wf q -> normalised 48 (mc_len q) (mac_val (mc_addr q)) ->
    (mac_contains oc p q = Ok true <-> upto omacpfx p q /\ upto omacpfx q (mkMac last 48)).
Proof.
  intros Wp Np L. eexists. split; [now apply mac_range_last_ok|]. intros q Wq Nq. rewrite mac_contains_eval by assumption.
  destruct p as [a n], q as [b k]. cbn [mc_len mc_addr] in *. destruct Wp as [Wa _], Wq as [Wb Wk]. cbn [mc_len mc_addr] in *. rewrite !mac_upto_fields.
  destruct L as [-> | ->].
  - cbn [N.ltb N.compare]. split; [|reflexivity]. intros _.
    assert (Z : a = [0; 0; 0; 0; 0; 0]).
    { rewrite normalised_mod in Np by discriminate. rewrite N.mod_small in Np by exact (mac_val_bound _ Wa).
      rewrite <- (mac_from_u64_val _ Wa), Np. reflexivity. }
    rewrite N.div_small by exact (mac_val_bound _ Wa). change (mac_from_u64 (0 * 2 ^ (48 - 0) + (2 ^ (48 - 0) - 1))) with [255; 255; 255; 255; 255; 255].
    subst a. destruct Wb as [Lb Bb]. destruct b as [|b0 [|b1 [|b2 [|b3 [|b4 [|b5 [|? ?]]]]]]]; try discriminate Lb.
    unfold bytes_ok in Bb. repeat (apply Forall_cons_iff in Bb as [? Bb]). unfold is_byte in *. split.
    + cbn. destruct b0; [|now left]. destruct b1; [|now left]. destruct b2; [|now left]. destruct b3; [|now left]. destruct b4; [|now left]. destruct b5; [|now left].
      right. split; [reflexivity|]. apply N.le_0_l.
    + cbn. 
      repeat match goal with |- context [?x ?= 255] => destruct (N.compare_spec x 255); [subst x|now left|exfalso; match goal with H : 255 < x, G : x < 256 |- _ => clear - H G; lia end] end.
      right. split; [reflexivity|exact Wk].
  - change (48 - 48) with 0. change (2 ^ 0) with 1. rewrite N.div_1_r, N.mul_1_r, N.add_0_r, mac_from_u64_val by exact Wa.
    cbn [N.ltb N.compare]. change (48 <? 1) with false. cbv iota.
    split.
    + destruct (N.ltb_spec k 48); [discriminate|]. assert (K : k = 48) by (clear - H Wk; lia). subst k. rewrite N.eqb_refl.
      intros Q. injection Q as Q. apply N.eqb_eq in Q.
      assert (E : a = b) by (rewrite <- (mac_from_u64_val _ Wa), <- (mac_from_u64_val _ Wb), Q; reflexivity). subst b.
      rewrite (proj2 (omac_eq a a) eq_refl). split; right; (split; [reflexivity|reflexivity]).
    + intros [[A|[A B]] [C|[C D]]].
      * exfalso. apply (omac_lt_irrefl a b A C).
      * apply omac_eq in C. subst b. rewrite (proj2 (omac_eq a a) eq_refl) in A. discriminate A.
      * apply omac_eq in A. subst b. rewrite (proj2 (omac_eq a a) eq_refl) in C. discriminate C.
      * apply omac_eq in A. subst b. assert (K : k = 48) by (clear - B D; lia). subst k. now rewrite N.eqb_refl, N.eqb_refl.
Qed.
