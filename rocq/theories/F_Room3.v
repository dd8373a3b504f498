(** Which encoders depend on nothing but the value: MVPN, EVPN and flow specification routes. *)
From Verif Require Import Base BaseFacts M_Util S_Wire F_Util M_Nlri S_Nlri F_Nlri M_Vpls F_Lay M_Prefix M_Mvpn M_Evpn M_Flowspec M_Addrs M_Attr M_Update M_Cap M_Open S_Room F_Room F_Room2.
Ltac Zify.zify_post_hook ::= idtac.

Ltac fb Q := eapply fit_bind with (Q1 := Q).
Lemma fit_from_nq n (e : Enc nat) (Q : nat -> nat -> Prop) : fit 0 e (fun x q => x = q) -> (forall x, Q x (n + x)%nat) -> fit n (on_from n e) Q.
Proof. intros F H. eapply fit_on_from; [exact F|]. intros x q ->. apply H. Qed.
Lemma fit_from_u32 n s (Q : unit -> nat -> Prop) : Q tt (n + 4)%nat -> fit n (on_from n (setn_u32 s)) Q.
Proof. intros H. eapply fit_on_from with (Q' := fun _ q => q = 4%nat); [now apply fit_u32|]. intros [] q ->. exact H. Qed.
Lemma fit_from_u16 n s (Q : unit -> nat -> Prop) : Q tt (n + 2)%nat -> fit n (on_from n (setn_u16 s)) Q.
Proof. intros H. eapply fit_on_from with (Q' := fun _ q => q = 2%nat); [now apply fit_u16|]. intros [] q ->. exact H. Qed.

(** ** MVPN *)
Lemma fit_mv3 r : fit 0 (mvpn3_encode r) (fun n q => n = q).
Proof.
  unfold mvpn3_encode. fb (fun n q => q = n :> nat); [now apply fit_rd|]. intros p1 q ->.
  fb (fun n q => q = (p1 + n)%nat); [apply fit_from_nq; [apply fit_addr|reflexivity]|]. intros a q ->.
  fb (fun n q => q = (p1 + a + n)%nat); [apply fit_from_nq; [apply fit_addr|reflexivity]|]. intros b q ->.
  fb (fun n q => q = (p1 + a + b + n)%nat); [apply fit_from_nq; [apply fit_addr|reflexivity]|]. intros c q ->. now apply fit_ret.
Qed.
Lemma fit_mvpn r : fit 0 (mvpn_encode r) (fun n q => n = q).
Proof.
  unfold mvpn_encode.
  assert (Arm : forall c (e : Enc nat), fit 0 e (fun n q => n = q) ->
    fit 0 (sz <~ (set_idx 0 c ;;; on_from 2 e) ;; set_idx 1 (cast 8 (N.of_nat sz)) ;;; eret (sz + 2)%nat) (fun n q => n = q)).
  { intros c e F. eapply fit_ext with (e := set_idx 0 c ;;; (sz <~ on_from 2 e ;; u <~ set_idx 1 (cast 8 (N.of_nat sz)) ;; eret (sz + 2)%nat)).
    { intros buf. unfold ebind. destruct (set_idx 0 c buf) as [[u b1]| | |]; reflexivity. }
    fb (fun (_ : unit) q => q = 1%nat); [now apply fit_set_idx|]. intros _ q ->.
    eapply (fit_back 1 2) with (R := fun _ _ _ => True) (Q1 := fun n q => q = (n + 2)%nat).
    - apply fit_from_nq; [exact F|]. intros; lia.
    - intros n q _. now apply fit_set_idx.
    - intros n q _ -> _. now apply fit_ret. }
  destruct r as [r|r|r|r|r|r|r]; apply Arm.
  - unfold mvpn1_encode. fb (fun n q => q = n :> nat); [now apply fit_rd|]. intros p1 q ->.
    fb (fun n q => q = (p1 + n)%nat); [apply fit_from_nq; [apply fit_addr|reflexivity]|]. intros a q ->. now apply fit_ret.
  - unfold mvpn2_encode. fb (fun n q => q = n :> nat); [now apply fit_rd|]. intros p1 q ->.
    fb (fun (_ : unit) q => q = (p1 + 4)%nat); [now apply fit_from_u32|]. intros a q ->. now apply fit_ret.
  - apply fit_mv3.
  - unfold mvpn4_encode. fb (fun n q => q = n :> nat); [eapply fit_post; [apply fit_mv3|intros; cbn beta in *; lia]|]. intros p1 q ->.
    fb (fun n q => q = (p1 + n)%nat); [apply fit_from_nq; [apply fit_addr|reflexivity]|]. intros a q ->. now apply fit_ret.
  - unfold mvpn5_encode. fb (fun n q => q = n :> nat); [now apply fit_rd|]. intros p1 q ->.
    fb (fun n q => q = (p1 + n)%nat); [apply fit_from_nq; [apply fit_addr|reflexivity]|]. intros a q ->.
    fb (fun n q => q = (p1 + a + n)%nat); [apply fit_from_nq; [apply fit_addr|reflexivity]|]. intros b q ->. now apply fit_ret.
  - unfold mvpn67_encode. fb (fun n q => q = n :> nat); [now apply fit_rd|]. intros p1 q ->.
    fb (fun (_ : unit) q => q = (p1 + 4)%nat); [now apply fit_from_u32|]. intros _ q ->.
    fb (fun n q => q = (p1 + 4 + n)%nat); [apply fit_from_nq; [apply fit_addr|reflexivity]|]. intros a q ->.
    fb (fun n q => q = (p1 + 4 + a + n)%nat); [apply fit_from_nq; [apply fit_addr|reflexivity]|]. intros b q ->. now apply fit_ret.
  - unfold mvpn67_encode. fb (fun n q => q = n :> nat); [now apply fit_rd|]. intros p1 q ->.
    fb (fun (_ : unit) q => q = (p1 + 4)%nat); [now apply fit_from_u32|]. intros _ q ->.
    fb (fun n q => q = (p1 + 4 + n)%nat); [apply fit_from_nq; [apply fit_addr|reflexivity]|]. intros a q ->.
    fb (fun n q => q = (p1 + 4 + a + n)%nat); [apply fit_from_nq; [apply fit_addr|reflexivity]|]. intros b q ->. now apply fit_ret.
Qed.

(** overwriting *)
Lemma splice_cover p (b1 b2 : list N) buf : (length b1 <= length b2)%nat -> (p + length b2 <= length buf)%nat ->
  splice p b2 (splice p b1 buf) = splice p b2 buf.
Proof.
  intros H L. unfold splice. assert (Lf : length (firstn p buf) = p) by (rewrite firstn_length; lia).
  rewrite firstn_app_exact by exact Lf. do 2 f_equal.
  rewrite app_assoc. rewrite skipn_app. rewrite skipn_all2 by (rewrite app_length; lia). cbn [app].
  rewrite app_length, Lf, skipn_skipn'. f_equal. lia.
Qed.
Lemma fit_over {A B} a (m : Enc A) (f : A -> Enc B) Q1 (Q : B -> nat -> Prop) : fit a m Q1 ->
  (forall x q1, Q1 x q1 -> fit a (f x) (fun y q => (q1 <= q)%nat /\ Q y q)) -> fit a (ebind m f) Q.
Proof.
  intros F1 F2 buf y b' E. unfold ebind in E. destruct (m buf) as [[x b1]| | |] eqn:E1; try discriminate.
  destruct (F1 _ _ _ E1) as (L1 & bs1 & C1 & H1 & W1).
  destruct (F2 _ _ H1 _ _ _ E) as (L2 & bs2 & C2 & [Hle H2] & W2). split; [congruence|].
  exists bs2. rewrite L1 in C2. split; [exact C2|]. split; [exact H2|].
  intros buf2 L. unfold ebind. rewrite W1 by lia. rewrite W2 by (rewrite length_splice; lia). rewrite splice_cover by lia. reflexivity.
Qed.

(** ** EVPN *)
Lemma fit_esi pos t v (Q : unit -> nat -> Prop) : Q tt (pos + 10)%nat -> fit pos (esi_write pos t v) Q.
Proof.
  intros H. unfold esi_write. fb (fun (_ : unit) q => q = (pos + 1)%nat); [now apply fit_set_idx|]. intros _ q ->.
  destruct (Nat.eqb_spec (length v) 9) as [E|]; [|apply fit_panic]. apply fit_write_at. rewrite E. now replace (pos + 1 + 9)%nat with (pos + 10)%nat by lia.
Qed.
Lemma fitx_a4 a : fitx 4 (encode_addrv4_to a) (fun _ => True).
Proof. apply fitx_fit, fit_a4. auto. Qed.
Lemma fitx_a6 a : fitx 16 (encode_addrv6_to a) (fun _ => True).
Proof. apply fitx_fit, fit_a6. auto. Qed.
Lemma fit_s4 n m a (Q : nat -> nat -> Prop) : m = (n + 4)%nat -> (forall x, Q x m) -> fit n (on_slice n m (encode_addrv4_to a)) Q.
Proof. intros -> H. eapply fit_on_slice; [lia| |intros x _; apply H]. replace (n + 4 - n)%nat with 4%nat by lia. apply fitx_a4. Qed.
Lemma fit_s6 n m a (Q : nat -> nat -> Prop) : m = (n + 16)%nat -> (forall x, Q x m) -> fit n (on_slice n m (encode_addrv6_to a)) Q.
Proof. intros -> H. eapply fit_on_slice; [lia| |intros x _; apply H]. replace (n + 16 - n)%nat with 16%nat by lia. apply fitx_a6. Qed.
Lemma fit_f4 n a (Q : nat -> nat -> Prop) : Q 4%nat (n + 4)%nat -> fit n (on_from n (encode_addrv4_to a)) Q.
Proof. intros H. eapply fit_on_from with (Q' := fun x q => x = 4%nat /\ q = 4%nat); [now apply fit_a4|]. intros x q [-> ->]. apply H. Qed.
Lemma fit_f6 n a (Q : nat -> nat -> Prop) : Q 16%nat (n + 16)%nat -> fit n (on_from n (encode_addrv6_to a)) Q.
Proof. intros H. eapply fit_on_from with (Q' := fun x q => x = 16%nat /\ q = 16%nat); [now apply fit_a6|]. intros x q [-> ->]. apply H. Qed.
Lemma fit_ip lim pos a : fit pos (ip_write lim pos a) (fun n q => n = q).
Proof.
  unfold ip_write. destruct a as [v|v].
  - fb (fun (_ : unit) q => q = (pos + 1)%nat); [now apply fit_set_idx|]. intros _ q ->.
    fb (fun (_ : nat) q => q = (pos + 5)%nat).
    + destruct lim; [apply fit_s4; [lia|reflexivity]|apply fit_f4; lia].
    + intros _ q ->. now apply fit_ret.
  - fb (fun (_ : unit) q => q = (pos + 1)%nat); [now apply fit_set_idx|]. intros _ q ->.
    fb (fun (_ : nat) q => q = (pos + 17)%nat).
    + destruct lim; [apply fit_s6; [lia|reflexivity]|apply fit_f6; lia].
    + intros _ q ->. now apply fit_ret.
Qed.
Lemma fit_labels_end pos (Q : nat -> nat -> Prop) v : Q (pos + 3 * length v)%nat (pos + 3 * length v)%nat ->
  fit pos ('(_, n) <~ on_from pos (labels_set v) ;; eret (pos + n)%nat) Q.
Proof.
  intros H. fb (fun (bn : N * nat) q => snd bn = (3 * length v)%nat /\ q = (pos + 3 * length v)%nat).
  - eapply fit_on_from; [apply fit_labels|]. intros bn q [H1 H2]. lia.
  - intros [b n] q [E ->]. cbn [snd] in E. apply fit_ret. now rewrite E.
Qed.
Lemma fit_mac n m mc (Q : unit -> nat -> Prop) : length mc = 6%nat -> m = (n + 6)%nat -> Q tt m ->
  fit n (on_slice n m (mac_write_to_network_bytes mc)) Q.
Proof.
  intros Lm -> H. eapply fit_on_slice with (P := fun _ => True); [lia| |intros [] _; exact H]. replace (n + 6 - n)%nat with 6%nat by lia.
  unfold mac_write_to_network_bytes. apply fitx_elen. cbn [Nat.eqb]. apply fitx_fit, fit_write_at. rewrite rev_length, Lm. auto.
Qed.
Lemma fit_evpn r : ev_tidy r -> fit 0 (evpn_encode r) (fun n q => n = q).
Proof.
  intros Ht. unfold evpn_encode.
  assert (Arm : forall c (e : Enc nat), fit 0 e (fun n q => n = q) ->
    fit 0 (pos <~ (set_idx 0 c ;;; on_from 2 e) ;; (if Nat.leb pos 255 then set_idx 1 (N.of_nat pos) else eerr ETooMany) ;;; eret (pos + 2)%nat) (fun n q => n = q)).
  { intros c e F. eapply fit_ext with (e := set_idx 0 c ;;; (sz <~ on_from 2 e ;; u <~ (if Nat.leb sz 255 then set_idx 1 (N.of_nat sz) else eerr ETooMany) ;; eret (sz + 2)%nat)).
    { intros buf. unfold ebind. destruct (set_idx 0 c buf) as [[u b1]| | |]; reflexivity. }
    fb (fun (_ : unit) q => q = 1%nat); [now apply fit_set_idx|]. intros _ q ->.
    eapply (fit_back 1 2) with (R := fun _ _ _ => True) (Q1 := fun n q => q = (n + 2)%nat).
    - apply fit_from_nq; [exact F|]. intros; lia.
    - intros n q _. destruct (Nat.leb n 255); [now apply fit_set_idx|apply fit_err].
    - intros n q _ -> _. now apply fit_ret. }
  destruct r as [r|r|r|r|r]; apply Arm; cbn [ev_tidy] in Ht.
  - unfold evpn1_encode. fb (fun n q => q = n :> nat); [now apply fit_rd|]. intros pos q ->.
    fb (fun (_ : unit) q => q = (pos + 10)%nat); [now apply fit_esi|]. intros _ q ->.
    fb (fun (_ : unit) q => q = (pos + 14)%nat); [apply fit_s32; lia|]. intros _ q ->. now apply fit_labels_end.
  - unfold evpn2_encode. fb (fun n q => q = n :> nat); [now apply fit_rd|]. intros pos q ->.
    fb (fun (_ : unit) q => q = (pos + 10)%nat); [now apply fit_esi|]. intros _ q ->.
    fb (fun (_ : unit) q => q = (pos + 14)%nat); [apply fit_s32; lia|]. intros _ q ->.
    fb (fun (_ : unit) q => q = (pos + 15)%nat); [apply fit_set_idx; lia|]. intros _ q ->.
    fb (fun (_ : unit) q => q = (pos + 21)%nat); [apply fit_mac; [exact Ht|lia|lia]|]. intros _ q ->.
    fb (fun n q => q = n :> nat).
    + destruct (ev2_ip r) as [a|].
      * eapply fit_post; [apply fit_ip|]. intros; cbn beta in *; lia.
      * fb (fun (_ : unit) q => q = (pos + 22)%nat); [apply fit_set_idx; lia|]. intros _ q ->. now apply fit_ret.
    + intros p2 q ->. now apply fit_labels_end.
  - unfold evpn3_encode. fb (fun n q => q = n :> nat); [now apply fit_rd|]. intros pos q ->.
    fb (fun (_ : unit) q => q = (pos + 4)%nat); [now apply fit_s32|]. intros _ q ->. apply fit_ip.
  - unfold evpn4_encode. fb (fun n q => q = n :> nat); [now apply fit_rd|]. intros pos q ->.
    fb (fun (_ : unit) q => q = (pos + 10)%nat); [now apply fit_esi|]. intros _ q ->. apply fit_ip.
  - unfold evpn5_encode. fb (fun n q => q = n :> nat); [now apply fit_rd|]. intros pos q ->.
    fb (fun (_ : unit) q => q = (pos + 10)%nat); [now apply fit_esi|]. intros _ q ->.
    fb (fun (_ : unit) q => q = (pos + 14)%nat); [apply fit_s32; lia|]. intros _ q ->.
    fb (fun (_ : unit) q => q = (pos + 15)%nat); [apply fit_set_idx; lia|]. intros _ q ->.
    destruct (ev5_prefix r) as [a|a], (ev5_gw r) as [g|g].
    + fb (fun n q => q = n :> nat).
      * fb (fun (_ : nat) q => q = (pos + 19)%nat); [apply fit_f4; lia|]. intros _ q ->.
        fb (fun (_ : nat) q => q = (pos + 23)%nat); [apply fit_f4; lia|]. intros _ q ->. now apply fit_ret.
      * intros p2 q ->. now apply fit_labels_end.
    + fb (fun (_ : nat) (_ : nat) => False); [apply fit_err|]. intros x q [].
    + fb (fun (_ : nat) (_ : nat) => False); [apply fit_err|]. intros x q [].
    + eapply fit_ext with (e := on_from (pos + 15) (encode_addrv6_to a) ;;; (on_from (pos + 31) (encode_addrv6_to g) ;;;
        ('(_, n) <~ on_from (pos + 31) (labels_set (ev5_labels r)) ;; eret (pos + 31 + n)%nat))).
      { intros buf. unfold ebind. destruct (on_from (pos + 15) (encode_addrv6_to a) buf) as [[x b1]| | |]; [|reflexivity..].
        destruct (on_from (pos + 31) (encode_addrv6_to g) b1) as [[y b2]| | |]; reflexivity. }
      fb (fun (_ : nat) q => q = (pos + 31)%nat); [apply fit_f6; lia|]. intros _ q ->.
      eapply fit_over with (Q1 := fun _ q => q = (pos + 31 + 16)%nat); [now apply fit_f6|]. intros _ q ->.
      apply fit_labels_end. lia.
Qed.
