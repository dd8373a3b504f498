(** Which encoders depend on nothing but the value: flow specifications and all routes. *)
From Verif Require Import Base BaseFacts M_Util S_Wire F_Util M_Nlri S_Nlri F_Nlri M_Vpls F_Lay M_Prefix M_Mvpn M_Evpn M_Flowspec M_Addrs M_Attr M_Update M_Cap M_Open S_Room F_Room F_Room2 F_Room3.
Ltac Zify.zify_post_hook ::= idtac.

Lemma bits_bytes_248 oc b n : b <= 248 -> bits_bytes oc b = Ok n -> n = pfx_bytes b.
Proof.
  intros H. unfold bits_bytes. rewrite uadd_ok by (cbn; lia). cbn [bind]. intros E. unfold pfx_bytes. congruence.
Qed.
Lemma fit_v4n oc x : v4_len x <= 248 -> fit 0 (v4_to_bits oc x) (fun _ q => q = pfx_bytes (v4_len x)).
Proof.
  intros H. unfold v4_to_bits. destruct (N.eqb_spec (v4_len x) 0) as [E|Hnz]; [rewrite E; now apply fit_ret|].
  fb (fun n q => n = pfx_bytes (v4_len x) /\ q = 0%nat).
  { apply fit_lift. intros n E. split; [now apply bits_bytes_248 in E|reflexivity]. } intros b q [-> ->].
  fb (fun s q => q = 0%nat /\ length (A := N) s = pfx_bytes (v4_len x)).
  { apply fit_lift. intros s E. split; [reflexivity|]. now apply length_rslice_front in E. }
  intros s q [-> <-]. fb (fun (_ : unit) q => q = length s); [now apply fit_write_at|]. intros _ q ->. now apply fit_ret.
Qed.
Lemma fit_v6n oc x : v6_len x <= 248 -> fit 0 (v6_to_bits oc x) (fun _ q => q = pfx_bytes (v6_len x)).
Proof.
  intros H. unfold v6_to_bits. destruct (N.eqb_spec (v6_len x) 0) as [E|Hnz]; [rewrite E; now apply fit_ret|].
  fb (fun n q => n = pfx_bytes (v6_len x) /\ q = 0%nat).
  { apply fit_lift. intros n E. split; [now apply bits_bytes_248 in E|reflexivity]. } intros b q [-> ->].
  fb (fun s q => q = 0%nat /\ length (A := N) s = pfx_bytes (v6_len x)).
  { apply fit_lift. intros s E. split; [reflexivity|]. now apply length_rslice_front in E. }
  intros s q [-> <-]. fb (fun (_ : unit) q => q = length s); [now apply fit_write_at|]. intros _ q ->. now apply fit_ret.
Qed.
Definition pfx_fit {T} (it : fsitem T) (bits : T -> N) : Prop := forall x, bits x <= 248 -> fit 0 (fs_enc it x) (fun _ q => q = fs_size it x).
Lemma fit_fs4 oc : pfx_fit (fs4 oc) v4_len.
Proof.
  intros x H. cbn [fs4 fs_enc fs_size]. unfold fs4_enc. fb (fun (_ : unit) q => q = 1%nat); [now apply fit_set_idx|]. intros _ q ->.
  fb (fun (_ : N * nat) q => q = (1 + pfx_bytes (v4_len x))%nat).
  - eapply fit_on_from; [apply fit_v4n, H|]. intros _ q ->. reflexivity.
  - intros _ q ->. now apply fit_ret.
Qed.
Lemma fit_fs6 oc : pfx_fit (fs6i oc) (fun x => v6_len (fs6_ip x)).
Proof.
  intros x H. cbn [fs6i fs_enc fs_size]. unfold fs6_enc. fb (fun (_ : unit) q => q = 1%nat); [now apply fit_set_idx|]. intros _ q ->.
  fb (fun (_ : unit) q => q = 2%nat); [now apply fit_set_idx|]. intros _ q ->.
  fb (fun (_ : N * nat) q => q = (2 + pfx_bytes (v6_len (fs6_ip x)))%nat).
  - eapply fit_on_from; [apply fit_v6n, H|]. intros _ q ->. reflexivity.
  - intros _ q ->. now apply fit_ret.
Qed.
Lemma fit_fsv4 oc : pfx_fit (fsv4 oc) (fun x => v4_len (wrd_prefix x)).
Proof.
  intros x H. cbn [fsv4 fs_enc fs_size]. unfold fsv4_enc. fb (fun (_ : unit) q => q = 1%nat); [now apply fit_set_idx|]. intros _ q ->.
  fb (fun (_ : unit) q => q = 2%nat); [now apply fit_set_idx|]. intros _ q ->.
  fb (fun (_ : N * nat) q => q = (10 + pfx_bytes (v4_len (wrd_prefix x)))%nat).
  - eapply fit_on_from with (Q' := fun _ q => q = (8 + pfx_bytes (v4_len (wrd_prefix x)))%nat); [|intros _ q ->; reflexivity].
    unfold withrd_set. fb (fun n q => n = 8%nat /\ q = 8%nat); [now apply fit_rd|]. intros n q [-> ->].
    fb (fun (_ : N * nat) q => q = (8 + pfx_bytes (v4_len (wrd_prefix x)))%nat).
    + eapply fit_on_from; [apply fit_v4n, H|]. intros _ q ->. reflexivity.
    + intros [pb pn] q ->. fb (fun (_ : N) q => q = (8 + pfx_bytes (v4_len (wrd_prefix x)))%nat); [now apply fit_lift|]. intros b q ->. now apply fit_ret.
  - intros _ q ->. now apply fit_ret.
Qed.

(** ** Operators *)
Definition op_size (v : N) : nat := if 65535 <? v then 5 else if 255 <? v then 3 else 2.
Lemma fit_oper op v : fit 0 (oper_write op v) (fun n q => n = q /\ q = op_size v).
Proof.
  unfold oper_write, op_size. destruct (65535 <? v); [|destruct (255 <? v)].
  - fb (fun (_ : unit) q => q = 1%nat); [now apply fit_set_idx|]. intros _ q ->. fb (fun (_ : unit) q => q = 5%nat); [now apply fit_from_u32|].
    intros _ q ->. now apply fit_ret.
  - fb (fun (_ : unit) q => q = 1%nat); [now apply fit_set_idx|]. intros _ q ->. fb (fun (_ : unit) q => q = 3%nat); [now apply fit_from_u16|].
    intros _ q ->. now apply fit_ret.
  - fb (fun (_ : unit) q => q = 1%nat); [now apply fit_set_idx|]. intros _ q ->. fb (fun (_ : unit) q => q = 2%nat); [now apply fit_set_idx|].
    intros _ q ->. now apply fit_ret.
Qed.
Section Vec.
Context {T : Type} (o : fsoper T) (val : T -> N) (F : forall x, fit 0 (op_enc o x) (fun n q => n = q /\ q = op_size (val x))).
Let tot (v : list T) : nat := list_sum (map (fun x => op_size (val x)) v).
Lemma fit_vec_write v : forall p l, fit p (vec_write o v p l) (fun pl q => fst pl = q /\ q = (p + tot v)%nat /\ (v = [] /\ snd pl = l \/ (p <= snd pl < q)%nat)).
Proof.
  induction v as [|x v IH]; intros p l; cbn [vec_write].
  - apply fit_ret. unfold tot. cbn. split; [reflexivity|]. split; [lia|now left].
  - fb (fun n q => n = op_size (val x) /\ q = (p + op_size (val x))%nat).
    { eapply fit_on_from; [apply F|]. intros n q [-> ->]. now split. }
    intros n q [-> ->]. eapply fit_post; [apply IH|]. intros pl q (H1 & H2 & H3).
    assert (Et : tot (x :: v) = (op_size (val x) + tot v)%nat) by reflexivity. rewrite Et.
    split; [exact H1|]. split; [lia|]. right.
    assert (op_size (val x) > 0)%nat by (unfold op_size; destruct (65535 <? val x); [lia|destruct (255 <? val x); lia]).
    destruct H3 as [[-> ->]|H3]; [|lia]. lia.
Qed.
Lemma fit_vec v : fit 0 (vec_enc o v) (fun n q => n = q /\ q = tot v).
Proof.
  unfold vec_enc. destruct v as [|x v]; [now apply fit_ret|].
  eapply fit_ext with (e := pl <~ vec_write o (x :: v) 0 0 ;; upd_idx (snd pl) (fun b => N.lor b 128) ;;; eret (fst pl)).
  { intros buf. unfold ebind. destruct (vec_write o (x :: v) 0 0 buf) as [[[p l] b1]| | |]; reflexivity. }
  eapply (fit_upd 0 (vec_write o (x :: v) 0 0) snd _ (fun pl => eret (fst pl))); [apply fit_vec_write|..].
  - intros pl q (_ & _ & [[H _]|H]); [discriminate|lia].
  - intros pl q (<- & -> & _). apply fit_ret. split; reflexivity.
Qed.
(** the length that is announced *)
Lemma fold_sum (f : T -> nat) v : forall a, fold_left (fun a c => (a + f c)%nat) v a = (a + list_sum (map f v))%nat.
Proof. induction v as [|x v IH]; intros a; cbn [fold_left map]; [cbn; lia|]. rewrite IH. change (list_sum (f x :: map f v)) with (f x + list_sum (map f v))%nat. lia. Qed.
Lemma byteslen_lt v : (forall x, (op_byteslen o x <= op_size (val x))%nat) -> (exists x, In x v /\ (op_byteslen o x < op_size (val x))%nat) ->
  (vec_byteslen o v < tot v)%nat.
Proof.
  intros Hle. unfold vec_byteslen. rewrite fold_sum. cbn [Nat.add]. induction v as [|y v IH]; intros (x & Hin & Hlt); [destruct Hin|].
  assert (Hg : (list_sum (map (op_byteslen o) v) <= tot v)%nat).
  { clear - Hle. unfold tot. induction v as [|z v IH]; [cbn; lia|]. cbn [map].
    change (list_sum (op_byteslen o z :: map (op_byteslen o) v)) with (op_byteslen o z + list_sum (map (op_byteslen o) v))%nat.
    change (list_sum (op_size (val z) :: map (fun x => op_size (val x)) v)) with (op_size (val z) + list_sum (map (fun x => op_size (val x)) v))%nat.
    specialize (Hle z). lia. }
  assert (Et : tot (y :: v) = (op_size (val y) + tot v)%nat) by reflexivity. rewrite Et. cbn [map].
  change (list_sum (op_byteslen o y :: map (op_byteslen o) v)) with (op_byteslen o y + list_sum (map (op_byteslen o) v))%nat.
  destruct Hin as [->|Hin]; [lia|]. specialize (Hle y). assert (list_sum (map (op_byteslen o) v) < tot v)%nat; [|lia].
  apply IH. eauto.
Qed.
End Vec.
Lemma fit_val x : fit 0 (op_enc fsvalop x) (fun n q => n = q /\ q = op_size (fv_value x)).
Proof. apply fit_oper. Qed.
Lemma fit_mask x : fit 0 (op_enc fsmaskop x) (fun n q => n = q /\ q = op_size (fm_value x)).
Proof. apply fit_oper. Qed.
Lemma fit_vals v : vals_tidy v -> fit 0 (vec_enc fsvalop v) (fun n q => n = q /\ (vec_byteslen fsvalop v < q)%nat).
Proof.
  intros (x & Hin & Hx). eapply fit_post; [apply (fit_vec fsvalop fv_value fit_val)|]. intros n q [-> ->]. split; [reflexivity|].
  apply (byteslen_lt fsvalop fv_value fit_val).
  - intros y. cbn [op_byteslen fsvalop]. unfold fsval_byteslen, op_size. destruct (65535 <? fv_value y); [lia|destruct (255 <? fv_value y); lia].
  - exists x. split; [exact Hin|]. cbn [op_byteslen fsvalop]. unfold fsval_byteslen, op_size.
    destruct (N.ltb_spec 65535 (fv_value x)); [lia|]. destruct (N.ltb_spec 255 (fv_value x)); lia.
Qed.
Lemma fit_masks v : masks_tidy v -> fit 0 (vec_enc fsmaskop v) (fun n q => n = q /\ (vec_byteslen fsmaskop v < q)%nat).
Proof.
  intros (x & Hin & Hx). eapply fit_post; [apply (fit_vec fsmaskop fm_value fit_mask)|]. intros n q [-> ->]. split; [reflexivity|].
  apply (byteslen_lt fsmaskop fm_value fit_mask).
  - intros y. cbn [op_byteslen fsmaskop]. unfold fsmask_byteslen, op_size.
    destruct (N.ltb_spec 16777215 (fm_value y)), (N.ltb_spec 65535 (fm_value y)), (N.ltb_spec 255 (fm_value y)); lia.
  - exists x. split; [exact Hin|]. cbn [op_byteslen fsmaskop]. unfold fsmask_byteslen, op_size.
    destruct (N.ltb_spec 16777215 (fm_value x)), (N.ltb_spec 65535 (fm_value x)), (N.ltb_spec 255 (fm_value x)); lia.
Qed.
Lemma fit_put_vec {U} (o : fsoper U) code v pos : fit 0 (vec_enc o v) (fun n q => n = q /\ (vec_byteslen o v < q)%nat) ->
  fit pos (fs_put_vec o code v pos) (fun n q => n = q /\ (pos + (2 + vec_byteslen o v) <= q)%nat).
Proof.
  intros F. unfold fs_put_vec. fb (fun (_ : unit) q => q = (pos + 1)%nat); [now apply fit_set_idx|]. intros _ q ->.
  fb (fun n q => q = (pos + 1 + n)%nat /\ (vec_byteslen o v < n)%nat).
  { eapply fit_on_from; [exact F|]. intros n q [-> H]. split; [reflexivity|exact H]. }
  intros n q [-> H]. apply fit_ret. lia.
Qed.
Lemma fit_put_pfx {T} (it : fsitem T) bits code a pos : pfx_fit it bits -> bits a <= 248 ->
  fit pos (fs_put_pfx it code a pos) (fun n q => n = q /\ (pos + (1 + fs_size it a) <= q)%nat).
Proof.
  intros F H. unfold fs_put_pfx. fb (fun (_ : unit) q => q = (pos + 1)%nat); [now apply fit_set_idx|]. intros _ q ->.
  fb (fun (_ : unit) q => q = (pos + 1 + fs_size it a)%nat).
  { eapply fit_on_from; [apply F, H|]. intros _ q ->. reflexivity. }
  intros _ q ->. apply fit_ret. lia.
Qed.
Lemma fit_fs {T} (it : fsitem T) bits r : pfx_fit it bits -> fs_tidy bits r -> fit 0 (fs_encode it r) (fun n q => n = q).
Proof.
  intros F Ht. unfold fs_encode. destruct (Nat.ltb 4094 (fs_nlen it r)); [apply fit_err|].
  set (body := fun pos : nat => match r with
    | FsDst a => fs_put_pfx it 1 a pos | FsSrc a => fs_put_pfx it 2 a pos
    | FsProto v => fs_put_vec fsvalop 3 v pos | FsPortAny v => fs_put_vec fsvalop 4 v pos | FsPortDst v => fs_put_vec fsvalop 5 v pos
    | FsPortSrc v => fs_put_vec fsvalop 6 v pos | FsIcmpType v => fs_put_vec fsvalop 7 v pos | FsIcmpCode v => fs_put_vec fsvalop 8 v pos
    | FsTcpFlags v => fs_put_vec fsmaskop 9 v pos | FsPacketLength v => fs_put_vec fsvalop 10 v pos | FsDscp v => fs_put_vec fsvalop 11 v pos
    | FsFragment v => fs_put_vec fsmaskop 12 v pos | FsFlowLabel v => fs_put_vec fsvalop 13 v pos end).
  assert (B : forall pos, fit pos (body pos) (fun n q => n = q /\ (pos + fs_nlen it r <= q)%nat)).
  { intros pos. subst body. cbn beta. destruct r; cbn [fs_tidy] in Ht; cbn [fs_nlen];
      try (apply fit_put_vec; (apply fit_vals || apply fit_masks); exact Ht); apply fit_put_pfx with (bits := bits); assumption. }
  apply fit_post with (Q := fun n q => n = q /\ ((if Nat.ltb (fs_nlen it r) 240 then 1 else 2) + fs_nlen it r <= q)%nat); [|intros n q [H _]; exact H].
  destruct (Nat.ltb (fs_nlen it r) 240).
  - eapply fit_ext with (e := len <~ elen ;; if Nat.ltb len (fs_nlen it r + 1) then eerr EInsufficient else
      (set_idx 0 (cast 8 (N.of_nat (fs_nlen it r))) ;;; body 1%nat)).
    { intros buf. unfold ebind, elen, eerr. destruct (Nat.ltb (length buf) (fs_nlen it r + 1)); [reflexivity|].
      destruct (set_idx 0 (cast 8 (N.of_nat (fs_nlen it r))) buf) as [[u b1]| | |]; reflexivity. }
    apply fit_guard; [|intros n q [_ H]; lia]. fb (fun (_ : unit) q => q = 1%nat); [now apply fit_set_idx|]. intros _ q ->. apply B.
  - eapply fit_ext with (e := len <~ elen ;; if Nat.ltb len (fs_nlen it r + 2) then eerr EInsufficient else
      (u <~ setn_u16 (cast 16 (N.of_nat (fs_nlen it r))) ;; upd_idx 0 (fun b => N.lor b 240) ;;; body 2%nat)).
    { intros buf. unfold ebind, elen, eerr. destruct (Nat.ltb (length buf) (fs_nlen it r + 2)); [reflexivity|].
      destruct (setn_u16 (cast 16 (N.of_nat (fs_nlen it r))) buf) as [[u b1]| | |]; [|reflexivity..].
      destruct (upd_idx 0 (fun b => N.lor b 240) b1) as [[u2 b2]| | |]; reflexivity. }
    apply fit_guard; [|intros n q [_ H]; lia].
    apply (fit_upd 0 _ (fun _ => 0%nat) _ (fun _ => body 2%nat) (fun _ q => q = 2%nat)); [now apply fit_u16|intros; lia|].
    intros _ q ->. apply B.
Qed.

(** ** All families *)
Lemma fit_addrs oc a : addrs_tidy a -> fit 0 (addrs_encode oc a) (fun n q => n = q).
Proof.
  intros Ht. destruct a; cbn [addrs_encode addrs_tidy] in *;
    try (apply fit_items; repeat (apply fit_labeled || apply fit_withrd || apply fit_v4 || apply fit_v6 || apply fit_mdt4 || apply fit_mdt6));
    try (apply fit_pathid_items; repeat (apply fit_labeled || apply fit_withrd || apply fit_v4 || apply fit_v6 || apply fit_mdt4 || apply fit_mdt6)).
  - now apply fit_ret.
  - subst. now apply fit_ret.
  - apply fit_addritems. intros i _. apply fit_mvpn.
  - apply fit_addritems. intros i Hi. apply fit_evpn. now apply (proj1 (Forall_forall _ _) Ht).
  - apply fit_addritems. intros i Hi. apply (fit_fs _ v4_len); [apply fit_fs4|]. now apply (proj1 (Forall_forall _ _) Ht).
  - apply fit_addritems. intros i Hi. apply (fit_fs _ (fun x => v6_len (fs6_ip x))); [apply fit_fs6|]. now apply (proj1 (Forall_forall _ _) Ht).
  - apply fit_addritems. intros i Hi. apply (fit_fs _ (fun x => v4_len (wrd_prefix x))); [apply fit_fsv4|]. now apply (proj1 (Forall_forall _ _) Ht).
Qed.
