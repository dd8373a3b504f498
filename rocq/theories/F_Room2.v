(** Which encoders depend on nothing but the value: routes. *)
From Verif Require Import Base BaseFacts M_Util S_Wire F_Util M_Nlri S_Nlri F_Nlri M_Vpls F_Lay M_Prefix M_Mvpn M_Evpn M_Flowspec M_Addrs M_Attr M_Update M_Cap M_Open S_Room F_Room.
Ltac Zify.zify_post_hook ::= idtac.

(** ** Integers and addresses *)
Lemma fit_u16 s (Q : unit -> nat -> Prop) : Q tt 2%nat -> fit 0 (setn_u16 s) Q.
Proof.
  intros H. unfold setn_u16. eapply fit_bind with (Q1 := fun _ q => q = 1%nat); [apply fit_set_idx; reflexivity|].
  intros _ q ->. now apply fit_set_idx.
Qed.
Lemma fit_u32 s (Q : unit -> nat -> Prop) : Q tt 4%nat -> fit 0 (setn_u32 s) Q.
Proof.
  intros H. unfold setn_u32. eapply fit_bind with (Q1 := fun _ q => q = 1%nat); [apply fit_set_idx; reflexivity|]. intros _ q ->.
  eapply fit_bind with (Q1 := fun _ q => q = 2%nat); [apply fit_set_idx; reflexivity|]. intros _ q ->.
  eapply fit_bind with (Q1 := fun _ q => q = 3%nat); [apply fit_set_idx; reflexivity|]. intros _ q ->.
  now apply fit_set_idx.
Qed.
Lemma fit_u64 s (Q : unit -> nat -> Prop) : Q tt 8%nat -> fit 0 (setn_u64 s) Q.
Proof.
  intros H. unfold setn_u64. eapply fit_bind with (Q1 := fun _ q => q = 1%nat); [apply fit_set_idx; reflexivity|]. intros _ q ->.
  eapply fit_bind with (Q1 := fun _ q => q = 2%nat); [apply fit_set_idx; reflexivity|]. intros _ q ->.
  eapply fit_bind with (Q1 := fun _ q => q = 3%nat); [apply fit_set_idx; reflexivity|]. intros _ q ->.
  eapply fit_bind with (Q1 := fun _ q => q = 4%nat); [apply fit_set_idx; reflexivity|]. intros _ q ->.
  eapply fit_bind with (Q1 := fun _ q => q = 5%nat); [apply fit_set_idx; reflexivity|]. intros _ q ->.
  eapply fit_bind with (Q1 := fun _ q => q = 6%nat); [apply fit_set_idx; reflexivity|]. intros _ q ->.
  eapply fit_bind with (Q1 := fun _ q => q = 7%nat); [apply fit_set_idx; reflexivity|]. intros _ q ->.
  now apply fit_set_idx.
Qed.
Lemma fitx_u16 s : fitx 2 (setn_u16 s) (fun _ => True).
Proof. apply fitx_fit, fit_u16. auto. Qed.
Lemma fitx_u32 s : fitx 4 (setn_u32 s) (fun _ => True).
Proof. apply fitx_fit, fit_u32. auto. Qed.
Lemma fit_s16 n m s (Q : unit -> nat -> Prop) : m = (n + 2)%nat -> Q tt m -> fit n (on_slice n m (setn_u16 s)) Q.
Proof.
  intros -> H. eapply fit_on_slice; [lia| |].
  - replace (n + 2 - n)%nat with 2%nat by lia. apply fitx_u16.
  - intros [] _. exact H.
Qed.
Lemma fit_s32 n m s (Q : unit -> nat -> Prop) : m = (n + 4)%nat -> Q tt m -> fit n (on_slice n m (setn_u32 s)) Q.
Proof.
  intros -> H. eapply fit_on_slice; [lia| |].
  - replace (n + 4 - n)%nat with 4%nat by lia. apply fitx_u32.
  - intros [] _. exact H.
Qed.
Lemma length_octets4 a : length (octets4 a) = 4%nat. Proof. reflexivity. Qed.
Lemma length_octets16 a : length (octets16 a) = 16%nat. Proof. apply length_be_bytes. Qed.
Lemma fit_a4 a (Q : nat -> nat -> Prop) : Q 4%nat 4%nat -> fit 0 (encode_addrv4_to a) Q.
Proof.
  intros H. unfold encode_addrv4_to. apply fit_post with (Q := fun x q => x = 4%nat /\ q = 4%nat); [|intros x q [-> ->]; exact H].
  apply fit_guard; [|intros x q [_ ->]; lia]. eapply fit_bind with (Q1 := fun _ q => q = 4%nat); [apply fit_write_at; now rewrite length_octets4|].
  intros _ q ->. now apply fit_ret.
Qed.
Lemma fit_a6 a (Q : nat -> nat -> Prop) : Q 16%nat 16%nat -> fit 0 (encode_addrv6_to a) Q.
Proof.
  intros H. unfold encode_addrv6_to. apply fit_post with (Q := fun x q => x = 16%nat /\ q = 16%nat); [|intros x q [-> ->]; exact H].
  apply fit_guard; [|intros x q [_ ->]; lia]. eapply fit_bind with (Q1 := fun _ q => q = 16%nat); [apply fit_write_at; now rewrite length_octets16|].
  intros _ q ->. now apply fit_ret.
Qed.
Lemma fit_addr a : fit 0 (encode_addr_to a) (fun n q => n = q).
Proof. destruct a; [now apply fit_a4|now apply fit_a6]. Qed.
Lemma fit_rd r (Q : nat -> nat -> Prop) : Q 8%nat 8%nat -> fit 0 (encode_rd_to r) Q.
Proof.
  intros H. unfold encode_rd_to. eapply fit_bind with (Q1 := fun _ q => q = 4%nat); [now apply fit_u32|]. intros _ q ->.
  eapply fit_bind with (Q1 := fun _ q => q = 8%nat); [now apply fit_s32|]. intros _ q ->. now apply fit_ret.
Qed.
Lemma fit_from_n {A} n (e : Enc A) (len : A -> nat) (Q : A -> nat -> Prop) : fit 0 e (fun x q => q = len x) -> (forall x, Q x (n + len x)%nat) -> fit n (on_from n e) Q.
Proof. intros F H. eapply fit_on_from; [exact F|]. intros x q ->. apply H. Qed.

(** ** Prefixes, labels, distinguishers *)
Definition bits_fit {T} (oc : bool) (st : setter T) : Prop := forall x, fit 0 (st oc x) (fun bn q => q = snd bn).

Lemma length_rslice_front (l : list N) n s : rslice l 0 n = Ok s -> length s = n.
Proof. intros H. apply rslice_Ok_inv in H as (H1 & H2 & ->). rewrite length_sub; lia. Qed.
Lemma fit_v4 oc : bits_fit oc v4_to_bits.
Proof.
  intros x. unfold v4_to_bits. destruct (v4_len x =? 0); [now apply fit_ret|].
  eapply fit_bind with (Q1 := fun _ q => q = 0%nat); [now apply fit_lift|]. intros b q ->.
  eapply fit_bind with (Q1 := fun s q => q = 0%nat /\ length s = b).
  { apply fit_lift. intros s E. split; [reflexivity|]. now apply length_rslice_front in E. }
  intros s q [-> <-]. eapply fit_bind with (Q1 := fun _ q => q = length s); [now apply fit_write_at|]. intros _ q ->. now apply fit_ret.
Qed.
Lemma fit_v6 oc : bits_fit oc v6_to_bits.
Proof.
  intros x. unfold v6_to_bits. destruct (v6_len x =? 0); [now apply fit_ret|].
  eapply fit_bind with (Q1 := fun _ q => q = 0%nat); [now apply fit_lift|]. intros b q ->.
  eapply fit_bind with (Q1 := fun s q => q = 0%nat /\ length s = b).
  { apply fit_lift. intros s E. split; [reflexivity|]. now apply length_rslice_front in E. }
  intros s q [-> <-]. eapply fit_bind with (Q1 := fun _ q => q = length s); [now apply fit_write_at|]. intros _ q ->. now apply fit_ret.
Qed.
Lemma fit_labels_write v : forall p, fit p (labels_write v p) (fun n q => n = q /\ q = (p + 3 * length v)%nat).
Proof.
  induction v as [|l v IH]; intros p; cbn [labels_write length].
  - apply fit_ret. lia.
  - eapply fit_bind with (Q1 := fun _ q => q = (p + 1)%nat); [now apply fit_set_idx|]. intros _ q ->.
    eapply fit_bind with (Q1 := fun _ q => q = (p + 2)%nat); [apply fit_set_idx; lia|]. intros _ q ->.
    eapply fit_bind with (Q1 := fun _ q => q = (p + 3)%nat); [apply fit_set_idx; lia|]. intros _ q ->.
    eapply fit_post; [apply IH|]. intros n q [-> ->]. lia.
Qed.
Lemma fit_labels v : fit 0 (labels_set v) (fun bn q => q = snd bn /\ q = (3 * length v)%nat).
Proof.
  unfold labels_set. destruct v as [|l v]; [now apply fit_ret|].
  eapply (fit_upd 0 (labels_write (l :: v) 0) (fun n => (n - 1)%nat) _ (fun n => eret (cast 8 (N.of_nat n * 8), n))).
  - apply fit_labels_write.
  - intros n q [-> ->]. cbn [length]. lia.
  - intros n q [-> ->]. apply fit_ret. cbn [snd]. lia.
Qed.
Lemma fit_labeled {T} oc (st : setter T) : bits_fit oc st -> bits_fit oc (labeled_set st).
Proof.
  intros F x. unfold labeled_set. eapply fit_bind; [apply fit_labels|]. intros [lb ln] q [Hq _]. cbn [snd] in Hq. subst q.
  eapply fit_bind with (Q1 := fun pn q => q = (ln + snd pn)%nat); [eapply fit_on_from; [apply F|]; intros; cbn beta in *; lia|].
  intros [pb pn] q ->. cbn [snd].
  eapply fit_bind with (Q1 := fun _ q => q = (ln + pn)%nat); [now apply fit_lift|]. intros b q ->. now apply fit_ret.
Qed.
Lemma fit_withrd {T} oc (st : setter T) : bits_fit oc st -> bits_fit oc (withrd_set st).
Proof.
  intros F x. unfold withrd_set. eapply fit_bind with (Q1 := fun n q => n = 8%nat /\ q = 8%nat); [apply fit_rd; auto|]. intros n q [-> ->].
  eapply fit_bind with (Q1 := fun pn q => q = (8 + snd pn)%nat); [eapply fit_on_from; [apply F|]; intros; cbn beta in *; lia|].
  intros [pb pn] q ->. cbn [snd].
  eapply fit_bind with (Q1 := fun _ q => q = (8 + pn)%nat); [now apply fit_lift|]. intros b q ->. now apply fit_ret.
Qed.
Lemma fit_mdt4 oc : bits_fit oc mdt4_set.
Proof.
  intros x. unfold mdt4_set. eapply fit_bind with (Q1 := fun n q => q = n).
  - destruct (0 <? v4_len (mdt4_addr x)); [|now apply fit_ret].
    eapply fit_bind with (Q1 := fun _ q => q = 0%nat); [now apply fit_lift|]. intros b q ->.
    eapply fit_bind with (Q1 := fun s q => q = 0%nat /\ length s = b).
    { apply fit_lift. intros s E. split; [reflexivity|]. now apply length_rslice_front in E. }
    intros s q [-> <-]. eapply fit_bind with (Q1 := fun _ q => q = length s); [now apply fit_write_at|]. intros _ q ->. now apply fit_ret.
  - intros n q ->. eapply fit_bind with (Q1 := fun _ q => q = (n + 4)%nat); [now apply fit_write_at|]. intros _ q ->.
    eapply fit_bind with (Q1 := fun _ q => q = (n + 4)%nat); [now apply fit_lift|]. intros b q ->. now apply fit_ret.
Qed.
Lemma fit_mdt6 oc : bits_fit oc mdt6_set.
Proof.
  intros x. unfold mdt6_set. eapply fit_bind with (Q1 := fun n q => q = n).
  - destruct (0 <? v6_len (mdt6_addr x)); [|now apply fit_ret].
    eapply fit_bind with (Q1 := fun _ q => q = 0%nat); [now apply fit_lift|]. intros b q ->.
    eapply fit_bind with (Q1 := fun s q => q = 0%nat /\ length s = b).
    { apply fit_lift. intros s E. split; [reflexivity|]. now apply length_rslice_front in E. }
    intros s q [-> <-]. eapply fit_bind with (Q1 := fun _ q => q = length s); [now apply fit_write_at|]. intros _ q ->. now apply fit_ret.
  - intros n q ->. eapply fit_bind with (Q1 := fun _ q => q = (n + 16)%nat).
    { apply fit_write_at. now rewrite length_octets16. } intros _ q ->.
    eapply fit_bind with (Q1 := fun _ q => q = (n + 16)%nat); [now apply fit_lift|]. intros b q ->. now apply fit_ret.
Qed.

(** ** Lists *)
Lemma fit_items {T} oc (st : setter T) v : bits_fit oc st -> forall p, fit p (enc_items oc st v p) (fun n q => n = q).
Proof.
  intros F. induction v as [|i v IH]; intros p; cbn [enc_items]; [now apply fit_ret|].
  eapply fit_ext with (e := bn <~ on_from (p + 1) (st oc i) ;; u <~ set_idx p (fst bn) ;; enc_items oc st v (p + (snd bn + 1))).
  { intros buf. unfold ebind. destruct (on_from (p + 1) (st oc i) buf) as [[[b n] b1]| | |]; reflexivity. }
  eapply (fit_back p (p + 1)) with (R := fun _ _ _ => True) (Q1 := fun bn q => q = (p + 1 + snd bn)%nat).
  - eapply fit_on_from; [apply F|]. intros x q ->. lia.
  - intros x q _. now apply fit_set_idx.
  - intros x q _ -> _. replace (p + 1 + snd x)%nat with (p + (snd x + 1))%nat by lia. apply IH.
Qed.
Lemma fit_pathid_items {T} oc (st : setter T) v : bits_fit oc st -> forall p, fit p (enc_pathid_items oc st v p) (fun n q => n = q).
Proof.
  intros F. induction v as [|i v IH]; intros p; cbn [enc_pathid_items]; [now apply fit_ret|].
  eapply fit_bind with (Q1 := fun _ q => q = (p + 4)%nat).
  { eapply fit_on_from with (Q' := fun _ q => q = 4%nat); [now apply fit_u32|]. intros _ q ->. reflexivity. }
  intros _ q ->.
  eapply fit_ext with (e := bn <~ on_from (p + 4 + 1) (st oc (pid_nlri i)) ;; u <~ set_idx (p + 4) (fst bn) ;; enc_pathid_items oc st v (p + 4 + (snd bn + 1))).
  { intros buf. unfold ebind. destruct (on_from (p + 4 + 1) (st oc (pid_nlri i)) buf) as [[[b n] b1]| | |]; reflexivity. }
  eapply (fit_back (p + 4) (p + 4 + 1)) with (R := fun _ _ _ => True) (Q1 := fun bn q => q = (p + 4 + 1 + snd bn)%nat).
  - eapply fit_on_from; [apply F|]. intros x q ->. lia.
  - intros x q _. now apply fit_set_idx.
  - intros x q _ -> _. replace (p + 4 + 1 + snd x)%nat with (p + 4 + (snd x + 1))%nat by lia. apply IH.
Qed.
Lemma fit_enc_addritems {T} (enc : T -> Enc nat) v : Forall (fun i => fit 0 (enc i) (fun n q => n = q)) v ->
  forall p, fit p (enc_addritems enc v p) (fun n q => n = q).
Proof.
  induction 1 as [|i v Hi Hv IH]; intros p; cbn [enc_addritems]; [now apply fit_ret|].
  eapply fit_bind with (Q1 := fun n q => q = (p + n)%nat); [eapply fit_on_from; [exact Hi|]; intros; cbn beta in *; lia|].
  intros n q ->. apply IH.
Qed.
Lemma fit_addritems {T} (enc : T -> Enc nat) v : (forall i, In i v -> fit 0 (enc i) (fun n q => n = q)) ->
  fit 0 (encode_bgpaddritems_to enc v) (fun n q => n = q).
Proof. intros H. apply fit_enc_addritems. now apply Forall_forall. Qed.
