(** No decoder loop runs out of fuel: lemmas for the decoders of the item formats. *)
From Verif Require Import Base BaseFacts M_Util S_Wire F_Util M_Prefix M_Nlri S_Nlri F_Nlri M_Vpls M_Mvpn F_Mvpn M_Evpn M_Flowspec F_Flowspec.
Ltac Zify.zify_post_hook ::= idtac.

Definition nf {A} (r : res A) : Prop := r <> OutOfFuel.
Lemma nf_bind {A B} (x : res A) (f : A -> res B) : nf x -> (forall a, nf (f a)) -> nf (bind x f).
Proof. intros Hx Hf. destruct x; cbn [bind]; [apply Hf|discriminate|discriminate|exfalso; now apply Hx]. Qed.
Lemma nf_bind_ok {A B} (x : res A) (f : A -> res B) : nf x -> (forall a, x = Ok a -> nf (f a)) -> nf (bind x f).
Proof. intros Hx Hf. destruct x; cbn [bind]; [apply Hf; reflexivity|discriminate|discriminate|exfalso; now apply Hx]. Qed.
Lemma nf_ok {A} (a : A) : nf (Ok a). Proof. discriminate. Qed.
Lemma nf_err {A} e : nf (@Err A e). Proof. discriminate. Qed.
Lemma nf_panic {A} : nf (@Panic A). Proof. discriminate. Qed.
Lemma nf_idx {A} (l : list A) i : nf (idx l i). Proof. apply idx_fuel. Qed.
Lemma nf_rslice {A} (l : list A) a b : nf (rslice l a b).
Proof. unfold rslice. destruct (_ && _)%bool; discriminate. Qed.
Lemma nf_eslice {A} (l : list A) a b : nf (eslice l a b).
Proof. unfold eslice. destruct (_ && _)%bool; discriminate. Qed.
Lemma nf_rfrom {A} (l : list A) a : nf (rfrom l a).
Proof. unfold rfrom. destruct (Nat.leb _ _); discriminate. Qed.
Lemma nf_u16 l : nf (getn_u16 l). Proof. destruct (getn_u16_cases l) as [(? & -> & _)|(-> & _)]; discriminate. Qed.
Lemma nf_u32 l : nf (getn_u32 l). Proof. destruct (getn_u32_cases l) as [(? & -> & _)|(-> & _)]; discriminate. Qed.
Lemma nf_usub oc w a b : nf (usub oc w a b). Proof. apply usub_fuel. Qed.
Lemma nf_uadd oc w a b : nf (uadd oc w a b). Proof. unfold uadd. destruct (_ <? _), oc; discriminate. Qed.
Lemma nf_ushl oc w a b : nf (ushl oc w a b). Proof. unfold ushl. destruct (_ <? _), oc; discriminate. Qed.
Lemma nf_v4 l : nf (decode_addrv4_from l). Proof. apply decode_addrv4_fuel. Qed.
Lemma nf_v6 l : nf (decode_addrv6_from l). Proof. apply decode_addrv6_fuel. Qed.
Lemma nf_rd l : nf (decode_rd_from l). Proof. apply decode_rd_fuel. Qed.
Lemma nf_labels oc b l : nf (labels_extract oc b l). Proof. unfold labels_extract. apply labels_loop_fuel. lia. Qed.
Lemma nf_v4b oc b l : nf (v4_from_bits oc b l). Proof. apply v4_fuel. Qed.
Lemma nf_v6b oc b l : nf (v6_from_bits oc b l). Proof. apply v6_fuel. Qed.
Ltac nf1 := first [apply nf_ok|apply nf_err|apply nf_panic|apply nf_idx|apply nf_rslice|apply nf_eslice|apply nf_rfrom|apply nf_u16|apply nf_u32
  |apply nf_usub|apply nf_uadd|apply nf_ushl|apply nf_v4|apply nf_v6|apply nf_rd|apply nf_labels|apply nf_v4b|apply nf_v6b].
Ltac nfs := repeat first [nf1
  |match goal with |- nf (bind _ _) => apply nf_bind; [|intros; try match goal with p : (_ * _)%type |- _ => destruct p end] end
  |match goal with |- nf (if ?b then _ else _) => destruct b end
  |match goal with |- nf (match ?x with _ => _ end) => destruct x end].

Lemma nf_addr l : nf (decode_addr_from l).
Proof. unfold decode_addr_from. nfs. Qed.
Lemma nf_bits_bytes oc b : nf (bits_bytes oc b).
Proof. unfold bits_bytes. nfs. Qed.
Lemma nf_fill k b l : nf (fill_zeroed k b l).
Proof. unfold fill_zeroed. nfs. Qed.
Ltac nfx t := repeat first [progress nfs|apply nf_addr|apply nf_bits_bytes|apply nf_fill|t].
Lemma nf_mdt4 oc : fuel_ok oc mdt4_extract.
Proof. intros b l. unfold mdt4_extract. match goal with |- ?x <> OutOfFuel => change (nf x) end. nfx fail. Qed.
Lemma nf_mdt6 oc : fuel_ok oc mdt6_extract.
Proof. intros b l. unfold mdt6_extract. match goal with |- ?x <> OutOfFuel => change (nf x) end. nfx fail. Qed.
Lemma nf_l2a oc k l : nf (l2a_extract oc k l).
Proof. unfold l2a_extract. nfx fail. Qed.
Lemma nf_mvpn m l : nf (mvpn_decode m l).
Proof.
  assert (G3 : forall b, nf (mvpn3_decode m b)) by (intros b; unfold mvpn3_decode, check_lens, addr_at; nfx fail).
  assert (G4 : forall b, nf (mvpn4_decode m b)).
  { intros b. unfold mvpn4_decode.
    apply nf_bind; [nf1|intros x]. destruct (negb (x =? 3)); [nf1|].
    apply nf_bind; [nf1|intros y]. destruct (negb (y =? 22)); [nf1|].
    apply nf_bind; [nf1|intros r]. specialize (G3 r).
    destruct (mvpn3_decode m r) as [[? ?]| | |]; [nfx fail|nf1|nf1|now destruct (G3 eq_refl)]. }
  unfold mvpn_decode, mvpn_arm, mvpn1_decode, mvpn2_decode, mvpn5_decode, mvpn67_decode, check_lens, addr_at. nfx ltac:(first [apply G3|apply G4]).
Qed.
Lemma nf_evpn oc l : nf (evpn_decode oc l).
Proof.
  unfold evpn_decode, evpn_arm, evpn1_decode, evpn2_decode, evpn3_decode, evpn4_decode, evpn5_decode, esi_read, u32_at, labels_at, v4_at, v6_at, mac_from_network_bytes. nfx fail.
Qed.
Lemma nf_oper l : nf (oper_read l).
Proof. unfold oper_read. nfx fail. Qed.
Lemma oper_read_pos l b v n : oper_read l = Ok (b, v, n) -> (2 <= n)%nat.
Proof. intros H. destruct (oper_read_det _ _ _ _ _ _ _ _ H H eq_refl) as (_ & _ & G). exact G. Qed.
Lemma nf_val l : nf (vec_dec fsvalop l).
Proof.
  unfold vec_dec. apply dec_loop_fuel; [| |lia].
  - intros b x n H. cbn [op_dec fsvalop] in H. unfold fsval_dec in H. apply bind_Ok_inv in H as ([[? ?] ?] & E & H). injection H as _ <-. apply oper_read_pos in E. lia.
  - intros b. change (nf (fsval_dec b)). unfold fsval_dec. nfx ltac:(apply nf_oper).
Qed.
Lemma nf_mask l : nf (vec_dec fsmaskop l).
Proof.
  unfold vec_dec. apply dec_loop_fuel; [| |lia].
  - intros b x n H. cbn [op_dec fsmaskop] in H. unfold fsmask_dec in H. apply bind_Ok_inv in H as ([[? ?] ?] & E & H). injection H as _ <-. apply oper_read_pos in E. lia.
  - intros b. change (nf (fsmask_dec b)). unfold fsmask_dec. nfx ltac:(apply nf_oper).
Qed.
Lemma nf_fs {T} (it : fsitem T) l : (forall b, nf (fs_dec it b)) -> nf (fs_decode it l).
Proof. intros H. unfold fs_decode, fs_arm_pfx, fs_arm_vec. nfx ltac:(first [apply nf_val|apply nf_mask|apply H]). Qed.
Lemma nf_fs4 oc l : nf (fs_decode (fs4 oc) l).
Proof. apply nf_fs. intros b. cbn [fs4 fs_dec]. unfold fs4_dec. nfx fail. Qed.
Lemma nf_fs6 oc l : nf (fs_decode (fs6i oc) l).
Proof. apply nf_fs. intros b. cbn [fs6i fs_dec]. unfold fs6_dec. nfx fail. Qed.
Lemma nf_fsv4 oc l : nf (fs_decode (fsv4 oc) l).
Proof. apply nf_fs. intros b. cbn [fsv4 fs_dec]. unfold fsv4_dec. nfx fail. Qed.

(** every item consumes at least one byte *)
Lemma mvpn_progress m b x n : mvpn_decode m b = Ok (x, n) -> (1 <= n)%nat.
Proof.
  unfold mvpn_decode. intros H. do 2 binv H.
  assert (G : forall T (d : list N -> res (T * nat)) w r, mvpn_arm d w b r = Ok (x, n) -> (1 <= n)%nat).
  { intros T d w r G. unfold mvpn_arm in G. binv G. apply bind_Ok_inv in G as ([? ?] & _ & G). injection G as _ <-. lia. }
  repeat match type of H with (if ?c then _ else _) = _ => destruct c end; try (eapply G; exact H). discriminate.
Qed.
Lemma evpn_progress oc b x n : evpn_decode oc b = Ok (x, n) -> (1 <= n)%nat.
Proof.
  unfold evpn_decode. intros H. do 2 binv H.
  assert (G : forall T (d : list N -> res (T * nat)) w r, evpn_arm d w b r = Ok (x, n) -> (1 <= n)%nat).
  { intros T d w r G. unfold evpn_arm in G. binv G. apply bind_Ok_inv in G as ([? ?] & _ & G). injection G as _ <-. lia. }
  repeat match type of H with (if ?c then _ else _) = _ => destruct c end; try (eapply G; exact H); discriminate.
Qed.
Lemma fs_progress {T} (it : fsitem T) b x n : fs_decode it b = Ok (x, n) -> (1 <= n)%nat.
Proof.
  unfold fs_decode. intros H. binv H. apply bind_Ok_inv in H as ([pos nlen] & _ & H). binv H.
  assert (G : forall w, fs_arm_pfx it w b pos nlen = Ok (x, n) -> (1 <= n)%nat).
  { intros w G. unfold fs_arm_pfx in G. binv G. apply bind_Ok_inv in G as ([? ?] & _ & G). injection G as _ <-. lia. }
  assert (G' : forall U (o : fsoper U) w, fs_arm_vec o w b pos nlen = Ok (x, n) -> (1 <= n)%nat).
  { intros U o w G'. unfold fs_arm_vec in G'. binv G'. apply bind_Ok_inv in G' as ([? ?] & _ & G'). injection G' as _ <-. lia. }
  repeat match type of H with (if ?c then _ else _) = _ => destruct c end; try (eapply G; exact H); try (eapply G'; exact H). discriminate.
Qed.
Lemma long_progress {T} (ex : nat -> list N -> res T) b x n : decode_long_item ex b = Ok (x, n) -> (1 <= n)%nat.
Proof. unfold decode_long_item. intros H. do 4 binv H. injection H as _ <-. lia. Qed.
Lemma nf_items {T} (dec : list N -> res (T * nat)) l : (forall b, nf (dec b)) -> (forall b x n, dec b = Ok (x, n) -> (1 <= n)%nat) ->
  nf (decode_bgpaddritems_from dec l).
Proof. intros H1 H2. unfold decode_bgpaddritems_from. apply dec_loop_fuel; auto. lia. Qed.
Lemma nf_long {T} (ex : nat -> list N -> res T) l : (forall k b, nf (ex k b)) -> nf (decode_long_bgpitems_from ex l).
Proof.
  intros H1. unfold decode_long_bgpitems_from. apply dec_loop_fuel; [apply long_progress| |lia].
  intros b. change (nf (decode_long_item ex b)). unfold decode_long_item. nfx ltac:(apply H1).
Qed.
