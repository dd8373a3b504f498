(** Proofs about the kinds of errors of encoders. *)
From Verif Require Import Base BaseFacts M_Util S_Wire F_Util M_Prefix S_Prefix M_Nlri S_Nlri F_Nlri M_Session M_Vpls F_Vpls M_Mvpn S_Mvpn F_Mvpn M_Evpn S_Evpn F_Evpn
  M_Flowspec S_Flowspec F_Flowspec M_Cap M_Open M_Addrs S_Addrs F_Addrs M_Attr S_Attr S_Attr2 M_Update S_Update M_Bmp M_Peer S_Stop F_Stop3 S_Short F_Short S_Exact S_Exact2 S_Kinds F_Kinds F_Kinds2.
Ltac Zify.zify_post_hook ::= idtac.

Lemma e_bind {A B} P (x : Enc A) (f : A -> Enc B) : ekinds P x -> (forall a, ekinds P (f a)) -> ekinds P (ebind x f).
Proof.
  intros Hx Hf buf e E. unfold ebind in E. specialize (Hx buf). destruct (x buf) as [[a b]|e0| |]; [exact (Hf a b e E)|apply Hx; congruence|discriminate|discriminate].
Qed.
Lemma e_ret {A} P (a : A) : ekinds P (eret a). Proof. intros buf. apply k_ok. Qed.
Lemma e_err {A} (P : err -> Prop) e : P e -> ekinds P (@eerr A e). Proof. intros H buf. now apply k_err. Qed.
Lemma e_panic {A} P : ekinds P (@epanic A). Proof. intros buf. apply k_panic. Qed.
Lemma e_len P : ekinds P elen. Proof. intros buf. apply k_ok. Qed.
Lemma e_lift {A} P (r : res A) : kinds P r -> ekinds P (elift r).
Proof. intros H buf e E. unfold elift in E. destruct r; try discriminate. apply H. congruence. Qed.
Lemma e_set P i b : ekinds P (set_idx i b). Proof. intros buf e E. unfold set_idx in E. destruct (Nat.ltb _ _); discriminate. Qed.
Lemma e_write P i b : ekinds P (write_at i b). Proof. intros buf e E. unfold write_at in E. destruct (Nat.leb _ _); discriminate. Qed.
Lemma e_upd P i f : ekinds P (upd_idx i f). Proof. intros buf e E. unfold upd_idx in E. destruct (nth_error _ _); discriminate. Qed.
Lemma e_clone P b : ekinds P (clone_from_slice b). Proof. intros buf e E. unfold clone_from_slice in E. destruct (Nat.eqb _ _); discriminate. Qed.
Lemma e_zero P : ekinds P zero_all. Proof. intros buf. apply k_ok. Qed.
Lemma e_from {A} P n (x : Enc A) : ekinds P x -> ekinds P (on_from n x).
Proof. intros H buf e E. unfold on_from in E. destruct (Nat.leb _ _); [|discriminate]. specialize (H (skipn n buf)). destruct (x _) as [[a b]|e0| |]; try discriminate. apply H. congruence. Qed.
Lemma e_slice {A} P n m (x : Enc A) : ekinds P x -> ekinds P (on_slice n m x).
Proof. intros H buf e E. unfold on_slice in E. destruct (_ && _)%bool; [|discriminate]. specialize (H (sub buf n m)). destruct (x _) as [[a b]|e0| |]; try discriminate. apply H. congruence. Qed.
Lemma e_eslice {A} (P : err -> Prop) n m (x : Enc A) : P EInsufficient -> ekinds P x -> ekinds P (on_eslice n m x).
Proof. intros HI H buf e E. unfold on_eslice in E. destruct (_ && _)%bool; [|congruence]. specialize (H (sub buf n m)). destruct (x _) as [[a b]|e0| |]; try discriminate. apply H. congruence. Qed.
Lemma e_u16 P v : ekinds P (setn_u16 v). Proof. unfold setn_u16. apply e_bind; [apply e_set|intros; apply e_set]. Qed.
Lemma e_u32 P v : ekinds P (setn_u32 v). Proof. unfold setn_u32. repeat (apply e_bind; [apply e_set|intros]). apply e_set. Qed.
Lemma e_u64 P v : ekinds P (setn_u64 v). Proof. unfold setn_u64. repeat (apply e_bind; [apply e_set|intros]). apply e_set. Qed.
Ltac e1 := first [apply e_ret|apply e_panic|apply e_len|apply e_set|apply e_write|apply e_upd|apply e_clone|apply e_zero|apply e_u16|apply e_u32|apply e_u64|apply e_err; assumption].
Ltac es := repeat first [e1
  |match goal with |- ekinds _ (ebind _ _) => apply e_bind; [|intros; repeat match goal with p : (_ * _)%type |- _ => destruct p end] end
  |apply e_from|apply e_slice|apply e_eslice; [assumption|]
  |match goal with |- ekinds _ (if ?b then _ else _) => destruct b end
  |match goal with |- ekinds _ (match ?x with _ => _ end) => destruct x end].

Section E.
Context (P : err -> Prop) (HO : P EOther) (HI : P EInsufficient).
Lemma e_a4 a : ekinds P (encode_addrv4_to a). Proof. unfold encode_addrv4_to. es. Qed.
Lemma e_a6 a : ekinds P (encode_addrv6_to a). Proof. unfold encode_addrv6_to. es. Qed.
Lemma e_addr a : ekinds P (encode_addr_to a). Proof. unfold encode_addr_to. destruct a; [apply e_a4|apply e_a6]. Qed.
Lemma e_rd r : ekinds P (encode_rd_to r). Proof. unfold encode_rd_to. es. Qed.
Ltac ee := repeat first [progress es|apply e_a4|apply e_a6|apply e_addr|apply e_rd|apply e_lift; ks; fail|apply e_lift; unfold bits_bytes, fill_zeroed; ks].
Lemma e_v4 oc x : ekinds P (v4_to_bits oc x). Proof. unfold v4_to_bits. ee. Qed.
Lemma e_v6 oc x : ekinds P (v6_to_bits oc x). Proof. unfold v6_to_bits. ee. Qed.
Lemma e_labels v : ekinds P (labels_set v).
Proof. unfold labels_set. assert (W : forall v q, ekinds P (labels_write v q)) by (induction v0 as [|l v0 IH]; intros; cbn [labels_write]; ee; apply IH). ee; apply W. Qed.
Lemma e_labeled {T} (st : setter T) oc x : (forall x, ekinds P (st oc x)) -> ekinds P (labeled_set st oc x).
Proof. intros H. unfold labeled_set. repeat first [progress ee|apply e_labels|apply H]. Qed.
Lemma e_withrd {T} (st : setter T) oc x : (forall x, ekinds P (st oc x)) -> ekinds P (withrd_set st oc x).
Proof. intros H. unfold withrd_set. repeat first [progress ee|apply H]. Qed.
Lemma e_mdt4 oc x : ekinds P (mdt4_set oc x). Proof. unfold mdt4_set. ee. Qed.
Lemma e_mdt6 oc x : ekinds P (mdt6_set oc x). Proof. unfold mdt6_set. ee. Qed.
Lemma e_items {T} oc (st : setter T) v : (forall x, ekinds P (st oc x)) -> ekinds P (encode_bgpitems_to oc st v).
Proof. intros H. unfold encode_bgpitems_to. generalize 0%nat. induction v as [|x v IH]; intros q; cbn [enc_items]; repeat first [progress ee|apply H|apply IH]. Qed.
Lemma e_pid {T} oc (st : setter T) v : (forall x, ekinds P (st oc x)) -> ekinds P (encode_pathid_bgpitems_to oc st v).
Proof. intros H. unfold encode_pathid_bgpitems_to. generalize 0%nat. induction v as [|x v IH]; intros q; cbn [enc_pathid_items]; repeat first [progress ee|apply H|apply IH]. Qed.
Lemma e_addritems {T} (en : T -> Enc nat) v : (forall x, In x v -> ekinds P (en x)) -> ekinds P (encode_bgpaddritems_to en v).
Proof.
  intros H. unfold encode_bgpaddritems_to. generalize 0%nat. induction v as [|x v IH]; intros q; cbn [enc_addritems]; [ee|].
  apply e_bind; [apply e_from, H; now left|intros; apply IH; intros; apply H; now right].
Qed.
Lemma e_long {T} (en : T -> Enc nat) v : (forall x, ekinds P (en x)) -> ekinds P (encode_long_bgpitems_to en v).
Proof. intros H. unfold encode_long_bgpitems_to. generalize 0%nat. induction v as [|x v IH]; intros q; cbn [enc_long_items]; repeat first [progress ee|apply H|apply IH]. Qed.
Lemma e_l2a x : ekinds P (l2a_pack x). Proof. unfold l2a_pack. repeat first [progress ee|apply e_labels]. Qed.
Lemma e_mvpn x : ekinds P (mvpn_encode x).
Proof. unfold mvpn_encode, mvpn1_encode, mvpn2_encode, mvpn4_encode, mvpn3_encode, mvpn5_encode, mvpn67_encode. ee. Qed.
Lemma e_vec {T} (o : fsoper T) v : (forall x, ekinds P (op_enc o x)) -> ekinds P (vec_enc o v).
Proof.
  intros H. assert (W : forall v q l, ekinds P (vec_write o v q l)) by (induction v0 as [|x v0 IH]; intros q l; cbn [vec_write]; repeat first [progress ee|apply H|apply IH]).
  unfold vec_enc. destruct v as [|x v]; [ee|]. apply e_bind; [apply W|intros [? ?]; ee].
Qed.
Lemma e_fs {T} (it : fsitem T) r : (forall x, ekinds P (fs_enc it x)) -> ekinds P (fs_encode it r).
Proof.
  intros H. assert (V : forall x, ekinds P (op_enc fsvalop x)) by (intros; cbn; unfold fsval_enc, oper_write; ee).
  assert (M : forall x, ekinds P (op_enc fsmaskop x)) by (intros; cbn; unfold fsmask_enc, oper_write; ee).
  unfold fs_encode, fs_put_pfx, fs_put_vec. repeat first [progress ee|apply H|apply e_vec; assumption].
Qed.
Definition evpn_head (r : evpn) : Enc nat :=
  match r with
  | Ev1 r => set_idx 0 1 ;;; on_from 2 (evpn1_encode r)
  | Ev2 r => set_idx 0 2 ;;; on_from 2 (evpn2_encode r)
  | Ev3 r => set_idx 0 3 ;;; on_from 2 (evpn3_encode r)
  | Ev4 r => set_idx 0 4 ;;; on_from 2 (evpn4_encode r)
  | Ev5 r => set_idx 0 5 ;;; on_from 2 (evpn5_encode r)
  end.
Lemma e_evpn_head r : ekinds P (evpn_head r).
Proof.
  unfold evpn_head, evpn1_encode, evpn2_encode, evpn3_encode, evpn4_encode, evpn5_encode, esi_write, ip_write, mac_write_to_network_bytes.
  repeat first [progress ee|apply e_labels].
Qed.
End E.
Lemma rd_count r buf n out : encode_rd_to r buf = Ok (n, out) -> n = 8%nat.
Proof. unfold encode_rd_to. intros H. apply ebind_Ok_inv in H as (? & ? & _ & H). apply ebind_Ok_inv in H as (? & ? & _ & H). unfold eret in H. congruence. Qed.
Lemma esi_count q t e buf u out : esi_write q t e buf = Ok (u, out) -> length e = 9%nat.
Proof. unfold esi_write. intros H. apply ebind_Ok_inv in H as (? & ? & _ & H). destruct (Nat.eqb_spec (length e) 9); [assumption|discriminate]. Qed.
Lemma ipw_count b q a buf n out : ip_write b q a buf = Ok (n, out) -> n = (q + 1 + length (ip_bytes a))%nat.
Proof.
  unfold ip_write. destruct a; intros H; apply ebind_Ok_inv in H as (? & ? & _ & H); apply ebind_Ok_inv in H as (? & ? & _ & H); unfold eret in H; cbn [ip_bytes]; rewrite length_be_bytes; [replace n with (q + 5)%nat by congruence|replace n with (q + 17)%nat by congruence]; lia.
Qed.
Lemma stack_wire_len v : length (stack_wire v) = (3 * length v)%nat.
Proof. induction v as [|x v IH]; [reflexivity|]. cbn [stack_wire]. destruct v as [|y v]; [cbn [length]; rewrite length_be_bytes; lia|]. rewrite app_length, length_be_bytes, IH. cbn [length]. lia. Qed.
Ltac step H := let E := fresh "E" in apply ebind_Ok_inv in H as (? & ? & E & H).
Lemma evpn_count r buf n out : mac6 r -> evpn_head r buf = Ok (n, out) -> (n <= length (ev_body r))%nat.
Proof.
  intros M H. destruct r as [r|r|r|r|r]; cbn [evpn_head ev_body mac6] in *; step H; apply on_from_Ok_inv in H as (o & H & _);
  unfold evpn1_encode, evpn2_encode, evpn3_encode, evpn4_encode, evpn5_encode in H.
  - step H. apply rd_count in E0. subst. step H. apply esi_count in E0. step H. apply ebind_Ok_inv in H as ([? k] & ? & E2 & H). apply on_from_Ok_inv in E2 as (? & E2 & _). apply labels_set_count in E2.
    unfold eret in H. assert (n = 8 + 14 + k)%nat by congruence. unfold rd_wire. rewrite !app_length, !length_be_bytes, stack_wire_len. cbn [length]. lia.
  - step H. apply rd_count in E0. subst. step H. apply esi_count in E0. step H. step H. step H. step H. apply ebind_Ok_inv in H as ([? k] & ? & E5 & H). apply on_from_Ok_inv in E5 as (? & E5 & _). apply labels_set_count in E5.
    unfold rd_wire. rewrite !app_length, !length_be_bytes, stack_wire_len, rev_length. destruct (ev2_ip r) as [a|].
    + apply ipw_count in E4. subst. unfold lip. cbn [length]. unfold eret in H. match type of H with Ok (?z, _) = _ => assert (n = z) by congruence end. lia.
    + apply ebind_Ok_inv in E4 as (? & ? & _ & E4). unfold eret in H, E4. match type of H with Ok (?z, _) = _ => assert (n = z) by congruence end. match type of E4 with Ok (?z, _) = Ok (?y, _) => assert (y = z) by congruence end. cbn [length]. lia.
  - step H. apply rd_count in E0. subst. step H. apply ipw_count in H. subst. unfold rd_wire, lip. rewrite !app_length, !length_be_bytes. cbn [length]. lia.
  - step H. apply rd_count in E0. subst. step H. apply esi_count in E0. apply ipw_count in H. subst. unfold rd_wire, lip. rewrite !app_length, !length_be_bytes. cbn [length]. lia.
  - step H. apply rd_count in E0. subst. step H. apply esi_count in E0. step H. step H. step H. apply ebind_Ok_inv in H as ([? k] & ? & E4 & H). apply on_from_Ok_inv in E4 as (? & E4 & _). apply labels_set_count in E4.
    unfold rd_wire. rewrite !app_length, !length_be_bytes, stack_wire_len. destruct (ev5_prefix r), (ev5_gw r); try discriminate E3; do 2 (step E3); unfold eret in H, E3;
    match type of H with Ok (?z, _) = _ => assert (n = z) by congruence end; match type of E3 with Ok (?z, _) = Ok (?y, _) => assert (y = z) by congruence end; cbn [length ip_bytes]; rewrite !length_be_bytes; lia.
Qed.
Section F.
Context (P : err -> Prop) (HO : P EOther) (HI : P EInsufficient).
Ltac ee := repeat first [progress es|now apply e_a4|now apply e_a6|now apply e_addr|now apply e_rd|apply e_lift; ks; fail|apply e_lift; unfold bits_bytes, fill_zeroed; ks].
Lemma e_evpn r : P ETooMany \/ (mac6 r /\ ~ evpn_long r) -> ekinds P (evpn_encode r).
Proof.
  intros H buf e E. change (evpn_encode r) with (pos <~ evpn_head r ;; (if Nat.leb pos 255 then set_idx 1 (N.of_nat pos) else eerr ETooMany) ;;; eret (pos + 2)%nat) in E. unfold ebind at 1 in E.
  destruct (evpn_head r buf) as [[pos b]|e0| |] eqn:X; [|apply (e_evpn_head P HO r buf); congruence|discriminate|discriminate].
  revert e E. apply (fun z => z b). match goal with |- forall b, forall e, ?f b = Err e -> _ => idtac | _ => idtac end.
  destruct (Nat.leb_spec pos 255) as [L|L].
  - clear X. intros b0 e E. revert e E. change (kinds P ((set_idx 1 (N.of_nat pos) ;;; eret (pos + 2)%nat) b0)). revert b0. change (ekinds P (set_idx 1 (N.of_nat pos) ;;; eret (pos + 2)%nat)). es.
  - intros b0 e E. unfold ebind, eerr in E. replace e with ETooMany by congruence. destruct H as [H|[M H]]; [exact H|]. apply evpn_count in X; [|exact M]. exfalso. apply H. unfold evpn_long. lia.
Qed.
Lemma e_fs4 oc x : ekinds P (fs_enc (fs4 oc) x). Proof. cbn [fs4 fs_enc]. unfold fs4_enc. repeat first [progress ee|now apply e_v4]. Qed.
Lemma e_fs6 oc x : ekinds P (fs_enc (fs6i oc) x). Proof. cbn [fs6i fs_enc]. unfold fs6_enc. repeat first [progress ee|now apply e_v6]. Qed.
Lemma e_fsv4 oc x : ekinds P (fs_enc (fsv4 oc) x). Proof. cbn [fsv4 fs_enc]. unfold fsv4_enc. repeat first [progress ee|apply e_withrd; intros; now apply e_v4]. Qed.
Lemma e_addrs oc a : (forall r, In r (evpn_routes a) -> P ETooMany \/ (mac6 r /\ ~ evpn_long r)) -> ekinds P (addrs_encode oc a).
Proof.
  intros H. destruct a; cbn [addrs_encode evpn_routes] in *; try (ee; fail);
  try (first [apply e_items|apply e_pid]; intros; repeat first [now apply e_v4|now apply e_v6|now apply e_mdt4|now apply e_mdt6|apply e_labeled; intros|apply e_withrd; intros]; fail).
  - apply e_long. intros. now apply e_l2a.
  - apply e_addritems. intros. now apply e_mvpn.
  - apply e_addritems. intros. apply e_evpn. now apply H.
  - apply e_addritems. intros. apply e_fs; try assumption. intros. apply e_fs4.
  - apply e_addritems. intros. apply e_fs; try assumption. intros. apply e_fs6.
  - apply e_addritems. intros. apply e_fs; try assumption. intros. apply e_fsv4.
Qed.
Lemma e_attr oc p a : (forall r, In r (attr_routes a) -> P ETooMany \/ (mac6 r /\ ~ evpn_long r)) -> ekinds P (attr_encode oc p a).
Proof.
  intros H. unfold attr_encode. destruct (attr_params a) as [tc fl]. cbv zeta. apply e_bind; [e1|intros _]. apply e_bind; [e1|intros _]. apply e_bind; [apply e_from|intros; ee].
  assert (W : forall b v q, ekinds P (as_write b v q)) by (induction v as [|x v IH]; intros q; cbn [as_write]; repeat first [progress ee|apply IH]).
  destruct a; cbn [attr_put attr_routes] in *;
  try (unfold origin_encode, aspath_encode, nexthop_encode, u32_encode, aggregator_encode, originator_encode, connector_encode, community_encode, comm_encode, ecomm_encode, lcomm_encode;
    repeat first [progress ee|apply W|apply e_addritems; intros]; fail).
  - unfold mpupdates_encode, mp_put_nexthop, v4rd_encode, v6rd_encode. repeat first [progress ee|apply e_addrs; assumption].
  - unfold mpwithdraws_encode. repeat first [progress ee|apply e_addrs; assumption].
Qed.
Lemma e_plain oc p a e : upd_nlri_encode oc p a = Some e -> ekinds P e.
Proof.
  unfold upd_nlri_encode. intros H. destruct (sp_mode p), a; try discriminate; injection H as <-; first [apply e_items|apply e_pid]; intros; first [now apply e_v4|now apply e_v6].
Qed.
Lemma e_upd_attrs oc p v : (forall a r, In a v -> In r (attr_routes a) -> P ETooMany \/ (mac6 r /\ ~ evpn_long r)) -> forall l q, ekinds P (upd_attrs_encode oc p v l q).
Proof.
  induction v as [|a v IH]; intros H l q; cbn [upd_attrs_encode]; [ee|]. destruct (_ <? _); [ee|]. apply e_bind; [|intros; apply IH; intros; eapply H; [right; eassumption|assumption]].
  unfold on_tail. apply e_bind; [e1|intros]. apply e_eslice; [assumption|]. apply e_attr. intros. eapply H; [now left|assumption].
Qed.
End F.
Ltac ee := repeat first [progress es|now apply e_a4|now apply e_a6|now apply e_addr|now apply e_rd|apply e_lift; ks; fail|apply e_lift; unfold bits_bytes, fill_zeroed; ks].
Lemma e_withdraws (P : err -> Prop) oc p a : P EOther -> P EInsufficient -> P ETooMany -> ekinds P (upd_withdraws oc p a).
Proof.
  intros HO HI HT. unfold upd_withdraws. destruct (upd_nlri_encode oc p a) as [x|] eqn:U; [|ee]. unfold on_tail. ee. eapply (e_plain P); eassumption.
Qed.
Lemma e_update (P : err -> Prop) oc p m : P EOther -> P EInsufficient -> (forall a r, In a (u_attrs m) -> In r (attr_routes a) -> P ETooMany \/ (mac6 r /\ ~ evpn_long r)) ->
  forall buf, (upd_withdraws oc p (u_withdraws m) buf = Err ETooMany -> P ETooMany) -> kinds P (update_encode oc p m buf).
Proof.
  intros HO HI H buf W e E. unfold update_encode, ebind at 1 in E. destruct (upd_withdraws oc p (u_withdraws m) buf) as [[q b]|e0| |] eqn:X; [|injection E as ->|discriminate|discriminate].
  - clear X W. revert b e E. match goal with |- forall b e, ?f b = Err e -> _ => change (ekinds P f) end.
    apply e_bind; [now apply e_upd_attrs|intros c]. apply e_bind; [ee|intros _]. destruct (upd_nlri_encode oc p (u_updates m)) as [x|] eqn:U; [|ee]. unfold on_tail. ee. eapply (e_plain P); eassumption.
  - destruct (e_withdraws (fun e => e = EOther \/ e = EInsufficient \/ e = ETooMany) oc p (u_withdraws m) (or_introl eq_refl) (or_intror (or_introl eq_refl)) (or_intror (or_intror eq_refl)) buf e X) as [K|[K|K]]; subst e; auto.
Qed.
Lemma e_cap (P : err -> Prop) c : P EOther -> P EInsufficient -> ekinds P (fill_buffer c).
Proof.
  intros HO HI. assert (F : forall T k (en : T -> Enc unit), (forall x, ekinds P (en x)) -> forall v q, ekinds P (fill_entries k en v q)).
  { intros T k en Hen. induction v as [|x v IH]; intros q; cbn [fill_entries]; repeat first [progress ee|apply Hen|apply IH]. }
  unfold fill_buffer. cbv zeta. repeat first [progress ee|apply F; intros; unfold gr_encode, ap_encode, llgr_encode].
Qed.
Lemma e_open (P : err -> Prop) m : P EOther -> P EInsufficient -> ekinds P (open_encode m).
Proof.
  intros HO HI. unfold open_encode. ee. generalize 10%nat. induction (op_caps m) as [|c v IH]; intros q; cbn [open_fill_caps]; cbv zeta; repeat first [progress ee|now apply e_cap|apply IH].
Qed.
Lemma e_notif (P : err -> Prop) m : P EOther -> ekinds P (notif_encode m).
Proof. intros HO. unfold notif_encode. ee. Qed.
Lemma e_head (P : err -> Prop) oc t n : P EInsufficient -> ekinds P (prepare_message_buf oc t n).
Proof. intros HI. unfold prepare_message_buf. ee. Qed.
Lemma k_send (P : err -> Prop) oc p m buf : P EInsufficient -> (kinds P (message_encode oc p m (skipn 19 buf))) -> kinds P (send_message oc p m buf).
Proof.
  intros HI H e E. unfold send_message, ebind at 1 in E. unfold on_from in E. destruct (Nat.leb 19 (length buf)); [|discriminate].
  destruct (message_encode oc p m (skipn 19 buf)) as [[n b]|e0| |]; [|apply H; congruence|discriminate|discriminate]. clear H.
  revert e E. match goal with |- forall e, ?f ?b = Err e -> _ => change (kinds P (f b)); generalize b; change (ekinds P f) end.
  apply e_bind; [now apply e_head|]. intros k b0. ks.
Qed.
Lemma e_bgp_put (P : err -> Prop) oc t en q : P EInsufficient -> ekinds P en -> ekinds P (bgp_put oc t en q).
Proof. intros HI H. unfold bgp_put. repeat first [progress ee|exact H|now apply e_head]. Qed.
Lemma e_peer (P : err -> Prop) h : P EOther -> P EInsufficient -> ekinds P (peerhdr_encode h).
Proof. intros HO HI. unfold peerhdr_encode, bmp_addr_encode. ee. Qed.
Lemma e_bmp (P : err -> Prop) oc m : P EOther -> P EInsufficient ->
  (forall x, m = RouteMonitoring x -> ekinds P (update_encode oc (params_of_peer (rm_peer x)) (rm_update x))) -> ekinds P (bmp_encode oc m).
Proof.
  intros HO HI H. unfold bmp_encode. cbv zeta. apply e_bind; [e1|intros n]. destruct (Nat.eqb n 0); [ee|].
  destruct m as [m| |m|m|m|m|]; [specialize (H m eq_refl); unfold rmon_encode| |unfold peerdown_encode; cbv zeta|unfold peerup_encode, bmp_addr_encode|unfold init_encode, init_field, infoval_encode|unfold term_encode|];
  repeat first [progress ee|now apply e_peer|apply e_bgp_put; [exact HI|]|exact H|now apply e_open|now apply e_notif].
Qed.

(** ** Withdrawn routes that are too many *)
Lemma own_same p a : own_routes p a = session_list p a.
Proof. unfold own_routes, session_list. destruct (sp_mode p), a; reflexivity. Qed.
Lemma session_prefix p a : session_list p a = true -> prefix_routes a.
Proof. unfold session_list. destruct (sp_mode p), a; try discriminate; intros; exact I. Qed.
Lemma withdraws_many oc p a buf : session_list p a = true -> addrs_wf a ->
  (upd_withdraws oc p a buf = Err ETooMany <-> (65535 < N.of_nat (length (addrs_wire a)) /\ (2 + length (addrs_wire a) <= length buf)%nat)).
Proof.
  intros S WF. assert (W := addrs_encode_wire oc a WF). unfold upd_withdraws. rewrite own_encode, own_same, S.
  set (n := length (addrs_wire a)) in *.
  destruct (Nat.le_gt_cases (2 + n) (length buf)) as [L|L].
  - assert (E : exists b, on_tail 2 (addrs_encode oc a) buf = Ok (n, b)).
    { unfold on_tail, ebind, elen, on_eslice. destruct (Nat.leb_spec 2 (length buf)) as [_|X]; [|lia]. destruct (Nat.leb_spec (length buf) (length buf)) as [_|X]; [|lia]. cbn [andb].
      rewrite W by (fold n; unfold sub; rewrite firstn_length, skipn_length; lia). eauto. }
    destruct E as (b & E). unfold ebind at 1. rewrite E. destruct (N.ltb_spec 65535 (N.of_nat n)) as [Y|Y].
    + split; [auto|reflexivity].
    + split; [|lia]. intros H. exfalso. unfold ebind in H. revert H.
      match goal with |- match ?x with _ => _ end = _ -> _ => assert (K : kinds insufficient x) by (revert b E; intros b _; revert b; change (ekinds insufficient (on_tail 0 (setn_u16 (cast 16 (N.of_nat n))))); unfold on_tail; assert (insufficient EInsufficient) by reflexivity; es); destruct x as [[? ?]|e| |] end; try discriminate.
      intros H. specialize (K e eq_refl). unfold insufficient in K. congruence.
  - split; [|lia]. intros H. exfalso.
    assert (E : forall x, on_tail 2 (addrs_encode oc a) buf <> Ok x /\ (on_tail 2 (addrs_encode oc a) buf <> Err ETooMany)).
    { intros x. unfold on_tail, ebind, elen, on_eslice. destruct (Nat.leb_spec 2 (length buf)) as [L2|L2]; cbn [andb]; [|split; discriminate]. rewrite Nat.leb_refl.
      assert (Z : addrs_encode oc a (sub buf 2 (length buf)) = Panic).
      { eapply (routes_short oc a (repeat 0 n) n); [now apply (session_prefix p)|apply W; rewrite repeat_length; fold n; lia|]. unfold sub. rewrite firstn_length, skipn_length. lia. }
      rewrite Z. split; discriminate. }
    unfold ebind at 1 in H. destruct (on_tail 2 (addrs_encode oc a) buf) as [[k b]|e| |]; try discriminate.
    + now destruct (E (k, b)).
    + destruct (E (0%nat, [])) as [_ X]. congruence.
Qed.
Lemma withdraws_other oc p a buf : session_list p a = false -> upd_withdraws oc p a buf <> Err ETooMany.
Proof.
  intros S. unfold upd_withdraws. rewrite own_encode, own_same, S. intros H.
  assert (K : ekinds (fun _ => False) (setn_u16 0 ;;; eret 2%nat)) by es. exact (K buf _ H).
Qed.
(** TooManyData is for withdrawn routes of more than 65535 octets *)
Lemma update_many oc p m buf : (session_list p (u_withdraws m) = true -> addrs_wf (u_withdraws m)) ->
  (forall a r, In a (u_attrs m) -> In r (attr_routes a) -> mac6 r /\ ~ evpn_long r) ->
  (update_encode oc p m buf = Err ETooMany <-> (65535 < N.of_nat (length (nlri_wire p (u_withdraws m))) /\ (2 + length (nlri_wire p (u_withdraws m)) <= length buf)%nat)).
Proof.
  intros WF H. unfold nlri_wire. split.
  - intros E. assert (X : upd_withdraws oc p (u_withdraws m) buf = Err ETooMany).
    { apply (e_update (fun e => e = ETooMany -> upd_withdraws oc p (u_withdraws m) buf = Err ETooMany) oc p m) with (buf := buf) (e := ETooMany); auto; try discriminate.
      intros a r Ia Ir. right. now apply (H a). }
    destruct (session_list p (u_withdraws m)) eqn:S; [|now apply withdraws_other in X]. apply withdraws_many in X; auto.
  - destruct (session_list p (u_withdraws m)) eqn:S; [|cbn [length]; lia].
    intros X. apply (withdraws_many oc p _ buf S (WF eq_refl)) in X. unfold update_encode, ebind at 1. now rewrite X.
Qed.
Lemma evpn_many oc p m buf : (forall a r, In a (u_attrs m) -> In r (attr_routes a) -> mac6 r) -> (session_list p (u_withdraws m) = true -> addrs_wf (u_withdraws m)) ->
  update_encode oc p m buf = Err ETooMany -> 65535 < N.of_nat (length (nlri_wire p (u_withdraws m))) \/ exists a r, In a (u_attrs m) /\ In r (attr_routes a) /\ evpn_long r.
Proof.
  intros M WF E. destruct (N.lt_ge_cases 65535 (N.of_nat (length (nlri_wire p (u_withdraws m))))) as [|X]; [now left|right].
  apply (e_update (fun e => e = ETooMany -> exists a r, In a (u_attrs m) /\ In r (attr_routes a) /\ evpn_long r) oc p m) with (buf := buf) (e := ETooMany); auto; try discriminate.
  - intros a r Ia Ir. destruct (Nat.lt_ge_cases 255 (length (ev_body r))) as [L|L]; [left; intros _; now exists a, r|right; split; [now apply (M a)|unfold evpn_long; lia]].
  - intros Y _. exfalso. unfold nlri_wire in X. destruct (session_list p (u_withdraws m)) eqn:S; [|now apply withdraws_other in Y]. apply withdraws_many in Y; auto. lia.
Qed.

(** ** Together *)
Lemma messages_kinds oc p :
  (forall m b, kinds (fun e => plain e \/ e = EProtocol) (update_decode oc p m b)) /\
  (forall m b, kinds plain (open_decode m b)) /\ (forall m b, kinds message (notif_decode m b)) /\ (forall b, kinds message (decode_message_head oc b)) /\
  (forall t b, kinds (fun e => plain e \/ t = MUpdate /\ e = EProtocol) (message_decode oc p t b)).
Proof.
  assert (PO : plain EOther) by (right; reflexivity). assert (PI : plain EInsufficient) by (left; reflexivity).
  split; [intros; apply k_update; auto|]. split; [intros; now apply k_open|]. split; [intros; apply k_notif; reflexivity|]. split; [intros; apply k_head; reflexivity|].
  intros t b. destruct t; cbn [message_decode]; (apply k_bind; [|intros; ks]) || ks.
  - apply k_open; auto.
  - apply k_update; auto.
  - apply k_notif; auto.
Qed.
Lemma bmp_kinds oc b : kinds plain (bmphdr_decode b) /\ kinds (fun e => plain e \/ e = EProtocol /\ hd 0 b = 0) (bmp_decode oc b) /\
  forall t, kinds (fun e => plain e \/ e = EProtocol /\ hd 0 b = 0) (fst (session_decode oc t b)).
Proof.
  assert (PO : plain EOther) by (right; reflexivity). assert (PI : plain EInsufficient) by (left; reflexivity).
  split; [apply k_bmphdr|]. split; [apply k_bmp; auto|]. intros t. unfold session_decode. destruct b as [|x b]; [cbn; ks|]. cbn [hd idx nth_error].
  assert (QO : plain EOther \/ EOther = EProtocol /\ x = 0) by now left. assert (QI : plain EInsufficient \/ EInsufficient = EProtocol /\ x = 0) by now left.
  destruct (N.eqb_spec x 0) as [->|]; [cbn [fst]; repeat first [progress ks|apply k_rmon; auto]|].
  destruct (x =? 1); [cbn [fst]; ks|]. destruct (x =? 2).
  { assert (K : kinds (fun e => plain e \/ e = EProtocol /\ x = 0) (s <- rfrom (x :: b) 1 ;; peerdown_decode oc s)) by (repeat first [progress ks|apply k_down; auto]).
    destruct (bind _ _) as [[m k]|e| |]; cbn [fst]; try (ks; fail). intros e' E. apply K. congruence. }
  destruct (x =? 3).
  { assert (K : kinds (fun e => plain e \/ e = EProtocol /\ x = 0) (s <- rfrom (x :: b) 1 ;; peerup_decode oc s)) by (repeat first [progress ks|apply k_up; auto]).
    destruct (bind _ _) as [[m k]|e| |]; cbn [fst]; try (ks; fail). intros e' E. apply K. congruence. }
  destruct (x =? 4); [cbn [fst]; repeat first [progress ks|apply k_init; auto]|]. destruct (x =? 5); [cbn [fst]; repeat first [progress ks|apply k_term; auto]|].
  destruct (x =? 6); cbn [fst]; ks.
Qed.
Lemma routes_kinds oc p afi sf b : kinds plain (addrs_decode oc p afi sf b) /\ (~ In sf [66; 128; 129] -> kinds message (addrs_decode oc p afi sf b)).
Proof. split; [apply k_addrs_gen; [now right|now left]|]. intros H. apply k_addrs_gen; [reflexivity|]. intros X. contradiction. Qed.
Lemma attrs_kinds oc p tc f n b : kinds plain (attr_decode oc p tc f n b) /\
  (~ In tc [14; 15; 128] -> ~ (tc = 1 /\ b = []) -> kinds message (attr_decode oc p tc f n b)).
Proof. split; [apply k_attr; [now right|now left|now left]|]. intros H H1. apply k_attr; [reflexivity|contradiction|]. intros -> ->. destruct H1. auto. Qed.
Lemma caps_kinds t d b : kinds message (from_type_and_data t d) /\ kinds plain (from_buffer b) /\
  (from_buffer b = Err EInsufficient <-> ((length b < 2)%nat \/ exists t n d, b = t :: n :: d /\ (length d < N.to_nat n)%nat)).
Proof. split; [apply k_cap; reflexivity|]. split; [apply k_from_buffer; [now right|now left]|]. apply from_buffer_short. Qed.
Lemma origin_stuck oc p m w wd s1 v f rest nl : plain_nlri oc p w wd -> area_of (attr_reads oc p) s1 v ->
  bytes_ok w -> bytes_ok (s1 ++ frame f 1 [] ++ rest) -> N.of_nat (length w) < 2 ^ 16 -> N.of_nat (length (s1 ++ frame f 1 [] ++ rest)) < 2 ^ 16 ->
  update_decode oc p m (be_bytes 2 (N.of_nat (length w)) ++ w ++ be_bytes 2 (N.of_nat (length (s1 ++ frame f 1 [] ++ rest))) ++ (s1 ++ frame f 1 [] ++ rest) ++ nl) = Err EInsufficient.
Proof. intros. eapply update_stuck; try eassumption; [apply N.le_0_l|reflexivity]. Qed.
Lemma no_protocol oc p : (forall m, ekinds (fun e => e <> EProtocol) (message_encode oc p m)) /\ (forall m, ekinds (fun e => e <> EProtocol) (send_message oc p m)) /\
  (forall m, ekinds (fun e => e <> EProtocol) (bmp_encode oc m)) /\ (forall a, ekinds (fun e => e <> EProtocol) (attr_encode oc p a)) /\
  (forall a, ekinds (fun e => e <> EProtocol) (addrs_encode oc a)) /\ (forall c, ekinds (fun e => e <> EProtocol) (fill_buffer c)).
Proof.
  assert (M : forall m, ekinds (fun e => e <> EProtocol) (message_encode oc p m)).
  { intros m. destruct m; cbn [message_encode]; [apply e_open; discriminate| |apply e_notif; discriminate|apply e_ret]. intros buf. apply e_update; try discriminate. intros; left; discriminate. }
  split; [exact M|]. split; [intros m buf; apply k_send; [discriminate|apply M]|]. split; [|split; [|split]].
  - intros m. apply e_bmp; try discriminate. intros x _ buf. apply e_update; try discriminate. intros; left; discriminate.
  - intros a. apply e_attr; try discriminate. intros; left; discriminate.
  - intros a. apply e_addrs; try discriminate. intros; left; discriminate.
  - intros c. apply e_cap; discriminate.
Qed.
Lemma never_too_many oc : (forall m, ekinds plain (open_encode m)) /\ (forall m, ekinds message (notif_encode m)) /\ (forall c, ekinds plain (fill_buffer c)) /\
  (forall m, (forall x, m <> RouteMonitoring x) -> ekinds plain (bmp_encode oc m)) /\
  (forall p a, (forall r, In r (attr_routes a) -> mac6 r /\ ~ evpn_long r) -> ekinds plain (attr_encode oc p a)) /\
  (forall a, (forall r, In r (evpn_routes a) -> mac6 r /\ ~ evpn_long r) -> ekinds plain (addrs_encode oc a)).
Proof.
  assert (PO : plain EOther) by (right; reflexivity). assert (PI : plain EInsufficient) by (left; reflexivity).
  split; [intros; now apply e_open|]. split; [intros; apply e_notif; reflexivity|]. split; [intros; now apply e_cap|]. split.
  - intros m H. apply e_bmp; auto. intros x E. now destruct (H x).
  - split; intros; [apply e_attr|apply e_addrs]; auto.
Qed.
(** the VPLS site on its own *)
Lemma site_kinds b : kinds message (l2_decode b) /\ ((length b < 14)%nat -> l2_decode b = Err EOther).
Proof.
  unfold l2_decode. split.
  - repeat first [progress ks|apply k_rd; reflexivity].
  - intros H. destruct (Nat.leb_spec 14 (length b)); [lia|reflexivity].
Qed.
(** ** capabilities and their entries on their own *)
Definition not_short (e : err) : Prop := e <> EInsufficient.
Lemma ns_other : not_short EOther. Proof. discriminate. Qed.
Lemma e_slice_at {A} (P : err -> Prop) x y (e : Enc A) : (forall b, length b = (y - x)%nat -> kinds P (e b)) -> ekinds P (on_slice x y e).
Proof.
  intros H buf er E. unfold on_slice in E. destruct (Nat.leb x y && Nat.leb y (length buf))%bool eqn:L; [|discriminate].
  apply andb_prop in L as [L1 L2]. apply Nat.leb_le in L1, L2.
  specialize (H (sub buf x y) ltac:(rewrite length_sub; lia)).
  destruct (e (sub buf x y)) as [[? ?]|e0| |]; try discriminate. apply H. congruence.
Qed.
Lemma gr_room c b : gr_encode c b = Err EInsufficient <-> (length b < 4)%nat.
Proof.
  unfold gr_encode, ebind at 1, elen. destruct (Nat.ltb_spec (length b) 4) as [L|L]; [split; auto|]. split; [|lia]. intros E. exfalso.
  pose proof ns_other as O. revert E. match goal with |- ?f b = _ -> _ => assert (K : ekinds not_short f) by es end. intros E. now apply (K b _ E).
Qed.
Lemma ap_room c b : ap_encode c b = Err EInsufficient <-> (length b < 4)%nat.
Proof.
  unfold ap_encode, ebind at 1, elen. destruct (Nat.ltb_spec (length b) 4) as [L|L]; [split; auto|]. split; [|lia]. intros E. exfalso.
  pose proof ns_other as O. revert E. match goal with |- ?f b = _ -> _ => assert (K : ekinds not_short f) by es end. intros E. now apply (K b _ E).
Qed.
Lemma llgr_room c b : llgr_encode c b = Err EInsufficient <-> (length b < 7)%nat.
Proof.
  unfold llgr_encode, ebind at 1, elen. destruct (Nat.ltb_spec (length b) 7) as [L|L]; [split; auto|]. split; [|lia]. intros E. exfalso.
  pose proof ns_other as O. revert E. match goal with |- ?f b = _ -> _ => assert (K : ekinds not_short f) by es end. intros E. now apply (K b _ E).
Qed.
Lemma entries_room {T} k (en : T -> Enc unit) : (forall c b, en c b = Err EInsufficient <-> (length b < k)%nat) ->
  forall v q, ekinds not_short (fill_entries k en v q).
Proof.
  intros H. induction v as [|c v IH]; intros q; cbn [fill_entries]; [apply e_ret|]. apply e_bind; [|intros _; apply IH].
  apply e_slice_at. intros b L e E ->. apply H in E. lia.
Qed.
Lemma cap_room c b : fill_buffer c b = Err EInsufficient <-> (length b < bytes_len c)%nat.
Proof.
  unfold fill_buffer, ebind at 1, elen. destruct (Nat.ltb_spec (length b) (bytes_len c)) as [L|L]; [split; auto|]. split; [|lia]. intros E. exfalso.
  pose proof ns_other as O. revert E. match goal with |- ?f b = _ -> _ => assert (K : ekinds not_short f) end.
  { cbv zeta. repeat first [progress es|apply entries_room; first [apply gr_room|apply ap_room|apply llgr_room]]. }
  intros E. now apply (K b _ E).
Qed.
Lemma gr_short b : gr_decode b = Err EInsufficient <-> (length b < 4)%nat.
Proof.
  unfold gr_decode. destruct (Nat.ltb_spec (length b) 4) as [L|L]; [split; auto|]. split; [|lia]. intros E. exfalso.
  match type of E with ?f = _ => assert (K : kinds not_short f) by ks end. now apply (K _ E).
Qed.
Lemma ap_short b : ap_decode b = Err EInsufficient <-> (length b < 4)%nat.
Proof.
  unfold ap_decode. destruct (Nat.ltb_spec (length b) 4) as [L|L]; [split; auto|]. split; [|lia]. intros E. exfalso.
  match type of E with ?f = _ => assert (K : kinds not_short f) by ks end. now apply (K _ E).
Qed.
Lemma llgr_short b : llgr_decode b = Err EInsufficient <-> (length b < 7)%nat.
Proof.
  unfold llgr_decode. destruct (Nat.ltb_spec (length b) 7) as [L|L]; [split; auto|]. split; [|lia]. intros E. exfalso.
  match type of E with ?f = _ => assert (K : kinds not_short f) by ks end. now apply (K _ E).
Qed.
Lemma cap_entries : (forall c b, fill_buffer c b = Err EInsufficient <-> (length b < bytes_len c)%nat) /\
  (forall c b, gr_encode c b = Err EInsufficient <-> (length b < 4)%nat) /\ (forall b, gr_decode b = Err EInsufficient <-> (length b < 4)%nat) /\
  (forall c b, ap_encode c b = Err EInsufficient <-> (length b < 4)%nat) /\ (forall b, ap_decode b = Err EInsufficient <-> (length b < 4)%nat) /\
  (forall c b, llgr_encode c b = Err EInsufficient <-> (length b < 7)%nat) /\ (forall b, llgr_decode b = Err EInsufficient <-> (length b < 7)%nat).
Proof. repeat apply conj; auto using cap_room, gr_room, gr_short, ap_room, ap_short, llgr_room, llgr_short. Qed.
