(** Proofs about the kinds of errors. *)
From Verif Require Import Base BaseFacts M_Util F_Util S_Wire M_Prefix M_Nlri S_Nlri F_Nlri M_Vpls M_Mvpn M_Evpn M_Flowspec M_Cap M_Open M_Session M_Addrs M_Attr M_Update M_Bmp S_Kinds.
Ltac Zify.zify_post_hook ::= idtac.

Lemma kw {A} (P Q : err -> Prop) (r : res A) : kinds P r -> (forall e, P e -> Q e) -> kinds Q r.
Proof. intros H W e E. apply W, H, E. Qed.
Lemma k_bind {A B} P (x : res A) (f : A -> res B) : kinds P x -> (forall a, kinds P (f a)) -> kinds P (bind x f).
Proof. intros Hx Hf e E. destruct x as [a|e0| |]; cbn [bind] in E; [exact (Hf a e E)|apply Hx; congruence|discriminate|discriminate]. Qed.
Lemma k_ok {A} P (a : A) : kinds P (Ok a). Proof. intros e E. discriminate. Qed.
Lemma k_panic {A} P : kinds P (@Panic A). Proof. intros e E. discriminate. Qed.
Lemma k_fuel {A} P : kinds P (@OutOfFuel A). Proof. intros e E. discriminate. Qed.
Lemma k_err {A} (P : err -> Prop) e : P e -> kinds P (@Err A e). Proof. intros H e' E. congruence. Qed.
Lemma k_idx {A} P (l : list A) i : kinds P (idx l i). Proof. intros e E. unfold idx in E. destruct (nth_error l i); discriminate. Qed.
Lemma k_rslice {A} P (l : list A) a b : kinds P (rslice l a b). Proof. intros e E. unfold rslice in E. destruct (_ && _)%bool; discriminate. Qed.
Lemma k_rfrom {A} P (l : list A) a : kinds P (rfrom l a). Proof. intros e E. unfold rfrom in E. destruct (Nat.leb _ _); discriminate. Qed.
Lemma k_eslice {A} (P : err -> Prop) (l : list A) a b : P EInsufficient -> kinds P (eslice l a b).
Proof. intros H e E. unfold eslice in E. destruct (_ && _)%bool; congruence. Qed.
Lemma k_usub P oc w a b : kinds P (usub oc w a b). Proof. intros e E. unfold usub in E. destruct (_ <=? _), oc; discriminate. Qed.
Lemma k_uadd P oc w a b : kinds P (uadd oc w a b). Proof. intros e E. unfold uadd in E. destruct (_ <? _), oc; discriminate. Qed.
Lemma k_ushl P oc w a b : kinds P (ushl oc w a b). Proof. intros e E. unfold ushl in E. destruct (_ <? _), oc; discriminate. Qed.
Lemma k_u16 P l : kinds P (getn_u16 l). Proof. unfold getn_u16. repeat (apply k_bind; [apply k_idx|intros]). apply k_ok. Qed.
Lemma k_u32 P l : kinds P (getn_u32 l). Proof. unfold getn_u32. repeat (apply k_bind; [apply k_idx|intros]). apply k_ok. Qed.
Ltac k1 := first [apply k_ok|apply k_panic|apply k_fuel|apply k_idx|apply k_rslice|apply k_rfrom|apply k_usub|apply k_uadd|apply k_ushl|apply k_u16|apply k_u32
  |apply k_err; solve [assumption|cbn; unfold plain, insufficient, message; tauto]|apply k_eslice; solve [assumption|cbn; unfold plain, insufficient, message; tauto]].
Ltac ks := repeat first [k1
  |match goal with |- kinds _ (bind _ _) => apply k_bind; [|intros; repeat match goal with p : (_ * _)%type |- _ => destruct p end] end
  |match goal with |- kinds _ (if ?b then _ else _) => destruct b end
  |match goal with |- kinds _ (match ?x with _ => _ end) => destruct x end].
Lemma k_u64 P l : kinds P (getn_u64 l). Proof. unfold getn_u64. ks. Qed.
Lemma k_u128 P l : kinds P (getn_u128 l). Proof. unfold getn_u128. repeat first [progress ks|apply k_u64]. Qed.

(** ** Routes *)
Lemma k_labels P oc b l : kinds P (labels_extract oc b l).
Proof. unfold labels_extract. generalize (S (length l)) 0%nat b. intros f. induction f as [|f IH]; intros q lb; cbn [labels_loop]; repeat first [progress ks|apply IH]. Qed.
Section K.
Context (P : err -> Prop) (HO : P EOther).
Lemma k_a4 l : kinds P (decode_addrv4_from l). Proof. unfold decode_addrv4_from. ks. Qed.
Lemma k_a6 l : kinds P (decode_addrv6_from l). Proof. unfold decode_addrv6_from. repeat first [progress ks|apply k_u128|apply k_u64]. Qed.
Lemma k_addr l : kinds P (decode_addr_from l). Proof. unfold decode_addr_from. repeat first [progress ks|apply k_a4|apply k_a6]. Qed.
Lemma k_bits oc b : kinds P (bits_bytes oc b). Proof. unfold bits_bytes. ks. Qed.
Lemma k_fill k b l : kinds P (fill_zeroed k b l). Proof. unfold fill_zeroed. ks. Qed.
Lemma k_v4 oc b l : kinds P (v4_from_bits oc b l). Proof. unfold v4_from_bits. repeat first [progress ks|apply k_bits|apply k_fill|apply k_a4]. Qed.
Lemma k_v6 oc b l : kinds P (v6_from_bits oc b l). Proof. unfold v6_from_bits. repeat first [progress ks|apply k_bits|apply k_fill|apply k_u128|apply k_a6]. Qed.
Lemma k_rd l : kinds P (decode_rd_from l). Proof. unfold decode_rd_from. ks. Qed.
Lemma k_loop {T} (step : list N -> res (T * nat)) : (forall b, kinds P (step b)) -> forall f l q, kinds P (dec_loop step f l q).
Proof. intros H f. induction f as [|f IH]; intros l q; cbn [dec_loop]; repeat first [progress ks|apply H|apply IH]. Qed.
Lemma k_item {T} oc (ex : extractor T) l : (forall b l, kinds P (ex oc b l)) -> kinds P (decode_bgpitem_from oc ex l).
Proof. intros H. unfold decode_bgpitem_from. repeat first [progress ks|apply H]. Qed.
Lemma k_items {T} oc (ex : extractor T) l : (forall b l, kinds P (ex oc b l)) -> kinds P (decode_bgpitems_from oc ex l).
Proof. intros H. unfold decode_bgpitems_from. apply k_loop. intros b. now apply k_item. Qed.
Lemma k_pid_items {T} oc (ex : extractor T) l : (forall b l, kinds P (ex oc b l)) -> kinds P (decode_pathid_bgpitems_from oc ex l).
Proof.
  intros H. unfold decode_pathid_bgpitems_from. generalize (S (length l)) 0%nat. intros f. induction f as [|f IH]; intros q; cbn [dec_pathid_loop]; [ks|].
  repeat first [progress ks|apply k_item; exact H|apply IH].
Qed.
Lemma k_labeled {T} oc (ex : extractor T) b l : (forall b l, kinds P (ex oc b l)) -> kinds P (labeled_extract ex oc b l).
Proof. intros H. unfold labeled_extract. repeat first [progress ks|apply k_labels|apply H]. Qed.
Lemma k_withrd {T} oc (ex : extractor T) b l : P EInsufficient -> (forall b l, kinds P (ex oc b l)) -> kinds P (withrd_extract ex oc b l).
Proof. intros HI H. unfold withrd_extract. repeat first [progress ks|apply k_rd|apply H]. Qed.
Lemma k_mdt4 oc b l : kinds P (mdt4_extract oc b l). Proof. unfold mdt4_extract. repeat first [progress ks|apply k_a4|apply k_addr|apply k_rd|apply k_bits|apply k_fill]. Qed.
Lemma k_mdt6 oc b l : kinds P (mdt6_extract oc b l). Proof. unfold mdt6_extract. repeat first [progress ks|apply k_a6|apply k_addr|apply k_rd|apply k_bits|apply k_fill]. Qed.
Lemma k_l2a oc k l : kinds P (l2a_extract oc k l). Proof. unfold l2a_extract. repeat first [progress ks|apply k_rd|apply k_labels]. Qed.
Lemma k_long {T} (ex : nat -> list N -> res T) l : (forall k b, kinds P (ex k b)) -> kinds P (decode_long_bgpitems_from ex l).
Proof. intros H. unfold decode_long_bgpitems_from. apply k_loop. intros b. unfold decode_long_item. repeat first [progress ks|apply H]. Qed.
Lemma k_mvpn m l : kinds P (mvpn_decode m l).
Proof.
  unfold mvpn_decode, mvpn_arm, mvpn4_decode, mvpn3_decode, mvpn1_decode, mvpn2_decode, mvpn5_decode, mvpn67_decode, check_lens, addr_at.
  repeat first [progress ks|apply k_rd|apply k_addr].
Qed.
Lemma k_evpn oc l : kinds P (evpn_decode oc l).
Proof.
  unfold evpn_decode, evpn_arm, evpn1_decode, evpn2_decode, evpn3_decode, evpn4_decode, evpn5_decode, esi_read, u32_at, labels_at, v4_at, v6_at, mac_from_network_bytes.
  repeat first [progress ks|apply k_rd|apply k_addr|apply k_labels|apply k_a4|apply k_a6].
Qed.
Lemma k_oper l : kinds P (oper_read l). Proof. unfold oper_read. repeat first [progress ks|apply k_u64]. Qed.
Lemma k_val l : kinds P (vec_dec fsvalop l).
Proof. unfold vec_dec. apply k_loop. intros b. cbn [op_dec fsvalop]. unfold fsval_dec. repeat first [progress ks|apply k_oper]. Qed.
Lemma k_mask l : kinds P (vec_dec fsmaskop l).
Proof. unfold vec_dec. apply k_loop. intros b. cbn [op_dec fsmaskop]. unfold fsmask_dec. repeat first [progress ks|apply k_oper]. Qed.
Lemma k_fs {T} (it : fsitem T) l : (forall b, kinds P (fs_dec it b)) -> kinds P (fs_decode it l).
Proof. intros H. unfold fs_decode, fs_arm_pfx, fs_arm_vec. repeat first [progress ks|apply k_val|apply k_mask|apply H]. Qed.
Lemma k_fam {T} oc (ex : extractor T) w wp p afi sf l : (forall b l, kinds P (ex oc b l)) -> kinds P (dec_fam oc ex w wp p afi sf l).
Proof. intros H. unfold dec_fam. repeat first [progress ks|apply k_items; exact H|apply k_pid_items; exact H]. Qed.
Lemma k_addritems {T} (dec : list N -> res (T * nat)) l : (forall b, kinds P (dec b)) -> kinds P (decode_bgpaddritems_from dec l).
Proof. intros H. unfold decode_bgpaddritems_from. now apply k_loop. Qed.
Lemma k_addrs_gen oc p afi sf l : (In sf [66; 128; 129] -> P EInsufficient) -> kinds P (addrs_decode oc p afi sf l).
Proof.
  intros HI. unfold addrs_decode, dec_wrap.
  repeat match goal with |- context [sf =? ?n] => destruct (N.eqb_spec sf n) as [->|] end;
  repeat match goal with |- context [afi =? ?n] => destruct (N.eqb_spec afi n) as [->|] end; try (apply k_err; exact HO);
  try specialize (HI ltac:(cbn; tauto));
  repeat first [progress ks
   |apply k_fam; intros; repeat first [apply k_labeled; intros|apply k_withrd; [exact HI|intros]|apply k_v4|apply k_v6|apply k_mdt4|apply k_mdt6]
   |apply k_long; intros; apply k_l2a
   |apply k_addritems; intros; first [apply k_mvpn|apply k_evpn|apply k_fs; intros; cbn [fs4 fs6i fsv4 fs_dec]; unfold fs4_dec, fs6_dec, fsv4_dec; repeat first [progress ks|apply k_v4|apply k_v6|apply k_rd]]].
Qed.
End K.

(** ** Attributes *)
Section A.
Context (P : err -> Prop) (HO : P EOther).
Ltac kk t := repeat first [progress ks|apply k_addr; exact HO|apply k_a4; exact HO|apply k_a6; exact HO|apply k_rd; exact HO|apply k_bits|apply k_fill
  |apply k_labels|apply k_u64|apply k_u128|t].
Lemma k_win {A} k (dec : list N -> res A) : (forall b, kinds P (dec b)) -> forall f l q, kinds P (win_loop k dec f l q).
Proof. intros H f. induction f as [|f IH]; intros l q; cbn [win_loop]; repeat first [progress ks|apply H|apply IH]. Qed.
Lemma k_snpa c : forall l q, kinds P (snpa_skip c l q).
Proof. induction c as [|c IH]; intros l q; cbn [snpa_skip]; repeat first [progress ks|apply IH]. Qed.
Lemma k_nh afi sf n l : kinds P (mp_nexthop afi sf n l).
Proof. unfold mp_nexthop, v4rd_decode, v6rd_decode. kk fail. Qed.
Lemma k_origin l : (l = [] -> P EInsufficient) -> kinds P (origin_decode l).
Proof. intros H. unfold origin_decode. destruct l; cbn [length Nat.eqb Nat.ltb Nat.leb]; [specialize (H eq_refl)|]; kk fail. Qed.
Lemma k_aspath p l : kinds P (aspath_decode p l).
Proof. unfold aspath_decode. kk ltac:(apply k_loop; intros; unfold as_step). Qed.
Lemma k_attrset dec p l : (forall tc f n b, (length b < length l)%nat -> kinds P (dec tc f n b)) -> kinds P (attrset_decode dec p l).
Proof.
  intros H. unfold attrset_decode. destruct (negb (sp_as32 p)); [ks|]. destruct (Nat.ltb_spec (length l) 4) as [|L]; [ks|]. apply k_bind; [|intros; ks].
  generalize (S (length l)). intros f. assert (Q : (4 <= 4)%nat) by lia. revert Q. generalize 4%nat at 2 3. induction f as [|f IH]; intros q Q; cbn [attrset_loop]; [ks|].
  destruct (Nat.ltb q (length l)) eqn:E; [|ks]. apply k_bind; [ks|intros fl]. apply k_bind; [ks|intros tc]. 
  intros e Ee. 
  match type of Ee with bind ?x _ = _ => destruct x as [[al cur]|e0| |] eqn:Ex end; cbn [bind] in Ee; try discriminate.
  2:{ exfalso. revert Ex. match goal with |- ?x = _ -> False => assert (K : kinds (fun _ => False) x) by ks; apply K end. }
  assert (C : (q < cur)%nat).
  { destruct (0 <? N.land fl 16).
    - apply bind_Ok_inv in Ex as (s & _ & Ex). apply bind_Ok_inv in Ex as (n & _ & Ex). injection Ex as _ <-. lia.
    - apply bind_Ok_inv in Ex as (n & _ & Ex). injection Ex as _ <-. lia. }
  destruct (Nat.ltb_spec (length l) (cur + al)) as [|Y]; [inversion Ee; subst; exact HO|].
  rewrite rslice_ok in Ee by lia. rewrite bind_ok in Ee.
  match type of Ee with bind ?x _ = _ => assert (K1 : kinds P x) by (apply H; unfold sub; rewrite firstn_length, skipn_length; lia); destruct x as [a|e0| |] end; cbn [bind] in Ee; try discriminate.
  - specialize (IH (cur + al)%nat ltac:(lia)). match type of Ee with bind ?x _ = _ => destruct x as [v|e0| |] end; cbn [bind] in Ee; try discriminate. apply IH. congruence.
  - apply K1. congruence.
Qed.
Lemma k_attr_n oc p : forall f tc fl n l, (length l < f)%nat -> (In tc [14; 15; 128] -> P EInsufficient) -> (tc = 1 -> l = [] -> P EInsufficient) -> kinds P (attr_decode_n f oc p tc fl n l).
Proof.
  induction f as [|f IH]; intros tc fl n l L H1 H2; [lia|]. cbn [attr_decode_n].
  destruct (N.eqb_spec tc 1) as [->|]; [kk ltac:(apply k_origin; apply H2; reflexivity)|].
  do 9 (match goal with |- context [tc =? ?k] => destruct (N.eqb_spec tc k) as [->|] end; [unfold nexthop_decode, u32_decode, atomic_decode, aggregator_decode, community_decode, comm_step, originator_decode, cluster_decode;
    kk ltac:(first [apply k_aspath|apply k_loop; intros|apply k_win; intros])|]).
  destruct (N.eqb_spec tc 14) as [->|]; [specialize (H1 ltac:(cbn; tauto)); unfold mpupdates_decode; kk ltac:(first [apply k_nh|apply k_snpa|apply k_addrs_gen; [exact HO|auto]])|].
  destruct (N.eqb_spec tc 15) as [->|]; [specialize (H1 ltac:(cbn; tauto)); unfold mpwithdraws_decode; kk ltac:(first [apply k_nh|apply k_snpa|apply k_addrs_gen; [exact HO|auto]])|].
  destruct (N.eqb_spec tc 16) as [->|]; [unfold ext_decode, ecomm_decode; kk ltac:(apply k_win; intros)|].
  destruct (N.eqb_spec tc 22) as [->|]; [unfold pmsi_decode, pmsi_tunnel, ip4_at; kk fail|].
  destruct (N.eqb_spec tc 20) as [->|]; [unfold connector_decode; kk fail|].
  destruct (N.eqb_spec tc 32) as [->|]; [unfold large_decode, lcomm_step; kk ltac:(apply k_loop; intros)|].
  destruct (N.eqb_spec tc 128) as [->|]; [|unfold unknown_decode; kk fail].
  specialize (H1 ltac:(cbn; tauto)). apply k_attrset. intros. apply IH; [lia|auto|auto].
Qed.
Lemma k_attr oc p tc fl n l : (In tc [14; 15; 128] -> P EInsufficient) -> (tc = 1 -> l = [] -> P EInsufficient) -> kinds P (attr_decode oc p tc fl n l).
Proof. intros. unfold attr_decode. apply k_attr_n; auto. Qed.
End A.

(** ** Messages *)
Lemma k_entries {T} (P : err -> Prop) k (dec : list N -> res T) : (forall b, length b = k -> kinds P (dec b)) -> forall f l q, kinds P (entries_loop k dec f l q).
Proof.
  intros H f. induction f as [|f IH]; intros l q; cbn [entries_loop]; destruct (Nat.ltb q (length l)); try k1.
  intros e E. unfold rslice in E. destruct (Nat.leb _ _ && Nat.leb _ _)%bool eqn:B; cbn [bind] in E; [|discriminate]. apply Bool.andb_true_iff in B as [B1 B2]. apply Nat.leb_le in B1, B2.
  revert e E. match goal with |- forall e, ?x = _ -> _ => change (kinds P x) end. apply k_bind; [apply H; unfold sub; rewrite firstn_length, skipn_length; lia|intros]. apply k_bind; [apply IH|intros; ks].
Qed.
Lemma k_cap (P : err -> Prop) (HO : P EOther) t d : kinds P (from_type_and_data t d).
Proof.
  assert (G : forall b, length b = 4%nat -> kinds P (gr_decode b)) by (intros b Hb; unfold gr_decode; rewrite Hb, Nat.ltb_irrefl; ks).
  assert (A : forall b, length b = 4%nat -> kinds P (ap_decode b)) by (intros b Hb; unfold ap_decode; rewrite Hb, Nat.ltb_irrefl; ks).
  assert (L : forall b, length b = 7%nat -> kinds P (llgr_decode b)) by (intros b Hb; unfold llgr_decode; rewrite Hb, Nat.ltb_irrefl; ks).
  unfold from_type_and_data, empty_cap, from_utf8.
  repeat first [progress ks|apply k_entries; assumption].
Qed.
Lemma k_from_buffer (P : err -> Prop) (HO : P EOther) (HI : P EInsufficient) l : kinds P (from_buffer l).
Proof. unfold from_buffer. repeat first [progress ks|apply k_cap; exact HO]. Qed.
Lemma k_open (P : err -> Prop) (HO : P EOther) (HI : P EInsufficient) self l : kinds P (open_decode self l).
Proof.
  assert (C : forall f l q o, kinds P (open_caps_loop f l q o)).
  { intros f. induction f as [|f IH]; intros b q o; destruct o; cbn [open_caps_loop]; repeat first [progress ks|apply k_from_buffer; assumption|apply IH]. }
  unfold open_decode. repeat first [progress ks]. generalize (length l) at 1. intros f. generalize 10%nat. induction f as [|f IH]; intros q; cbn [open_params_loop]; repeat first [progress ks|apply C|apply IH].
Qed.
Lemma k_notif (P : err -> Prop) (HO : P EOther) self l : kinds P (notif_decode self l).
Proof. unfold notif_decode. ks. Qed.
Lemma k_head (P : err -> Prop) (HO : P EOther) oc l : kinds P (decode_message_head oc l).
Proof. unfold decode_message_head, msgtype_decode. ks. Qed.
Lemma k_plain_nlri (P : err -> Prop) (HO : P EOther) oc p l : kinds P (upd_nlri_decode oc p l).
Proof. unfold upd_nlri_decode. repeat first [progress ks|apply k_fam; intros; first [now apply k_v4|now apply k_v6]]. Qed.
Lemma k_upd_attrs (P : err -> Prop) (HO : P EOther) (HI : P EInsufficient) (HP : P EProtocol) oc p : forall f l q e, kinds P (upd_attrs f oc p l q e).
Proof. induction f as [|f IH]; intros l q e; cbn [upd_attrs]; repeat first [progress ks|apply k_attr; [exact HO|auto|auto]|apply IH]. Qed.
Lemma k_update (P : err -> Prop) (HO : P EOther) (HI : P EInsufficient) (HP : P EProtocol) oc p m l : kinds P (update_decode oc p m l).
Proof. unfold update_decode. repeat first [progress ks|now apply k_plain_nlri|now apply k_upd_attrs]. Qed.
Lemma k_bmphdr l : kinds plain (bmphdr_decode l).
Proof. unfold bmphdr_decode. ks. Qed.
Lemma k_utf8 (P : err -> Prop) (HO : P EOther) l : kinds P (from_utf8 l).
Proof. unfold from_utf8. ks. Qed.
Lemma k_body (P : err -> Prop) (HO : P EOther) oc t l q : kinds P (bgp_body oc t l q).
Proof. unfold bgp_body. repeat first [progress ks|now apply k_head]. Qed.
Lemma k_peer (P : err -> Prop) (HO : P EOther) (HI : P EInsufficient) l : kinds P (peerhdr_decode l).
Proof. unfold peerhdr_decode, bmp_addr_decode. repeat first [progress ks|now apply k_a4|now apply k_a6|now apply k_addr|now apply k_rd|apply k_u64]. Qed.
Lemma k_init (P : err -> Prop) (HO : P EOther) (HI : P EInsufficient) l : kinds P (init_decode l).
Proof.
  unfold init_decode. generalize (S (length l)) 0%nat (mkInit None None None). intros f. induction f as [|f IH]; intros q r; cbn [init_loop]; [ks|].
  unfold infoval_decode. repeat first [progress ks|now apply k_utf8|apply IH].
Qed.
Lemma k_term (P : err -> Prop) (HO : P EOther) (HI : P EInsufficient) l : kinds P (term_decode l).
Proof.
  unfold term_decode. generalize (S (length l)) 0%nat (mkTerm None None). intros f. induction f as [|f IH]; intros q r; cbn [term_loop]; [ks|].
  repeat first [progress ks|now apply k_utf8|apply IH].
Qed.
Lemma k_up (P : err -> Prop) (HO : P EOther) (HI : P EInsufficient) oc l : kinds P (peerup_decode oc l).
Proof. unfold peerup_decode. repeat first [progress ks|now apply k_peer|now apply k_body|now apply k_open|progress unfold bmp_addr_decode|now apply k_a4|now apply k_a6]. Qed.
Lemma k_down (P : err -> Prop) (HO : P EOther) (HI : P EInsufficient) oc l : kinds P (peerdown_decode oc l).
Proof. unfold peerdown_decode. repeat first [progress ks|now apply k_peer|now apply k_body|now apply k_notif]. Qed.
Lemma k_rmon (P : err -> Prop) (HO : P EOther) (HI : P EInsufficient) (HP : P EProtocol) oc pars l : kinds P (rmon_decode_with oc pars l).
Proof. unfold rmon_decode_with. repeat first [progress ks|now apply k_peer|now apply k_body|now apply k_update]. Qed.
Lemma k_bmp (P : err -> Prop) (HO : P EOther) (HI : P EInsufficient) oc l : (hd 0 l = 0 -> P EProtocol) -> kinds P (bmp_decode oc l).
Proof.
  intros H. unfold bmp_decode. destruct l as [|t l]; [ks|]. cbn [hd idx nth_error bind] in *. destruct (N.eqb_spec t 0) as [->|].
  - specialize (H eq_refl). unfold rmon_decode. repeat first [progress ks|now apply k_rmon].
  - repeat first [progress ks|now apply k_up|now apply k_down|now apply k_init|now apply k_term].
Qed.
