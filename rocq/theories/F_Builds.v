(** Proofs about builds with and without overflow checks. *)
From Verif Require Import Base BaseFacts M_Util M_Prefix M_Nlri M_Vpls M_Cap M_Open M_Session M_Mvpn M_Evpn M_Flowspec M_Addrs M_Attr M_Update M_Bmp M_State M_Peer S_Open S_Builds F_Refute.
Ltac Zify.zify_post_hook ::= idtac.

Definition eagrees {A} (e e' : Enc A) : Prop := forall b, agrees (e b) (e' b).
Lemma ag_refl {A} (r : res A) : agrees r r.
Proof. now right. Qed.
Lemma eag_refl {A} (e : Enc A) : eagrees e e.
Proof. intros b. now right. Qed.
Lemma ag_bind {A B} (r s : res A) (f g : A -> res B) : agrees r s -> (forall x, agrees (f x) (g x)) -> agrees (bind r f) (bind s g).
Proof. intros [ -> | -> ] H; [now left|]. destruct s; cbn [bind]; try apply ag_refl. apply H. Qed.
Lemma ag_ebind {A B} (e e' : Enc A) (f g : A -> Enc B) b : eagrees e e' -> (forall x, eagrees (f x) (g x)) -> agrees (ebind e f b) (ebind e' g b).
Proof. intros E H. unfold ebind. destruct (E b) as [ -> | -> ]; [now left|]. destruct (e' b) as [[x c]| | |]; try apply ag_refl. apply H. Qed.
Lemma ag_elift {A} (r s : res A) b : agrees r s -> agrees (elift r b) (elift s b).
Proof. unfold elift. intros [ -> | -> ]; [now left|apply ag_refl]. Qed.
Lemma ag_on_from {A} n (e e' : Enc A) b : eagrees e e' -> agrees (on_from n e b) (on_from n e' b).
Proof. intros E. unfold on_from. destruct (Nat.leb n (length b)); [|apply ag_refl]. destruct (E (skipn n b)) as [ -> | -> ]; [now left|apply ag_refl]. Qed.
Lemma ag_on_slice {A} m n (e e' : Enc A) b : eagrees e e' -> agrees (on_slice m n e b) (on_slice m n e' b).
Proof. intros E. unfold on_slice. destruct (_ && _)%bool; [|apply ag_refl]. destruct (E (sub b m n)) as [ -> | -> ]; [now left|apply ag_refl]. Qed.
Lemma ag_on_eslice {A} m n (e e' : Enc A) b : eagrees e e' -> agrees (on_eslice m n e b) (on_eslice m n e' b).
Proof. intros E. unfold on_eslice. destruct (_ && _)%bool; [|apply ag_refl]. destruct (E (sub b m n)) as [ -> | -> ]; [now left|apply ag_refl]. Qed.
Lemma ag_on_tail {A} n (e e' : Enc A) b : eagrees e e' -> agrees (on_tail n e b) (on_tail n e' b).
Proof. intros E. unfold on_tail. apply ag_ebind; [apply eag_refl|]. intros x c. now apply ag_on_eslice. Qed.
Lemma ag_uadd w a b : agrees (uadd true w a b) (uadd false w a b).
Proof. unfold uadd. destruct (_ <? _); [now right|now left]. Qed.
Lemma ag_usub w a b : agrees (usub true w a b) (usub false w a b).
Proof. unfold usub. destruct (_ <=? _); [now right|now left]. Qed.
Lemma ag_ushl w a b : agrees (ushl true w a b) (ushl false w a b).
Proof. unfold ushl. destruct (_ <? _); [now right|now left]. Qed.
Create HintDb ag.
#[local] Hint Resolve ag_uadd ag_usub ag_ushl : ag.
Ltac ag1 := match goal with
  | |- agrees ?x ?y => constr_eq x y; apply ag_refl
  | |- eagrees ?x ?y => constr_eq x y; apply eag_refl
  | |- agrees _ _ => solve [auto with ag]
  | |- eagrees _ _ => solve [auto with ag]
  | |- eagrees _ _ => intro
  | |- agrees (bind _ _) (bind _ _) => apply ag_bind; [|intro]
  | |- agrees (ebind _ _ _) (ebind _ _ _) => apply ag_ebind; [|intro]
  | |- agrees (elift _ _) (elift _ _) => apply ag_elift
  | |- agrees (on_from _ _ _) (on_from _ _ _) => apply ag_on_from
  | |- agrees (on_slice _ _ _ _) (on_slice _ _ _ _) => apply ag_on_slice
  | |- agrees (on_eslice _ _ _ _) (on_eslice _ _ _ _) => apply ag_on_eslice
  | |- agrees (on_tail _ _ _) (on_tail _ _ _) => apply ag_on_tail
  | |- agrees (match ?x with _ => _ end _) (match ?x with _ => _ end _) => destruct x
  | |- agrees (match ?x with _ => _ end) (match ?x with _ => _ end) => destruct x
  end.
Ltac ag := repeat (cbv beta iota zeta; ag1).

(** ** Prefixes *)
Lemma ag_v4_hostsize n : agrees (v4_hostsize true n) (v4_hostsize false n). Proof. unfold v4_hostsize. ag. Qed.
Lemma ag_v6_hostsize n : agrees (v6_hostsize true n) (v6_hostsize false n). Proof. unfold v6_hostsize. ag. Qed.
Lemma ag_mac_hostsize n : agrees (mac_hostsize true n) (mac_hostsize false n). Proof. unfold mac_hostsize. ag. Qed.
#[local] Hint Resolve ag_v4_hostsize ag_v6_hostsize ag_mac_hostsize : ag.
Lemma ag_v4_norm p : agrees (v4_norm_subnet true p) (v4_norm_subnet false p). Proof. unfold v4_norm_subnet. ag. Qed.
Lemma ag_v6_norm p : agrees (v6_norm_subnet true p) (v6_norm_subnet false p). Proof. unfold v6_norm_subnet. ag. Qed.
Lemma ag_mac_norm p : agrees (mac_norm_subnet true p) (mac_norm_subnet false p). Proof. unfold mac_norm_subnet. ag. Qed.
Lemma ag_v6_masked n a : agrees (v6_masked true n a) (v6_masked false n a). Proof. unfold v6_masked. ag. Qed.
#[local] Hint Resolve ag_v4_norm ag_v6_norm ag_mac_norm ag_v6_masked : ag.
Lemma ag_v4_in p a : agrees (v4_in_subnet true p a) (v4_in_subnet false p a). Proof. unfold v4_in_subnet. ag. Qed.
Lemma ag_v6_in p a : agrees (v6_in_subnet true p a) (v6_in_subnet false p a). Proof. unfold v6_in_subnet. ag. Qed.
Lemma ag_mac_in p a : agrees (mac_in_subnet true p a) (mac_in_subnet false p a). Proof. unfold mac_in_subnet. ag. Qed.
Lemma ag_v4_first p : agrees (v4_range_first true p) (v4_range_first false p). Proof. unfold v4_range_first. ag. Qed.
Lemma ag_v6_first p : agrees (v6_range_first true p) (v6_range_first false p). Proof. unfold v6_range_first. ag. Qed.
Lemma ag_mac_first p : agrees (mac_range_first true p) (mac_range_first false p). Proof. unfold mac_range_first. ag. Qed.
#[local] Hint Resolve ag_v4_first ag_v6_first ag_mac_first : ag.
Lemma ag_v4_last p : agrees (v4_range_last true p) (v4_range_last false p). Proof. unfold v4_range_last. ag. Qed.
Lemma ag_v6_last p : agrees (v6_range_last true p) (v6_range_last false p). Proof. unfold v6_range_last. ag. Qed.
Lemma ag_mac_last p : agrees (mac_range_last true p) (mac_range_last false p). Proof. unfold mac_range_last. ag. Qed.
#[local] Hint Resolve ag_v4_in ag_v6_in ag_mac_in ag_v4_last ag_v6_last ag_mac_last : ag.
Lemma ag_v4_contains p a : agrees (v4_contains true p a) (v4_contains false p a). Proof. unfold v4_contains. ag. Qed.
Lemma ag_v6_contains p a : agrees (v6_contains true p a) (v6_contains false p a). Proof. unfold v6_contains. ag. Qed.
Lemma ag_mac_contains p a : agrees (mac_contains true p a) (mac_contains false p a). Proof. unfold mac_contains. ag. Qed.
#[local] Hint Resolve ag_v4_in ag_v6_in ag_mac_in ag_v4_contains ag_v6_contains ag_mac_contains : ag.
Lemma ag_net_contains p a : agrees (net_contains true p a) (net_contains false p a). Proof. unfold net_contains. ag. Qed.

(** ** Routes *)
Definition ex_ag {T} (ex : extractor T) : Prop := forall bits b, agrees (ex true bits b) (ex false bits b).
Definition st_ag {T} (st : setter T) : Prop := forall x, eagrees (st true x) (st false x).
Lemma ag_bits n : agrees (bits_bytes true n) (bits_bytes false n). Proof. unfold bits_bytes. ag. Qed.
#[local] Hint Resolve ag_bits : ag.
Lemma ag_v4_from : ex_ag v4_from_bits. Proof. intros n b. unfold v4_from_bits. ag. Qed.
Lemma ag_v6_from : ex_ag v6_from_bits. Proof. intros n b. unfold v6_from_bits. ag. Qed.
Lemma ag_v4_to : st_ag v4_to_bits. Proof. intros x b. unfold v4_to_bits. ag. Qed.
Lemma ag_v6_to : st_ag v6_to_bits. Proof. intros x b. unfold v6_to_bits. ag. Qed.
Lemma ag_labels_loop fuel : forall n b c, agrees (labels_loop true fuel n b c) (labels_loop false fuel n b c).
Proof. induction fuel as [|fuel IH]; intros n b c; cbn [labels_loop]; ag. Qed.
Lemma ag_labels n b : agrees (labels_extract true n b) (labels_extract false n b).
Proof. apply ag_labels_loop. Qed.
#[local] Hint Resolve ag_v4_from ag_v6_from ag_v4_to ag_v6_to ag_labels : ag.
Lemma ag_labeled_extract {T} (ex : extractor T) : ex_ag ex -> ex_ag (labeled_extract ex).
Proof. intros H n b. unfold labeled_extract. ag. Qed.
Lemma ag_withrd_extract {T} (ex : extractor T) : ex_ag ex -> ex_ag (withrd_extract ex).
Proof. intros H n b. unfold withrd_extract. ag. Qed.
Lemma ag_labeled_set {T} (st : setter T) : st_ag st -> st_ag (labeled_set st).
Proof. intros H x b. unfold labeled_set. ag. Qed.
Lemma ag_withrd_set {T} (st : setter T) : st_ag st -> st_ag (withrd_set st).
Proof. intros H x b. unfold withrd_set. ag. Qed.
Lemma ag_item {T} (ex : extractor T) b : ex_ag ex -> agrees (decode_bgpitem_from true ex b) (decode_bgpitem_from false ex b).
Proof. intros H. unfold decode_bgpitem_from. ag. Qed.
Lemma ag_dec_loop {T} (f g : list N -> res (T * nat)) fuel : (forall b, agrees (f b) (g b)) -> forall b c, agrees (dec_loop f fuel b c) (dec_loop g fuel b c).
Proof. intros H. induction fuel as [|fuel IH]; intros b c; cbn [dec_loop]; ag. Qed.
Lemma ag_items {T} (ex : extractor T) b : ex_ag ex -> agrees (decode_bgpitems_from true ex b) (decode_bgpitems_from false ex b).
Proof. intros H. apply ag_dec_loop. intros c. now apply ag_item. Qed.
Lemma ag_pid_loop {T} (ex : extractor T) fuel : ex_ag ex -> forall b c, agrees (dec_pathid_loop true ex fuel b c) (dec_pathid_loop false ex fuel b c).
Proof. intros H. assert (I := fun b => ag_item ex b H). induction fuel as [|fuel IH]; intros b c; cbn [dec_pathid_loop]; ag. Qed.
Lemma ag_pid_items {T} (ex : extractor T) b : ex_ag ex -> agrees (decode_pathid_bgpitems_from true ex b) (decode_pathid_bgpitems_from false ex b).
Proof. intros H. now apply ag_pid_loop. Qed.
Lemma ag_enc_items {T} (st : setter T) v : st_ag st -> forall c, eagrees (enc_items true st v c) (enc_items false st v c).
Proof. intros H. induction v as [|x v IH]; intros c; cbn [enc_items]; ag; auto. Qed.
Lemma ag_enc_pid {T} (st : setter T) v : st_ag st -> forall c, eagrees (enc_pathid_items true st v c) (enc_pathid_items false st v c).
Proof. intros H. induction v as [|x v IH]; intros c; cbn [enc_pathid_items]; ag; auto. Qed.
Lemma ag_encode_items {T} (st : setter T) v : st_ag st -> eagrees (encode_bgpitems_to true st v) (encode_bgpitems_to false st v).
Proof. intros H. now apply ag_enc_items. Qed.
Lemma ag_encode_pid {T} (st : setter T) v : st_ag st -> eagrees (encode_pathid_bgpitems_to true st v) (encode_pathid_bgpitems_to false st v).
Proof. intros H. now apply ag_enc_pid. Qed.
Lemma ag_mdt4 : ex_ag mdt4_extract. Proof. intros n b. unfold mdt4_extract. ag. Qed.
Lemma ag_mdt6 : ex_ag mdt6_extract. Proof. intros n b. unfold mdt6_extract. ag. Qed.
Lemma ag_mdt4_set : st_ag mdt4_set. Proof. intros x b. unfold mdt4_set. ag. Qed.
Lemma ag_mdt6_set : st_ag mdt6_set. Proof. intros x b. unfold mdt6_set. ag. Qed.
Lemma ag_l2a n b : agrees (l2a_extract true n b) (l2a_extract false n b). Proof. unfold l2a_extract. ag. Qed.
#[local] Hint Resolve ag_labeled_extract ag_withrd_extract ag_labeled_set ag_withrd_set ag_items ag_pid_items ag_encode_items ag_encode_pid ag_mdt4 ag_mdt6 ag_mdt4_set ag_mdt6_set ag_l2a : ag.
Lemma ag_vpls b : agrees (decode_long_bgpitems_from (l2a_extract true) b) (decode_long_bgpitems_from (l2a_extract false) b).
Proof. apply ag_dec_loop. intros c. unfold decode_long_item. ag. Qed.
Lemma ag_labels_at b n : agrees (labels_at true b n) (labels_at false b n). Proof. unfold labels_at. ag. Qed.
#[local] Hint Resolve ag_labels_at : ag.
Lemma ag_ev1 b : agrees (evpn1_decode true b) (evpn1_decode false b). Proof. unfold evpn1_decode. ag. Qed.
Lemma ag_ev2 b : agrees (evpn2_decode true b) (evpn2_decode false b). Proof. unfold evpn2_decode. ag. Qed.
Lemma ag_ev5 b : agrees (evpn5_decode true b) (evpn5_decode false b). Proof. unfold evpn5_decode. ag. Qed.
#[local] Hint Resolve ag_ev1 ag_ev2 ag_ev5 : ag.
Lemma ag_evpn b : agrees (evpn_decode true b) (evpn_decode false b). Proof. unfold evpn_decode, evpn_arm. ag. Qed.
Lemma ag_evpns b : agrees (decode_bgpaddritems_from (evpn_decode true) b) (decode_bgpaddritems_from (evpn_decode false) b).
Proof. apply ag_dec_loop, ag_evpn. Qed.
Definition it_ag {T} (i j : fsitem T) : Prop := (forall b, agrees (fs_dec i b) (fs_dec j b)) /\ (forall x, eagrees (fs_enc i x) (fs_enc j x)) /\ (forall x, fs_size i x = fs_size j x).
Lemma ag_fs4 : it_ag (fs4 true) (fs4 false).
Proof. split; [|split; [|reflexivity]]; [intros b; cbn [fs_dec fs4]; unfold fs4_dec|intros x b; cbn [fs_enc fs4]; unfold fs4_enc]; ag; apply ag_v4_to. Qed.
Lemma ag_fs6 : it_ag (fs6i true) (fs6i false).
Proof. split; [|split; [|reflexivity]]; [intros b; cbn [fs_dec fs6i]; unfold fs6_dec|intros x b; cbn [fs_enc fs6i]; unfold fs6_enc]; ag; apply ag_v6_to. Qed.
Lemma ag_fsv4 : it_ag (fsv4 true) (fsv4 false).
Proof. split; [|split; [|reflexivity]]; [intros b; cbn [fs_dec fsv4]; unfold fsv4_dec|intros x b; cbn [fs_enc fsv4]; unfold fsv4_enc]; ag; apply (ag_withrd_set v4_to_bits ag_v4_to). Qed.
Lemma ag_fs_decode {T} (i j : fsitem T) b : it_ag i j -> agrees (fs_decode i b) (fs_decode j b).
Proof. intros (D & _). unfold fs_decode, fs_arm_pfx. ag. Qed.
Lemma ag_fs_list {T} (i j : fsitem T) b : it_ag i j -> agrees (decode_bgpaddritems_from (fs_decode i) b) (decode_bgpaddritems_from (fs_decode j) b).
Proof. intros H. apply ag_dec_loop. intros c. now apply ag_fs_decode. Qed.
Lemma ag_fs_encode {T} (i j : fsitem T) r : it_ag i j -> eagrees (fs_encode i r) (fs_encode j r).
Proof.
  intros (_ & E & S0) b. unfold fs_encode. assert (Q : fs_nlen i r = fs_nlen j r) by (destruct r; cbn [fs_nlen]; rewrite ?S0; reflexivity).
  rewrite Q. ag; unfold fs_put_pfx; rewrite S0; ag; apply E.
Qed.
Lemma ag_addritems {T} (f g : T -> Enc nat) v : (forall x, eagrees (f x) (g x)) -> eagrees (encode_bgpaddritems_to f v) (encode_bgpaddritems_to g v).
Proof.
  intros H. unfold encode_bgpaddritems_to. generalize 0%nat. induction v as [|x v IH]; intros c b; cbn [enc_addritems]; ag; auto.
Qed.
#[local] Hint Resolve ag_vpls ag_evpns ag_fs_list ag_fs4 ag_fs6 ag_fsv4 : ag.
Lemma ag_fam {T} (ex : extractor T) w wp p f s b : ex_ag ex -> agrees (dec_fam true ex w wp p f s b) (dec_fam false ex w wp p f s b).
Proof. intros H. unfold dec_fam. ag. Qed.
Lemma ag_wrap {T} (r s : res (list T * nat)) w : agrees r s -> agrees (dec_wrap r w) (dec_wrap s w).
Proof. intros H. unfold dec_wrap. ag. Qed.
#[local] Hint Resolve ag_fam ag_wrap : ag.
Lemma ag_addrs p afi sf b : agrees (addrs_decode true p afi sf b) (addrs_decode false p afi sf b).
Proof. unfold addrs_decode. ag. Qed.
Lemma ag_addrs_encode a : eagrees (addrs_encode true a) (addrs_encode false a).
Proof.
  intros b. destruct a; cbn [addrs_encode]; ag; try (apply ag_encode_items; auto 6 with ag); try (apply ag_encode_pid; auto 6 with ag);
    apply ag_addritems; intros x; apply ag_fs_encode; auto with ag.
Qed.
#[local] Hint Resolve ag_addrs ag_addrs_encode : ag.

(** ** Attributes and messages *)
Lemma ag_mpupdates p b : agrees (mpupdates_decode true p b) (mpupdates_decode false p b). Proof. unfold mpupdates_decode. ag. Qed.
Lemma ag_mpwithdraws p b : agrees (mpwithdraws_decode true p b) (mpwithdraws_decode false p b). Proof. unfold mpwithdraws_decode. ag. Qed.
Lemma ag_pmsi b : agrees (pmsi_decode true b) (pmsi_decode false b). Proof. unfold pmsi_decode. ag. Qed.
#[local] Hint Resolve ag_mpupdates ag_mpwithdraws ag_pmsi : ag.
Lemma ag_attrset_loop f g fuel : (forall tc fl n b, agrees (f tc fl n b) (g tc fl n b)) -> forall b c, agrees (attrset_loop f fuel b c) (attrset_loop g fuel b c).
Proof. intros H. induction fuel as [|fuel IH]; intros b c; cbn [attrset_loop]; ag. Qed.
Lemma ag_attr_n p fuel : forall tc fl n b, agrees (attr_decode_n fuel true p tc fl n b) (attr_decode_n fuel false p tc fl n b).
Proof.
  induction fuel as [|fuel IH]; intros tc fl n b; cbn [attr_decode_n]; ag.
  unfold attrset_decode. assert (L := ag_attrset_loop _ _ (S (length b)) IH). ag.
Qed.
Lemma ag_attr p tc fl n b : agrees (attr_decode true p tc fl n b) (attr_decode false p tc fl n b).
Proof. unfold attr_decode. apply ag_attr_n. Qed.
Lemma ag_attr_put p a : eagrees (attr_put true p a) (attr_put false p a).
Proof. intros b. destruct a; cbn [attr_put]; ag; unfold mpupdates_encode, mpwithdraws_encode; ag. Qed.
#[local] Hint Resolve ag_attr ag_attr_put : ag.
Lemma ag_attr_encode p a : eagrees (attr_encode true p a) (attr_encode false p a).
Proof. intros b. unfold attr_encode. destruct (attr_params a) as [tc fl]. ag. Qed.
#[local] Hint Resolve ag_attr_encode : ag.
Lemma ag_upd_nlri p b : agrees (upd_nlri_decode true p b) (upd_nlri_decode false p b).
Proof. unfold upd_nlri_decode. ag. Qed.
Lemma ag_upd_attrs p b e fuel : forall c, agrees (upd_attrs fuel true p b c e) (upd_attrs fuel false p b c e).
Proof. induction fuel as [|fuel IH]; intros c; cbn [upd_attrs]; ag. Qed.
#[local] Hint Resolve ag_upd_nlri ag_upd_attrs : ag.
Lemma ag_update p m b : agrees (update_decode true p m b) (update_decode false p m b).
Proof. unfold update_decode. ag. Qed.
Lemma ag_upd_nlri_encode p a : match upd_nlri_encode true p a, upd_nlri_encode false p a with Some e, Some e' => eagrees e e' | None, None => True | _, _ => False end.
Proof. unfold upd_nlri_encode. destruct (sp_mode p), a; auto with ag. Qed.
Lemma ag_upd_withdraws p a : eagrees (upd_withdraws true p a) (upd_withdraws false p a).
Proof. intros b. unfold upd_withdraws. assert (H := ag_upd_nlri_encode p a). destruct (upd_nlri_encode true p a), (upd_nlri_encode false p a); try contradiction; ag. Qed.
Lemma ag_upd_attrs_encode p v pos : forall c, eagrees (upd_attrs_encode true p v pos c) (upd_attrs_encode false p v pos c).
Proof. induction v as [|a v IH]; intros c b; cbn [upd_attrs_encode]; ag; auto. Qed.
#[local] Hint Resolve ag_update ag_upd_withdraws ag_upd_attrs_encode : ag.
Lemma ag_update_encode p m : eagrees (update_encode true p m) (update_encode false p m).
Proof.
  intros b. unfold update_encode. assert (H := ag_upd_nlri_encode p (u_updates m)). destruct (upd_nlri_encode true p (u_updates m)), (upd_nlri_encode false p (u_updates m)); try contradiction; ag.
Qed.
Lemma ag_head b : agrees (decode_message_head true b) (decode_message_head false b). Proof. unfold decode_message_head. ag. Qed.
Lemma ag_prepare t n : eagrees (prepare_message_buf true t n) (prepare_message_buf false t n). Proof. intros b. unfold prepare_message_buf. ag. Qed.
Lemma ag_send_buf t n : eagrees (send_message_buf true t n) (send_message_buf false t n). Proof. intros b. unfold send_message_buf. ag. Qed.
#[local] Hint Resolve ag_update_encode ag_head ag_prepare : ag.
Lemma ag_recv_loop cap fuel : forall s, agrees (recv_loop true cap fuel s) (recv_loop false cap fuel s).
Proof. induction fuel as [|fuel IH]; intros s; cbn [recv_loop]; ag. Qed.
Lemma ag_message p t b : agrees (message_decode true p t b) (message_decode false p t b). Proof. unfold message_decode. ag. Qed.
Lemma ag_message_encode p m : eagrees (message_encode true p m) (message_encode false p m). Proof. intros b. unfold message_encode. destruct m; ag. apply ag_update_encode. Qed.
#[local] Hint Resolve ag_message_encode : ag.
Lemma ag_send p m : eagrees (send_message true p m) (send_message false p m). Proof. intros b. unfold send_message. ag. Qed.
#[local] Hint Resolve ag_send : ag.
Lemma ag_recv_head s : agrees (recv_message_head true s) (recv_message_head false s). Proof. unfold recv_message_head. ag. Qed.
#[local] Hint Resolve ag_recv_head : ag.
Lemma ag_start p s : agrees (start_active true p s) (start_active false p s).
Proof. unfold start_active. generalize (repeat 255 4096). intros buf. apply ag_bind; [apply ag_send|]. intros x. ag. Qed.
Lemma ag_lifecycle p fuel : forall s, same_until (lifecycle true fuel p s) (lifecycle false fuel p s).
Proof.
  assert (STOP : forall s : list event * res unit, same_until ([], Panic) s) by (intros s; right; split; [reflexivity|]; exists (fst s); reflexivity).
  assert (CONS : forall (e : event) (r s : list event * res unit), same_until r s -> same_until (let '(v, r) := r in (e :: v, r)) (let '(v, r) := s in (e :: v, r))).
  { intros e [v r] [w s] [E|(P & l & E)]; [left; inversion E; subst; reflexivity|]. right. split; [exact P|]. exists l. cbn [fst] in *. now rewrite E. }
  induction fuel as [|fuel IH]; intros s; cbn [lifecycle]; [now left|].
  destruct (ag_recv_head s) as [ -> | -> ]; [apply STOP|]. destruct (recv_message_head false s) as [[[t n] s']| | |]; try (now left).
  destruct (msgtype_eqb t MKeepalive); [apply IH|]. destruct (Nat.ltb (N.to_nat 65536) n); [now left|]. destruct (Nat.ltb (length s') n); [now left|].
  destruct t; try (now left); [|apply IH]. destruct (ag_update p update_new (firstn n s')) as [ -> | -> ]; [apply STOP|].
  destruct (update_decode false p update_new (firstn n s')); try (now left); apply CONS, IH.
Qed.

(** ** BMP *)
Lemma ag_body t b n : agrees (bgp_body true t b n) (bgp_body false t b n). Proof. unfold bgp_body. ag. Qed.
Lemma ag_put t e e' n : eagrees e e' -> eagrees (bgp_put true t e n) (bgp_put false t e' n). Proof. intros E b. unfold bgp_put. ag. Qed.
#[local] Hint Resolve ag_body ag_put : ag.
Lemma ag_peerup b : agrees (peerup_decode true b) (peerup_decode false b). Proof. unfold peerup_decode. ag. Qed.
Lemma ag_peerdown b : agrees (peerdown_decode true b) (peerdown_decode false b). Proof. unfold peerdown_decode. ag. Qed.
Lemma ag_rmon f b : agrees (rmon_decode_with true f b) (rmon_decode_with false f b). Proof. unfold rmon_decode_with. ag. Qed.
Lemma ag_peerup_enc m : eagrees (peerup_encode true m) (peerup_encode false m). Proof. intros b. unfold peerup_encode. ag; apply ag_put, eag_refl. Qed.
Lemma ag_peerdown_enc m : eagrees (peerdown_encode true m) (peerdown_encode false m). Proof. intros b. unfold peerdown_encode. ag; apply ag_put, eag_refl. Qed.
Lemma ag_rmon_enc m : eagrees (rmon_encode true m) (rmon_encode false m). Proof. intros b. unfold rmon_encode. ag. Qed.
#[local] Hint Resolve ag_peerup ag_peerdown ag_rmon ag_peerup_enc ag_peerdown_enc ag_rmon_enc : ag.
Lemma ag_bmp b : agrees (bmp_decode true b) (bmp_decode false b). Proof. unfold bmp_decode, rmon_decode. ag. Qed.
Lemma ag_bmp_encode m : eagrees (bmp_encode true m) (bmp_encode false m). Proof. intros b. unfold bmp_encode. ag. Qed.
Lemma ag_session t b : agrees_in (session_decode true t b) (session_decode false t b).
Proof.
  unfold session_decode. destruct (idx b 0) as [ty| | |]; [|right; reflexivity..].
  assert (PLAIN : forall r s : res bmpmsg, agrees r s -> agrees_in (r, t) (s, t)) by (intros r s [ -> | -> ]; [now left|now right]).
  destruct (ty =? 0); [apply PLAIN; ag|]. destruct (ty =? 1); [now right|].
  destruct (ty =? 2).
  { destruct (rfrom b 1) as [s| | |]; cbn [bind]; [|right; reflexivity..]. destruct (ag_peerdown s) as [ -> | -> ]; [now left|now right]. }
  destruct (ty =? 3); [|now right].
  destruct (rfrom b 1) as [s| | |]; cbn [bind]; [|right; reflexivity..]. destruct (ag_peerup s) as [ -> | -> ]; [now left|now right].
Qed.
Lemma ag_sbind {S A B} (m m' : St S A) (f g : A -> St S B) s : agrees_in (m s) (m' s) -> (forall x s, agrees_in (f x s) (g x s)) -> agrees_in (sbind m f s) (sbind m' g s).
Proof.
  unfold sbind, agrees_in at 1. destruct (m s) as [r t]. intros [E|E] H; cbn [fst] in E.
  - subst r. now left.
  - rewrite <- E. destruct r; [apply H|now right..].
Qed.
Lemma ag_sdo {S A} (r s : res A) (x : S) : agrees r s -> agrees_in (sdo r x) (sdo s x).
Proof. unfold sdo. intros [ -> | -> ]; [now left|now right]. Qed.
Lemma ag_srefl {S A} (m : St S A) x : agrees_in (m x) (m x).
Proof. now right. Qed.
Ltac sag1 := match goal with
  | |- agrees_in (?m ?x) (?m' ?x) => constr_eq m m'; apply ag_srefl
  | |- agrees_in _ _ => solve [auto]
  | |- agrees_in (sbind _ _ _) (sbind _ _ _) => apply ag_sbind; [|intros ? ?]
  | |- agrees_in (sdo _ _) (sdo _ _) => apply ag_sdo; ag
  | |- agrees_in (match ?x with _ => _ end _) (match ?x with _ => _ end _) => destruct x
  | |- agrees_in (match ?x with _ => _ end) (match ?x with _ => _ end) => destruct x
  end.
Ltac sag := repeat (cbv beta iota zeta; sag1).
Lemma ag_attrs_in p b e fuel : forall c m, agrees_in (upd_attrs_in fuel true p b c e m) (upd_attrs_in fuel false p b c e m).
Proof. induction fuel as [|fuel IH]; intros c m; cbn [upd_attrs_in]; sag. Qed.
Lemma ag_update_in p b m : agrees_in (update_decode_in true p b m) (update_decode_in false p b m).
Proof. unfold update_decode_in. assert (A := ag_attrs_in p b). sag. Qed.

Lemma ag_ok {A} (r s : res A) x : agrees r s -> r = Ok x -> s = Ok x.
Proof. intros [ -> | -> ]; congruence. Qed.
Lemma ag_answers A (r s : res A) : agrees r s ->
  (forall x, r = Ok x -> s = Ok x) /\ (forall e, r = Err e -> s = Err e) /\
  (forall x, s = Ok x -> r = Ok x \/ r = Panic) /\ (forall e, s = Err e -> r = Err e \/ r = Panic) /\ (s = Panic -> r = Panic).
Proof. intros [ -> | -> ]; repeat split; intros; subst; try discriminate; auto. Qed.
Lemma ag_prefixes :
  (forall p a, agrees (v4_in_subnet true p a) (v4_in_subnet false p a)) /\
  (forall p a, agrees (v6_in_subnet true p a) (v6_in_subnet false p a)) /\
  (forall p a, agrees (mac_in_subnet true p a) (mac_in_subnet false p a)) /\
  (forall p, agrees (v4_range_first true p) (v4_range_first false p)) /\
  (forall p, agrees (v6_range_first true p) (v6_range_first false p)) /\
  (forall p, agrees (mac_range_first true p) (mac_range_first false p)) /\
  (forall p, agrees (v4_range_last true p) (v4_range_last false p)) /\
  (forall p, agrees (v6_range_last true p) (v6_range_last false p)) /\
  (forall p, agrees (mac_range_last true p) (mac_range_last false p)) /\
  (forall p q, agrees (v4_contains true p q) (v4_contains false p q)) /\
  (forall p q, agrees (v6_contains true p q) (v6_contains false p q)) /\
  (forall p q, agrees (mac_contains true p q) (mac_contains false p q)) /\
  (forall p q, agrees (net_contains true p q) (net_contains false p q)).
Proof.
  exact (conj ag_v4_in (conj ag_v6_in (conj ag_mac_in (conj ag_v4_first (conj ag_v6_first (conj ag_mac_first (conj ag_v4_last (conj ag_v6_last (conj ag_mac_last
    (conj ag_v4_contains (conj ag_v6_contains (conj ag_mac_contains ag_net_contains)))))))))))).
Qed.
Lemma ag_messages_sent p m buf : agrees (message_encode true p m buf) (message_encode false p m buf) /\
  agrees (send_message true p m buf) (send_message false p m buf).
Proof. split; [apply ag_message_encode|apply ag_send]. Qed.
Lemma ag_lifecycle_f fuel p s : same_until (lifecycle true fuel p s) (lifecycle false fuel p s).
Proof. apply ag_lifecycle. Qed.
Lemma ag_differs t len rest : len < 19 -> bytes_ok rest ->
  let buf := repeat 255 16 ++ be_bytes 2 len ++ [msg_code t] ++ rest in
  decode_message_head true buf <> decode_message_head false buf.
Proof. intros L B. destruct (head_refuted_all t len rest L B) as (P & n & Q & _). cbn zeta. rewrite P, Q. discriminate. Qed.
