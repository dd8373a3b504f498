(** A larger buffer makes no difference: proof rules, and every encoder. *)
From Verif Require Import Base BaseFacts M_Util M_Prefix M_Nlri M_Vpls M_Mvpn M_Evpn M_Flowspec M_Addrs M_Attr M_Update M_Cap M_Open M_Session M_Peer M_Bmp S_Grow.
Ltac Zify.zify_post_hook ::= idtac.

(** [Z r r']: what may become of the additional octets [r] *)
Definition up (Z : list N -> list N -> Prop) {A} (e e' : Enc A) : Prop :=
  forall buf r x b, e buf = Ok (x, b) -> exists r', Z r r' /\ e' (buf ++ r) = Ok (x, b ++ r').

Lemma splice_more i bs (buf r : list N) : (i + length bs <= length buf)%nat -> splice i bs (buf ++ r) = splice i bs buf ++ r.
Proof.
  intros H. unfold splice. rewrite firstn_app, skipn_app.
  replace (i - length buf)%nat with 0%nat by lia. replace (i + length bs - length buf)%nat with 0%nat by lia.
  cbn [firstn skipn]. rewrite app_nil_r, <- !app_assoc. reflexivity.
Qed.
Lemma sub_more i j (buf r : list N) : (j <= length buf)%nat -> sub (buf ++ r) i j = sub buf i j.
Proof.
  intros H. unfold sub. destruct (Nat.le_gt_cases i (length buf)) as [L|L].
  - rewrite skipn_app, firstn_app. rewrite skipn_length.
    replace (j - i - (length buf - i))%nat with 0%nat by lia. replace (i - length buf)%nat with 0%nat by lia.
    cbn [firstn skipn]. now rewrite app_nil_r.
  - replace (j - i)%nat with 0%nat by lia. reflexivity.
Qed.
Lemma sub_end n (buf : list N) : sub buf n (length buf) = skipn n buf.
Proof. unfold sub. apply firstn_all2. rewrite skipn_length. apply le_n. Qed.

Section Up.
Variable Z : list N -> list N -> Prop.
Hypothesis Zr : forall r, Z r r.
Hypothesis Zt : forall a b c, Z a b -> Z b c -> Z a c.

Lemma up_ret {A} (a : A) : up Z (eret a) (eret a).
Proof. clear Zt. intros buf r x b E. unfold eret in *. exists r. split; [apply Zr|]. congruence. Qed.
Lemma up_err {A} er (e : Enc A) : up Z (eerr er) e.
Proof. intros buf r x b E. discriminate. Qed.
Lemma up_panic {A} (e : Enc A) : up Z epanic e.
Proof. intros buf r x b E. discriminate. Qed.
Lemma up_lift {A} (m : res A) : up Z (elift m) (elift m).
Proof. clear Zt. intros buf r x b E. unfold elift in *. exists r. split; [apply Zr|]. destruct m; congruence. Qed.
Lemma up_bind {A B} (m m' : Enc A) (f f' : A -> Enc B) : up Z m m' -> (forall a, up Z (f a) (f' a)) -> up Z (ebind m f) (ebind m' f').
Proof.
  intros H1 H2 buf r x b E. unfold ebind in *. destruct (m buf) as [[a b1]| | |] eqn:E1; try discriminate.
  destruct (H1 _ r _ _ E1) as (r1 & Z1 & E1'). rewrite E1'. destruct (H2 a _ r1 _ _ E) as (r2 & Z2 & E2').
  exists r2. split; [eapply Zt; eassumption|exact E2'].
Qed.
Lemma up_len {B} (f f' : nat -> Enc B) : (forall l l', (l <= l')%nat -> up Z (f l) (f' l')) -> up Z (ebind elen f) (ebind elen f').
Proof. clear Zr Zt.
  intros H buf r x b E. unfold ebind, elen in *. apply (H (length buf) (length (buf ++ r))); [|exact E].
  rewrite app_length. apply Nat.le_add_r.
Qed.
Lemma up_set i v : up Z (set_idx i v) (set_idx i v).
Proof. clear Zt.
  intros buf r x b E. exists r. split; [apply Zr|]. unfold set_idx in *. rewrite app_length.
  destruct (Nat.ltb_spec i (length buf)); [|discriminate]. destruct (Nat.ltb_spec i (length buf + length r)); [|lia].
  rewrite splice_more by (cbn [length]; lia). congruence.
Qed.
Lemma up_write i bs : up Z (write_at i bs) (write_at i bs).
Proof. clear Zt.
  intros buf r x b E. exists r. split; [apply Zr|]. unfold write_at in *. rewrite app_length.
  destruct (Nat.leb_spec (i + length bs) (length buf)); [|discriminate].
  destruct (Nat.leb_spec (i + length bs) (length buf + length r)); [|lia].
  rewrite splice_more by assumption. congruence.
Qed.
Lemma up_upd i f : up Z (upd_idx i f) (upd_idx i f).
Proof. clear Zt.
  intros buf r x b E. exists r. split; [apply Zr|]. unfold upd_idx in *.
  destruct (nth_error buf i) as [c|] eqn:E1; [|discriminate].
  assert (L : (i < length buf)%nat) by (apply nth_error_Some; congruence).
  rewrite nth_error_app1, E1 by exact L. rewrite splice_more by (cbn [length]; lia). congruence.
Qed.
Lemma up_from {A} n (e e' : Enc A) : up Z e e' -> up Z (on_from n e) (on_from n e').
Proof. clear Zr Zt.
  intros H buf r x b E. unfold on_from in *. rewrite app_length.
  destruct (Nat.leb_spec n (length buf)) as [L|]; [|discriminate]. destruct (Nat.leb_spec n (length buf + length r)); [|lia].
  destruct (e (skipn n buf)) as [[y b1]| | |] eqn:E1; try discriminate.
  destruct (H _ r _ _ E1) as (r1 & Z1 & E1'). exists r1. split; [exact Z1|].
  rewrite skipn_app, firstn_app. replace (n - length buf)%nat with 0%nat by lia. cbn [firstn skipn]. rewrite app_nil_r, E1'.
  assert (y = x) as -> by congruence. assert (b = firstn n buf ++ b1) as -> by congruence. now rewrite app_assoc.
Qed.
Lemma up_slice {A} i j (e : Enc A) : up Z (on_slice i j e) (on_slice i j e).
Proof. clear Zt.
  intros buf r x b E. exists r. split; [apply Zr|]. unfold on_slice in *. rewrite app_length.
  destruct (Nat.leb_spec i j) as [L1|]; [|discriminate]. cbn [andb] in *.
  destruct (Nat.leb_spec j (length buf)) as [L2|]; [|discriminate]. destruct (Nat.leb_spec j (length buf + length r)); [|lia].
  rewrite sub_more by exact L2. destruct (e (sub buf i j)) as [[y b1]| | |]; try discriminate.
  rewrite firstn_app, skipn_app. replace (i - length buf)%nat with 0%nat by lia. replace (j - length buf)%nat with 0%nat by lia.
  cbn [firstn skipn]. rewrite app_nil_r. assert (y = x) as -> by congruence.
  assert (b = firstn i buf ++ b1 ++ skipn j buf) as -> by congruence. now rewrite <- !app_assoc.
Qed.
Lemma up_eslice {A} i j (e : Enc A) : up Z (on_eslice i j e) (on_eslice i j e).
Proof. clear Zt.
  intros buf r x b E. exists r. split; [apply Zr|]. unfold on_eslice in *. rewrite app_length.
  destruct (Nat.leb_spec i j) as [L1|]; [|discriminate]. cbn [andb] in *.
  destruct (Nat.leb_spec j (length buf)) as [L2|]; [|discriminate]. destruct (Nat.leb_spec j (length buf + length r)); [|lia].
  rewrite sub_more by exact L2. destruct (e (sub buf i j)) as [[y b1]| | |]; try discriminate.
  rewrite firstn_app, skipn_app. replace (i - length buf)%nat with 0%nat by lia. replace (j - length buf)%nat with 0%nat by lia.
  cbn [firstn skipn]. rewrite app_nil_r. assert (y = x) as -> by congruence.
  assert (b = firstn i buf ++ b1 ++ skipn j buf) as -> by congruence. now rewrite <- !app_assoc.
Qed.
Lemma up_tail {A} n (e e' : Enc A) : up Z e e' -> up Z (on_tail n e) (on_tail n e').
Proof. clear Zr Zt.
  intros H buf r x b E. unfold on_tail, ebind, elen, on_eslice in *. rewrite sub_end in *. rewrite Nat.leb_refl in *.
  rewrite app_length. destruct (Nat.leb_spec n (length buf)) as [L|]; [|discriminate]. cbn [andb] in *.
  destruct (Nat.leb_spec n (length buf + length r)); [|lia].
  destruct (e (skipn n buf)) as [[y b1]| | |] eqn:E1; try discriminate.
  destruct (H _ r _ _ E1) as (r1 & Z1 & E1'). exists r1. split; [exact Z1|].
  rewrite skipn_app, firstn_app. replace (n - length buf)%nat with 0%nat by lia. cbn [firstn skipn]. rewrite app_nil_r, E1'.
  assert (y = x) as -> by congruence. rewrite skipn_all in E. rewrite app_nil_r in E.
  assert (b = firstn n buf ++ b1) as -> by congruence.
  rewrite skipn_app. rewrite skipn_all2 by lia. replace (length buf + length r - length buf)%nat with (length r) by lia.
  rewrite skipn_all. cbn [app]. rewrite app_nil_r. now rewrite app_assoc.
Qed.

(** the tests on the length *)
Lemma up_ltb {A} l l' k er (m m' : Enc A) : (l <= l')%nat -> up Z m m' ->
  up Z (if Nat.ltb l k then eerr er else m) (if Nat.ltb l' k then eerr er else m').
Proof. intros L H. destruct (Nat.ltb_spec l k); [apply up_err|]. destruct (Nat.ltb_spec l' k); [lia|exact H]. Qed.
Lemma up_ltb_sub {A} l l' c k er (m m' : Enc A) : (l <= l')%nat -> up Z m m' ->
  up Z (if Nat.ltb (l - c) k then eerr er else m) (if Nat.ltb (l' - c) k then eerr er else m').
Proof. intros L H. apply up_ltb; [lia|exact H]. Qed.
Lemma up_leb {A} l l' k er (m m' : Enc A) : (l <= l')%nat -> up Z m m' ->
  up Z (if Nat.leb k l then m else eerr er) (if Nat.leb k l' then m' else eerr er).
Proof. intros L H. destruct (Nat.leb_spec k l); [|apply up_err]. destruct (Nat.leb_spec k l'); [exact H|lia]. Qed.
Lemma up_eqb0 {A} l l' er (m m' : Enc A) : (l <= l')%nat -> up Z m m' ->
  up Z (if Nat.eqb l 0 then eerr er else m) (if Nat.eqb l' 0 then eerr er else m').
Proof. intros L H. destruct (Nat.eqb_spec l 0); [apply up_err|]. destruct (Nat.eqb_spec l' 0); [lia|exact H]. Qed.
End Up.

Ltac grow1 :=
  match goal with
  | |- _ /\ _ => split
  | |- up _ (eret _) _ => apply up_ret; assumption
  | |- up _ (eerr _) _ => apply up_err
  | |- up _ epanic _ => apply up_panic
  | |- up _ (elift _) _ => apply up_lift; assumption
  | |- up _ (set_idx _ _) _ => apply up_set; assumption
  | |- up _ (write_at _ _) _ => apply up_write; assumption
  | |- up _ (upd_idx _ _) _ => apply up_upd; assumption
  | |- up _ (on_slice _ _ _) _ => apply up_slice; assumption
  | |- up _ (on_eslice _ _ _) _ => apply up_eslice; assumption
  | |- up _ (on_from _ _) _ => apply up_from
  | |- up _ (on_tail _ _) _ => apply up_tail
  | |- up _ (ebind elen _) _ => apply up_len; intros ? ? ?
  | |- up _ (ebind _ _) _ => apply up_bind; [assumption| |intros ?]
  | L : (?l <= ?l')%nat |- up _ (if Nat.ltb ?l _ then _ else _) (if Nat.ltb ?l' _ then _ else _) => apply up_ltb; [exact L|]
  | L : (?l <= ?l')%nat |- up _ (if Nat.ltb (?l - _) _ then _ else _) (if Nat.ltb (?l' - _) _ then _ else _) => apply up_ltb_sub; [exact L|]
  | L : (?l <= ?l')%nat |- up _ (if Nat.leb _ ?l then _ else _) (if Nat.leb _ ?l' then _ else _) => apply up_leb; [exact L|]
  | L : (?l <= ?l')%nat |- up _ (if Nat.eqb ?l 0 then _ else _) (if Nat.eqb ?l' 0 then _ else _) => apply up_eqb0; [exact L|]
  | |- up _ (let '(_, _) := ?x in _) _ => destruct x
  | |- up _ (if ?c then _ else _) (if ?c then _ else _) => destruct c
  | |- up _ (match ?x with _ => _ end) _ => destruct x
  end.
Ltac grow := cbv zeta; repeat (first [solve [eauto with grow nocore]|grow1]; cbv zeta).
Create HintDb grow.

Section Encoders.
Variable Z : list N -> list N -> Prop.
Hypothesis Zr : forall r, Z r r.
Hypothesis Zt : forall a b c, Z a b -> Z b c -> Z a c.
Local Notation g e := (up Z e e).

Lemma g_setn_u16 s : g (setn_u16 s). Proof. unfold setn_u16. grow. Qed.
Lemma g_setn_u32 s : g (setn_u32 s). Proof. unfold setn_u32. grow. Qed.
Lemma g_setn_u64 s : g (setn_u64 s). Proof. unfold setn_u64. grow. Qed.
Local Hint Resolve g_setn_u16 g_setn_u32 g_setn_u64 : grow.
Lemma g_encode_addrv4_to a : g (encode_addrv4_to a). Proof. unfold encode_addrv4_to. grow. Qed.
Lemma g_encode_addrv6_to a : g (encode_addrv6_to a). Proof. unfold encode_addrv6_to. grow. Qed.
Local Hint Resolve g_encode_addrv4_to g_encode_addrv6_to : grow.
Lemma g_encode_addr_to a : g (encode_addr_to a). Proof. unfold encode_addr_to. grow. Qed.
Lemma g_encode_rd_to a : g (encode_rd_to a). Proof. unfold encode_rd_to. grow. Qed.
Local Hint Resolve g_encode_addr_to g_encode_rd_to : grow.
Lemma g_v4_to_bits oc a : g (v4_to_bits oc a). Proof. unfold v4_to_bits. grow. Qed.
Lemma g_v6_to_bits oc a : g (v6_to_bits oc a). Proof. unfold v6_to_bits. grow. Qed.
Lemma g_mdt4_set oc a : g (mdt4_set oc a). Proof. unfold mdt4_set. grow. Qed.
Lemma g_mdt6_set oc a : g (mdt6_set oc a). Proof. unfold mdt6_set. grow. Qed.
Local Hint Resolve g_v4_to_bits g_v6_to_bits g_mdt4_set g_mdt6_set : grow.
Lemma g_labels_write v : forall c, g (labels_write v c). Proof. induction v; intros; cbn [labels_write]; grow. Qed.
Local Hint Resolve g_labels_write : grow.
Lemma g_labels_set v : g (labels_set v). Proof. unfold labels_set. grow. Qed.
Local Hint Resolve g_labels_set : grow.
Lemma g_labeled_set {T} (st : setter T) : (forall oc x, g (st oc x)) -> forall oc x, g (labeled_set st oc x).
Proof. intros H oc x. unfold labeled_set. grow. Qed.
Lemma g_withrd_set {T} (st : setter T) : (forall oc x, g (st oc x)) -> forall oc x, g (withrd_set st oc x).
Proof. intros H oc x. unfold withrd_set. grow. Qed.
Local Hint Resolve g_labeled_set g_withrd_set : grow.
Lemma g_items {T} oc (st : setter T) v : (forall oc x, g (st oc x)) -> g (encode_bgpitems_to oc st v).
Proof. intros H. unfold encode_bgpitems_to. generalize 0%nat. induction v; intros; cbn [enc_items]; grow. Qed.
Lemma g_pids {T} oc (st : setter T) v : (forall oc x, g (st oc x)) -> g (encode_pathid_bgpitems_to oc st v).
Proof. intros H. unfold encode_pathid_bgpitems_to. generalize 0%nat. induction v; intros; cbn [enc_pathid_items]; grow. Qed.
Lemma g_addritems {T} (en : T -> Enc nat) v : (forall x, g (en x)) -> g (encode_bgpaddritems_to en v).
Proof. intros H. unfold encode_bgpaddritems_to. generalize 0%nat. induction v; intros; cbn [enc_addritems]; grow. Qed.
Lemma g_longs {T} (en : T -> Enc nat) v : (forall x, g (en x)) -> g (encode_long_bgpitems_to en v).
Proof. intros H. unfold encode_long_bgpitems_to. generalize 0%nat. induction v; intros; cbn [enc_long_items]; grow. Qed.
Local Hint Resolve g_items g_pids g_addritems g_longs : grow.
Lemma g_l2a_pack x : g (l2a_pack x). Proof. unfold l2a_pack. grow. Qed.
Lemma g_l2_encode x : g (l2_encode x). Proof. unfold l2_encode. grow. Qed.
Lemma g_mvpn3_encode x : g (mvpn3_encode x). Proof. unfold mvpn3_encode. grow. Qed.
Local Hint Resolve g_l2a_pack g_l2_encode g_mvpn3_encode : grow.
Lemma g_mvpn_encode x : g (mvpn_encode x).
Proof. unfold mvpn_encode, mvpn1_encode, mvpn2_encode, mvpn4_encode, mvpn5_encode, mvpn67_encode. grow. Qed.
Lemma g_esi_write p t v : g (esi_write p t v). Proof. unfold esi_write. grow. Qed.
Lemma g_ip_write l p a : g (ip_write l p a). Proof. unfold ip_write. destruct l; grow. Qed.
Local Hint Resolve g_mvpn_encode g_esi_write g_ip_write : grow.
Lemma g_evpn_encode x : g (evpn_encode x).
Proof. unfold evpn_encode, evpn1_encode, evpn2_encode, evpn3_encode, evpn4_encode, evpn5_encode. grow. Qed.
Local Hint Resolve g_evpn_encode : grow.
Lemma g_oper_write o v : g (oper_write o v). Proof. unfold oper_write. grow. Qed.
Local Hint Resolve g_oper_write : grow.
Lemma g_vec_enc {T} (o : fsoper T) v : (forall x, g (op_enc o x)) -> g (vec_enc o v).
Proof.
  intros H. assert (W : forall v p l, g (vec_write o v p l)) by (clear v; induction v; intros; cbn [vec_write]; grow).
  unfold vec_enc. grow.
Qed.
Lemma g_fsval x : g (op_enc fsvalop x). Proof. cbn [op_enc fsvalop]. unfold fsval_enc. grow. Qed.
Lemma g_fsmask x : g (op_enc fsmaskop x). Proof. cbn [op_enc fsmaskop]. unfold fsmask_enc. grow. Qed.
Local Hint Resolve g_vec_enc g_fsval g_fsmask : grow.
Lemma g_fs_encode {T} (it : fsitem T) r : (forall x, g (fs_enc it x)) -> g (fs_encode it r).
Proof. intros H. unfold fs_encode, fs_put_pfx, fs_put_vec. grow. Qed.
Lemma g_fs4 oc x : g (fs_enc (fs4 oc) x). Proof. cbn [fs_enc fs4]. unfold fs4_enc. grow. Qed.
Lemma g_fs6 oc x : g (fs_enc (fs6i oc) x). Proof. cbn [fs_enc fs6i]. unfold fs6_enc. grow. Qed.
Lemma g_fsv4 oc x : g (fs_enc (fsv4 oc) x). Proof. cbn [fs_enc fsv4]. unfold fsv4_enc. grow. Qed.
Local Hint Resolve g_fs_encode g_fs4 g_fs6 g_fsv4 : grow.
Lemma g_addrs_encode oc a : g (addrs_encode oc a).
Proof. unfold addrs_encode. destruct a; solve [grow]. Qed.
Local Hint Resolve g_addrs_encode : grow.

Lemma g_as_write b v : forall c, g (as_write b v c). Proof. induction v; intros; cbn [as_write]; grow. Qed.
Local Hint Resolve g_as_write : grow.
Lemma g_comm_encode v : g (comm_encode v). Proof. unfold comm_encode. grow. Qed.
Lemma g_lcomm_encode v : g (lcomm_encode v). Proof. unfold lcomm_encode. grow. Qed.
Lemma g_ecomm_encode v : g (ecomm_encode v). Proof. unfold ecomm_encode. grow. Qed.
Local Hint Resolve g_comm_encode g_lcomm_encode g_ecomm_encode : grow.
Lemma g_mpupdates_encode oc nh a : g (mpupdates_encode oc nh a).
Proof. unfold mpupdates_encode, mp_put_nexthop, v4rd_encode, v6rd_encode. grow. Qed.
Lemma g_mpwithdraws_encode oc a : g (mpwithdraws_encode oc a). Proof. unfold mpwithdraws_encode. grow. Qed.
Local Hint Resolve g_mpupdates_encode g_mpwithdraws_encode : grow.
Lemma g_nexthop_encode p a : g (nexthop_encode p a).
Proof. unfold nexthop_encode. apply up_len. intros l l' L. destruct a, (sp_mode p); grow. Qed.
Local Hint Resolve g_nexthop_encode : grow.
Lemma g_attr_put oc p a : g (attr_put oc p a).
Proof.
  unfold attr_put, origin_encode, aspath_encode, u32_encode, aggregator_encode, community_encode, originator_encode, connector_encode.
  destruct a; solve [grow].
Qed.
Local Hint Resolve g_attr_put : grow.
Lemma g_attr_encode oc p a : g (attr_encode oc p a).
Proof. unfold attr_encode. destruct (attr_params a). grow. Qed.
Local Hint Resolve g_attr_encode : grow.
Lemma g_upd_nlri oc p a e : upd_nlri_encode oc p a = Some e -> g e.
Proof.
  unfold upd_nlri_encode. destruct (sp_mode p), a; intros E; try discriminate;
    match type of E with Some ?x = _ => assert (e = x) as -> by congruence end; grow.
Qed.
Lemma g_upd_attrs oc p v : forall a c, g (upd_attrs_encode oc p v a c).
Proof. induction v; intros; cbn [upd_attrs_encode]; grow. Qed.
Local Hint Resolve g_upd_attrs : grow.
Lemma g_update_encode oc p m : g (update_encode oc p m).
Proof.
  unfold update_encode, upd_withdraws.
  destruct (upd_nlri_encode oc p (u_withdraws m)) eqn:E1; [apply g_upd_nlri in E1|];
  (destruct (upd_nlri_encode oc p (u_updates m)) eqn:E2; [apply g_upd_nlri in E2|]); grow.
Qed.
Lemma g_open_caps v : forall c, g (open_fill_caps v c).
Proof. induction v; intros; cbn [open_fill_caps]; grow. Qed.
Local Hint Resolve g_update_encode g_open_caps : grow.
Lemma up_probe {A} k er (m : Enc A) : (1 <= k)%nat -> g m ->
  g (len <~ elen ;; if Nat.ltb len k then eerr er else on_eslice 1 len (eret tt) ;;; m).
Proof.
  intros K H. assert (P : forall b, (1 <= length b)%nat -> on_eslice 1 (length b) (eret tt) b = Ok (tt, b)).
  { intros b L. unfold on_eslice, eret. rewrite Nat.leb_refl. destruct (Nat.leb_spec 1 (length b)); [|lia]. cbn [andb].
    now rewrite sub_end, skipn_all, app_nil_r, firstn_skipn. }
  intros buf r x b E. unfold ebind, elen in *. rewrite app_length.
  destruct (Nat.ltb_spec (length buf) k); [discriminate|]. destruct (Nat.ltb_spec (length buf + length r) k); [lia|].
  rewrite P in E by lia. rewrite <- app_length, P by (rewrite app_length; lia). now apply H.
Qed.
Lemma g_open_encode m : g (open_encode m).
Proof. unfold open_encode. apply up_probe; [repeat constructor|]. grow. Qed.
Lemma g_notif_encode m : g (notif_encode m). Proof. unfold notif_encode. grow. Qed.
Local Hint Resolve g_open_encode g_notif_encode : grow.
Lemma g_message_encode oc p m : g (message_encode oc p m). Proof. unfold message_encode. grow. Qed.
Lemma g_prepare oc t n : g (prepare_message_buf oc t n). Proof. unfold prepare_message_buf. grow. Qed.
Local Hint Resolve g_message_encode g_prepare : grow.
Lemma g_front n : g (fun buf => s <- rslice buf 0 n ;; Ok (s, buf)).
Proof.
  intros buf r x b E. exists r. split; [apply Zr|]. unfold rslice in *. rewrite app_length. cbn [Nat.leb andb] in *.
  destruct (Nat.leb_spec n (length buf)) as [L|]; [|discriminate]. destruct (Nat.leb_spec n (length buf + length r)); [|lia].
  cbn [bind] in *. rewrite sub_more by exact L. congruence.
Qed.
Lemma g_front' n : g (fun buf => match rslice buf 0 n with Ok s => Ok (s, buf) | Err e => Err e | Panic => Panic | OutOfFuel => OutOfFuel end).
Proof. exact (g_front n). Qed.
Local Hint Resolve g_front g_front' : grow.
Lemma g_send_message oc p m : g (send_message oc p m).
Proof. unfold send_message. apply up_bind; [assumption|grow|intros]. apply up_bind; [assumption|grow|intros]. apply g_front. Qed.
Lemma g_send_message_buf oc t n : g (send_message_buf oc t n).
Proof.
  unfold send_message_buf. apply up_len; intros l l' L. apply up_ltb; [exact L|].
  repeat (apply up_bind; [assumption|solve [grow]|intros]). apply g_front'.
Qed.
Lemma g_mac m : forall i j, g (on_slice i j (mac_write_to_network_bytes m)). Proof. intros. grow. Qed.
Lemma g_fill_entries {T} k (en : T -> Enc unit) v : forall c, g (fill_entries k en v c).
Proof. induction v; intros; cbn [fill_entries]; grow. Qed.
Local Hint Resolve g_fill_entries : grow.
Lemma g_fill_buffer c : cap_literal c = false -> g (fill_buffer c).
Proof. intros H. unfold fill_buffer. destruct c; try discriminate H; grow. Qed.
Lemma g_gr c : g (gr_encode c). Proof. unfold gr_encode. grow. Qed.
Lemma g_llgr c : g (llgr_encode c). Proof. unfold llgr_encode. grow. Qed.
Lemma g_ap c : g (ap_encode c). Proof. unfold ap_encode. grow. Qed.

(** BMP: an IPv4 address clears the rest *)
Definition okv4 (b : bool) : Prop := b = true -> forall r, Z r (repeat 0 (length r)).
Lemma up_zero : (forall r, Z r (repeat 0 (length r))) -> g zero_all.
Proof.
  intros Z0 buf r x b E. exists (repeat 0 (length r)). split; [apply Z0|].
  unfold zero_all in *. rewrite app_length, repeat_app. congruence.
Qed.
Lemma g_bmp_addr a : okv4 (is_v4 a) -> g (bmp_addr_encode a).
Proof.
  intros H. unfold bmp_addr_encode. apply up_len; intros l l' L. apply up_ltb; [exact L|]. destruct a; [|grow].
  apply up_bind; [assumption| |intros; grow]. apply up_zero. now apply H.
Qed.
Local Hint Resolve g_bmp_addr : grow.
Lemma g_peerhdr h : okv4 (is_v4 (ph_addr h)) -> g (peerhdr_encode h). Proof. intros H. unfold peerhdr_encode. grow. Qed.
Local Hint Resolve g_peerhdr : grow.
Lemma g_infoval t i : g (infoval_encode t i). Proof. unfold infoval_encode. grow. Qed.
Local Hint Resolve g_infoval : grow.
Lemma g_bgp_put oc t e c : g e -> g (bgp_put oc t e c). Proof. intros H. unfold bgp_put. grow. Qed.
Local Hint Resolve g_bgp_put : grow.
Lemma g_bmphdr h : g (bmphdr_encode h). Proof. unfold bmphdr_encode. grow. Qed.
Lemma g_init m : g (init_encode m). Proof. unfold init_encode, init_field. grow. Qed.
Lemma g_term m : g (term_encode m). Proof. unfold term_encode. grow. Qed.
Lemma g_rmon oc m : okv4 (is_v4 (ph_addr (rm_peer m))) -> g (rmon_encode oc m). Proof. intros H. unfold rmon_encode. grow. Qed.
Lemma g_peerup oc m : okv4 (is_v4 (ph_addr (pu_peer m))) -> okv4 (is_v4 (pu_local m)) -> g (peerup_encode oc m).
Proof. intros H H'. unfold peerup_encode. grow. Qed.
Lemma g_peerdown oc m : okv4 (is_v4 (ph_addr (pd_peer m))) -> g (peerdown_encode oc m). Proof. intros H. unfold peerdown_encode. grow. Qed.
Local Hint Resolve g_init g_term g_rmon g_peerup g_peerdown : grow.
Lemma g_bmp oc m : okv4 (bmp_clears m) -> g (bmp_encode oc m).
Proof.
  intros H. unfold bmp_encode. destruct m; cbn [bmp_clears] in H; try solve [grow].
  assert (okv4 (is_v4 (ph_addr (pu_peer m))) /\ okv4 (is_v4 (pu_local m))) as [H1 H2].
  { split; intros E; apply H; rewrite E; [reflexivity|apply orb_true_r]. }
  grow.
Qed.
End Encoders.

(** Where the rest is certainly cleared. *)
Definition Zc (r r' : list N) : Prop := r' = repeat 0 (length r).
Definition Za (r r' : list N) : Prop := r' = r \/ r' = repeat 0 (length r).
Lemma Za_refl r : Za r r. Proof. now left. Qed.
Lemma Za_trans a b c : Za a b -> Za b c -> Za a c.
Proof. unfold Za. intros [ -> | -> ] [ -> | -> ]; rewrite ?repeat_length; auto. Qed.
Lemma Za_zero b : okv4 Za b. Proof. intros _ r. now right. Qed.
Lemma up_cleared {A B} (m m' : Enc A) (f f' : A -> Enc B) : up Zc m m' -> (forall a, up Za (f a) (f' a)) -> up Zc (ebind m f) (ebind m' f').
Proof.
  intros H1 H2 buf r x b E. unfold ebind in *. destruct (m buf) as [[a b1]| | |] eqn:E1; try discriminate.
  destruct (H1 _ r _ _ E1) as (r1 & Z1 & E1'). rewrite E1'. destruct (H2 a _ r1 _ _ E) as (r2 & Z2 & E2').
  exists r2. split; [|exact E2']. unfold Zc, Za in *. subst r1. destruct Z2 as [ -> | -> ]; [reflexivity|now rewrite repeat_length].
Qed.
Lemma up_clears {A B} (m m' : Enc A) (f f' : A -> Enc B) : up Za m m' -> (forall a, up Zc (f a) (f' a)) -> up Zc (ebind m f) (ebind m' f').
Proof.
  intros H1 H2 buf r x b E. unfold ebind in *. destruct (m buf) as [[a b1]| | |] eqn:E1; try discriminate.
  destruct (H1 _ r _ _ E1) as (r1 & Z1 & E1'). rewrite E1'. destruct (H2 a _ r1 _ _ E) as (r2 & Z2 & E2').
  exists r2. split; [|exact E2']. unfold Zc, Za in *. subst r2. destruct Z1 as [ -> | -> ]; [reflexivity|now rewrite repeat_length].
Qed.
Ltac za := try exact Za_refl; try exact Za_trans; try apply Za_zero.
Lemma c_bmp_addr a : is_v4 a = true -> up Zc (bmp_addr_encode a) (bmp_addr_encode a).
Proof.
  intros H. unfold bmp_addr_encode. apply up_len; intros l l' L. apply up_ltb; [exact L|]. destruct a; [|discriminate].
  apply up_cleared.
  - intros buf r x b E. exists (repeat 0 (length r)). split; [reflexivity|].
    unfold zero_all in *. rewrite app_length, repeat_app. congruence.
  - intros _. pose proof Za_refl. pose proof Za_trans. apply up_bind; [assumption| |intros; grow].
    apply up_from. apply g_encode_addrv4_to; za.
Qed.

Lemma c_peerhdr h : is_v4 (ph_addr h) = true -> up Zc (peerhdr_encode h) (peerhdr_encode h).
Proof.
  intros H. unfold peerhdr_encode. apply up_len; intros l l' L. apply up_ltb; [exact L|].
  apply up_clears; [apply up_set; za|intros]. apply up_clears; [apply up_set; za|intros].
  apply up_clears; [apply up_from, g_encode_rd_to; za|intros].
  apply up_cleared; [apply up_from; now apply c_bmp_addr|intros].
  apply up_bind; [za|apply up_from, g_setn_u32; za|intros]. apply up_bind; [za|apply up_from, g_encode_addrv4_to; za|intros].
  apply up_bind; [za|apply up_from, g_setn_u64; za|intros]. apply up_ret; za.
Qed.
Lemma c_put code (e : Enc nat) : up Zc e e ->
  up Zc (set_idx 0 code ;;; n <~ on_from 1 e ;; eret (1 + n)%nat) (set_idx 0 code ;;; n <~ on_from 1 e ;; eret (1 + n)%nat).
Proof.
  intros H. apply up_clears; [apply up_set; za|intros]. apply up_cleared; [now apply up_from|intros]. apply up_ret; za.
Qed.
Lemma c_rmon oc m : is_v4 (ph_addr (rm_peer m)) = true -> up Zc (rmon_encode oc m) (rmon_encode oc m).
Proof.
  intros H. unfold rmon_encode. apply up_len; intros l l' L. apply up_ltb; [exact L|].
  apply up_cleared; [now apply c_peerhdr|intros]. apply g_bgp_put; za. apply g_update_encode; za.
Qed.
Lemma c_peerdown oc m : is_v4 (ph_addr (pd_peer m)) = true -> up Zc (peerdown_encode oc m) (peerdown_encode oc m).
Proof.
  intros H. unfold peerdown_encode. apply up_len; intros l l' L. apply up_ltb; [exact L|].
  apply up_cleared; [now apply c_peerhdr|intros]. pose proof Za_refl. pose proof Za_trans.
  pose proof (g_notif_encode Za Za_refl Za_trans). pose proof (g_bgp_put Za Za_refl Za_trans). pose proof (g_setn_u16 Za Za_refl Za_trans).
  cbv zeta. destruct (pd_reason m); grow.
Qed.
Lemma c_peerup oc m : is_v4 (ph_addr (pu_peer m)) || is_v4 (pu_local m) = true -> up Zc (peerup_encode oc m) (peerup_encode oc m).
Proof.
  intros H. unfold peerup_encode. apply up_len; intros l l' L. apply up_ltb; [exact L|].
  pose proof Za_refl. pose proof Za_trans. pose proof (g_open_encode Za Za_refl Za_trans).
  pose proof (g_bgp_put Za Za_refl Za_trans). pose proof (g_setn_u16 Za Za_refl Za_trans).
  pose proof (fun a => g_bmp_addr Za Za_refl Za_trans a (Za_zero _)).
  destruct (is_v4 (ph_addr (pu_peer m))) eqn:E1; cbn [orb] in H.
  - apply up_cleared; [now apply c_peerhdr|intros]. grow.
  - apply up_clears; [apply g_peerhdr; za|intros]. apply up_cleared; [apply up_from; now apply c_bmp_addr|intros]. grow.
Qed.
Lemma c_bmp oc m : bmp_clears m = true -> up Zc (bmp_encode oc m) (bmp_encode oc m).
Proof.
  intros H. unfold bmp_encode. apply up_len; intros l l' L. apply up_eqb0; [exact L|]. cbv zeta.
  destruct m; try discriminate H; cbn [bmp_clears] in H; apply c_put; [now apply c_rmon|now apply c_peerdown|now apply c_peerup].
Qed.

(** ** The statements *)
Lemma up_same {A} (e : Enc A) : up eq e e -> same_in_larger e.
Proof. intros H buf r x b E. destruct (H buf r x b E) as (r' & <- & E'). exact E'. Qed.
Lemma l_addrs oc a : same_in_larger (addrs_encode oc a).
Proof. apply up_same, g_addrs_encode; [reflexivity|apply eq_trans]. Qed.
Lemma l_attr oc p a : same_in_larger (attr_encode oc p a).
Proof. apply up_same, g_attr_encode; [reflexivity|apply eq_trans]. Qed.
Lemma l_message oc p m : same_in_larger (message_encode oc p m).
Proof. apply up_same, g_message_encode; [reflexivity|apply eq_trans]. Qed.
Lemma l_send oc p m : same_in_larger (send_message oc p m).
Proof. apply up_same, g_send_message; [reflexivity|apply eq_trans]. Qed.
Lemma l_sendbuf oc t n : same_in_larger (send_message_buf oc t n) /\ same_in_larger (prepare_message_buf oc t n).
Proof. split; apply up_same; [apply g_send_message_buf|apply g_prepare]; try reflexivity; apply eq_trans. Qed.
Lemma l_cap c : cap_literal c = false -> same_in_larger (fill_buffer c).
Proof. intros H. apply up_same, g_fill_buffer; [reflexivity|apply eq_trans|exact H]. Qed.
Lemma l_cap_literal c : cap_literal c = true -> forall buf x buf', fill_buffer c buf = Ok (x, buf') ->
  forall more, more <> [] -> fill_buffer c (buf ++ more) = Panic.
Proof.
  intros H buf x b E more Hm. unfold fill_buffer, ebind, elen in *. destruct (Nat.ltb_spec (length buf) (bytes_len c)); [discriminate|].
  rewrite app_length. destruct (Nat.ltb_spec (length buf + length more) (bytes_len c)); [lia|].
  assert (0 < length more)%nat by (destruct more; [congruence|cbn [length]; lia]).
  destruct c; try discriminate H; unfold clone_from_slice in *; rewrite app_length;
    match type of E with (if Nat.eqb _ ?n then _ else _) = _ => destruct (Nat.eqb_spec (length buf) n); [|discriminate];
      destruct (Nat.eqb_spec (length buf + length more) n); [lia|reflexivity] end.
Qed.
Lemma l_bmp oc m buf n buf' : bmp_encode oc m buf = Ok (n, buf') ->
  forall more, bmp_encode oc m (buf ++ more) = Ok (n, buf' ++ if bmp_clears m then repeat 0 (length more) else more).
Proof.
  intros E more. destruct (bmp_clears m) eqn:C.
  - destruct (c_bmp oc m C _ more _ _ E) as (r & -> & E'). exact E'.
  - refine (up_same _ (g_bmp eq (fun r => eq_refl) (fun a b c => @eq_trans _ a b c) oc m _) _ _ _ _ E). intros X. congruence.
Qed.
