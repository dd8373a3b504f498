(** What of a session has an influence on what is read and written: proofs. *)
From Verif Require Import Base BaseFacts M_Util M_Prefix M_Nlri M_Vpls M_Mvpn M_Evpn M_Flowspec M_Addrs M_Attr M_Update M_Cap M_Open M_Session M_State M_Peer S_Hear.
Ltac Zify.zify_post_hook ::= idtac.

Lemma use_alike p p' afi sf buf : hear_alike p p' -> In (afi, sf) pid_families -> use_pathid p afi sf buf = use_pathid p' afi sf buf.
Proof.
  intros (_ & _ & H) I. destruct (H _ _ I) as [E1 E2]. unfold use_pathid. rewrite <- E1.
  destruct (check_addpath_receive p afi sf); [reflexivity|]. now rewrite E2.
Qed.
Lemma fam_alike {T} oc (ex : extractor T) w wp p p' afi sf buf : hear_alike p p' -> In (afi, sf) pid_families ->
  dec_fam oc ex w wp p afi sf buf = dec_fam oc ex w wp p' afi sf buf.
Proof. intros H I. unfold dec_fam. now rewrite (use_alike p p' afi sf buf H I). Qed.
Ltac fam H := apply (fam_alike _ _ _ _ _ _ _ _ _ H); unfold pid_families; cbn [In]; tauto.
Lemma addrs_alike oc p p' afi sf buf : hear_alike p p' -> addrs_decode oc p afi sf buf = addrs_decode oc p' afi sf buf.
Proof.
  intros H. unfold addrs_decode.
  destruct (N.eqb_spec afi 1) as [ -> |_];
  [repeat match goal with |- (if sf =? ?k then _ else _) = _ => destruct (N.eqb_spec sf k) as [ -> |_]; [first [reflexivity | fam H]|] end; reflexivity|].
  destruct (N.eqb_spec afi 2) as [ -> |_];
  [repeat match goal with |- (if sf =? ?k then _ else _) = _ => destruct (N.eqb_spec sf k) as [ -> |_]; [first [reflexivity | fam H]|] end; reflexivity|].
  reflexivity.
Qed.
Lemma mpu_alike oc p p' buf : hear_alike p p' -> mpupdates_decode oc p buf = mpupdates_decode oc p' buf.
Proof.
  intros H. unfold mpupdates_decode.
  repeat (match goal with |- bind ?m _ = bind ?m _ => destruct m as [?| | |]; try reflexivity; cbn [bind] end;
          repeat match goal with |- (let '(_, _) := ?x in _) = _ => destruct x end).
  now rewrite (addrs_alike oc p p' _ _ _ H).
Qed.
Lemma mpw_alike oc p p' buf : hear_alike p p' -> mpwithdraws_decode oc p buf = mpwithdraws_decode oc p' buf.
Proof.
  intros H. unfold mpwithdraws_decode.
  repeat (match goal with |- bind ?m _ = bind ?m _ => destruct m as [?| | |]; try reflexivity; cbn [bind] end).
  now rewrite (addrs_alike oc p p' _ _ _ H).
Qed.
Lemma attrset_loop_ext d d' : (forall tc fl n b, d tc fl n b = d' tc fl n b) -> forall fuel buf pos, attrset_loop d fuel buf pos = attrset_loop d' fuel buf pos.
Proof.
  intros H fuel. induction fuel as [|fuel IH]; intros buf pos; cbn [attrset_loop]; [reflexivity|].
  destruct (Nat.ltb pos (length buf)); [|reflexivity].
  destruct (idx buf pos) as [fl| | |]; try reflexivity; cbn [bind]. destruct (idx buf (pos + 1)) as [tc| | |]; try reflexivity; cbn [bind].
  match goal with |- bind ?m _ = bind ?m _ => destruct m as [[al c]| | |]; try reflexivity end. cbn [bind].
  destruct (Nat.ltb (length buf) (c + al)); [reflexivity|]. destruct (rslice buf c (c + al)) as [s| | |]; try reflexivity. cbn [bind].
  rewrite H. destruct (d' tc fl al s); try reflexivity. cbn [bind]. now rewrite IH.
Qed.
Lemma attr_n_alike oc p p' : hear_alike p p' -> forall fuel tc fl n buf, attr_decode_n fuel oc p tc fl n buf = attr_decode_n fuel oc p' tc fl n buf.
Proof.
  intros H fuel. induction fuel as [|fuel IH]; intros tc fl n buf; [reflexivity|]. cbn [attr_decode_n].
  rewrite (mpu_alike oc p p' buf H), (mpw_alike oc p p' buf H). destruct H as (Hm & Ha & _).
  unfold aspath_decode, nexthop_decode, originator_decode, cluster_decode, attrset_decode. rewrite Hm, Ha.
  now rewrite (attrset_loop_ext _ _ IH).
Qed.
Lemma attr_alike oc p p' tc fl n buf : hear_alike p p' -> attr_decode oc p tc fl n buf = attr_decode oc p' tc fl n buf.
Proof. intros H. unfold attr_decode. exact (attr_n_alike oc p p' H (S (length buf)) tc fl n buf). Qed.
Lemma nlri_alike oc p p' buf : hear_alike p p' -> upd_nlri_decode oc p buf = upd_nlri_decode oc p' buf.
Proof.
  intros H. unfold upd_nlri_decode. pose proof H as (Hm & _). rewrite Hm.
  rewrite (fam_alike oc v4_from_bits IPV4U IPV4UP p p' 1 1 buf H) by (unfold pid_families; cbn [In]; tauto).
  now rewrite (fam_alike oc v6_from_bits IPV6U IPV6UP p p' 2 1 buf H) by (unfold pid_families; cbn [In]; tauto).
Qed.
Lemma upd_attrs_alike oc p p' : hear_alike p p' -> forall fuel buf c e, upd_attrs fuel oc p buf c e = upd_attrs fuel oc p' buf c e.
Proof.
  intros H fuel. induction fuel as [|fuel IH]; intros buf pos e; cbn [upd_attrs]; [reflexivity|].
  destruct (Nat.ltb pos e); [|reflexivity].
  destruct (idx buf pos) as [fl| | |]; try reflexivity; cbn [bind]. destruct (idx buf (pos + 1)) as [tc| | |]; try reflexivity; cbn [bind].
  match goal with |- bind ?m _ = bind ?m _ => destruct m as [[al c]| | |]; try reflexivity end. cbn [bind].
  destruct (Nat.ltb e (c + al)); [reflexivity|]. destruct (eslice buf c (c + al)) as [s| | |]; try reflexivity. cbn [bind].
  rewrite (attr_alike oc p p' _ _ _ _ H). destruct (attr_decode oc p' tc fl al s); try reflexivity. cbn [bind]. now rewrite IH.
Qed.
Ltac same_head := match goal with |- bind ?m _ = bind ?m _ => destruct m as [?| | |]; try reflexivity; cbn [bind] end.
Lemma update_alike oc p p' m buf : hear_alike p p' -> update_decode oc p m buf = update_decode oc p' m buf.
Proof.
  intros H. unfold update_decode. same_head. same_head. match goal with |- (if ?c then _ else _) = _ => destruct c; [reflexivity|] end.
  same_head. rewrite (nlri_alike oc p p' _ H). same_head. same_head. same_head.
  match goal with |- (if ?c then _ else _) = _ => destruct c; [reflexivity|] end.
  rewrite (upd_attrs_alike oc p p' H). same_head. match goal with |- (let '(_, _) := ?x in _) = _ => destruct x end.
  same_head. now rewrite (nlri_alike oc p p' _ H).
Qed.
Lemma message_alike oc p p' t buf : hear_alike p p' -> message_decode oc p t buf = message_decode oc p' t buf.
Proof. intros H. destruct t; cbn [message_decode]; try reflexivity. now rewrite (update_alike oc p p' _ _ H). Qed.
Lemma lifecycle_alike oc p p' : hear_alike p p' -> forall fuel s, lifecycle oc fuel p s = lifecycle oc fuel p' s.
Proof.
  intros H fuel. induction fuel as [|fuel IH]; intros s; [reflexivity|]. cbn [lifecycle].
  destruct (recv_message_head oc s) as [[[t n] r]| | |]; try reflexivity.
  destruct (msgtype_eqb t MKeepalive); [apply IH|]. destruct (Nat.ltb (N.to_nat 65536) n); [reflexivity|].
  destruct (Nat.ltb (length r) n); [reflexivity|]. destruct t; try reflexivity; [|apply IH].
  rewrite (update_alike oc p p' _ _ H). destruct (update_decode oc p' update_new (firstn n r)); try reflexivity; now rewrite IH.
Qed.

(** ** The other direction *)
(** an UPDATE with one attribute [tc] with value [v] *)
Definition one_attr (tc : N) (v : list N) : list N := [0; 0; 0; 3 + N.of_nat (length v); 64; tc; N.of_nat (length v)] ++ v.
Lemma nlri_nil oc p : exists a, upd_nlri_decode oc p [] = Ok a.
Proof.
  unfold upd_nlri_decode, dec_fam, use_pathid. destruct (sp_mode p), (check_addpath_receive p _ _), (sp_fuzzy p); cbn; eauto.
Qed.
Lemma one_attr_reads oc p tc v : (length v < 100)%nat -> exists a b,
  update_decode oc p update_new (one_attr tc v) = (x <- attr_decode oc p tc 64 (length v) v ;; Ok (mkUpd a b [x])).
Proof.
  intros L. destruct (nlri_nil oc p) as [a Ea]. exists a, a. unfold update_decode.
  assert (Ll : length (one_attr tc v) = (7 + length v)%nat) by reflexivity.
  assert (E0 : eslice (one_attr tc v) 0 2 = Ok [0; 0]) by reflexivity.
  rewrite E0. cbn [bind]. change (getn_u16 [0; 0]) with (Ok 0). cbn [bind]. cbv zeta. change (2 + N.to_nat 0)%nat with 2%nat.
  rewrite Ll. destruct (Nat.leb_spec (7 + length v) 2) as [X|_]; [lia|].
  change (eslice (one_attr tc v) 2 2) with (@Ok (list N) []). cbn [bind]. rewrite Ea. cbn [bind].
  change (eslice (one_attr tc v) 2 (2 + 2)) with (Ok [0; 3 + N.of_nat (length v)]). cbn [bind].
  change (getn_u16 [0; 3 + N.of_nat (length v)]) with (Ok (3 + N.of_nat (length v))). cbn [bind].
  replace (2 + 2 + N.to_nat (3 + N.of_nat (length v)))%nat with (7 + length v)%nat by lia.
  rewrite Nat.ltb_irrefl. change (2 + 2)%nat with 4%nat. cbn [Nat.add].
  assert (U : forall f, upd_attrs (S (S f)) oc p (one_attr tc v) 4 (7 + length v) = (x <- attr_decode oc p tc 64 (length v) v ;; Ok ([x], (7 + length v)%nat))).
  { intros f. cbn [upd_attrs]. destruct (Nat.ltb_spec 4 (7 + length v)) as [_|X]; [|lia].
    change (idx (one_attr tc v) 4) with (Ok 64). cbn [bind]. change (idx (one_attr tc v) (4 + 1)) with (Ok tc). cbn [bind].
    change (0 <? N.land 64 16) with false. cbv iota. change (idx (one_attr tc v) (4 + 3 - 1)) with (Ok (N.of_nat (length v))). cbn [bind].
    rewrite Nat2N.id. change (4 + 3)%nat with 7%nat. rewrite Nat.ltb_irrefl.
    assert (Es : eslice (one_attr tc v) 7 (7 + length v) = Ok v).
    { unfold eslice. rewrite Ll, Nat.leb_refl. destruct (Nat.leb_spec 7 (7 + length v)) as [_|X]; [|lia]. cbn [andb]. unfold sub.
      change (skipn 7 (one_attr tc v)) with v. replace (7 + length v - 7)%nat with (length v) by lia. now rewrite firstn_all. }
    rewrite Es. cbn [bind]. destruct (attr_decode oc p tc 64 (length v) v) as [x| | |]; try reflexivity; cbn [bind];
    rewrite Nat.ltb_irrefl; reflexivity. }
  cbn [Nat.add] in U. rewrite U. destruct (attr_decode oc p tc 64 (length v) v) as [x| | |]; try reflexivity. cbn [bind].
  assert (Es : eslice (one_attr tc v) (S (S (S (S (S (S (S (length v)))))))) (S (S (S (S (S (S (S (length v)))))))) = Ok []).
  { unfold eslice. rewrite Ll, Nat.leb_refl. cbn [Nat.add]. rewrite Nat.leb_refl. cbn [andb]. unfold sub. now rewrite Nat.sub_diag. }
  rewrite Es. cbn [bind]. rewrite Ea. reflexivity.
Qed.
Lemma one_attr_alike oc p p' tc v : (length v < 100)%nat ->
  update_decode oc p update_new (one_attr tc v) = update_decode oc p' update_new (one_attr tc v) ->
  attr_decode oc p tc 64 (length v) v = attr_decode oc p' tc 64 (length v) v.
Proof.
  intros L E. destruct (one_attr_reads oc p tc v L) as (a & b & E1). destruct (one_attr_reads oc p' tc v L) as (a' & b' & E2).
  rewrite E1, E2 in E. destruct (attr_decode oc p tc 64 (length v) v), (attr_decode oc p' tc 64 (length v) v); cbn [bind] in E; congruence.
Qed.
(** a route with a path identifier which begins with two zeros *)
Definition pid_witness (afi sf : N) : list N :=
  if sf =? 66 then (if afi =? 1 then [0; 0; 0; 1; 96] ++ repeat 0 12 else [0; 0; 0; 1; 192] ++ repeat 0 24)
  else if 128 <=? sf then [0; 0; 0; 1; 88; 0; 0; 17] ++ repeat 0 8 else [0; 0; 0; 1; 0].
Definition has_pids (r : res attr) : bool :=
  match r with
  | Ok (AMPWithdraws (IPV4UP _ | IPV4MP _ | IPV4LUP _ | IPV4MDTP _ | VPNV4UP _ | VPNV4MP _ | IPV6UP _ | IPV6MP _ | IPV6LUP _ | IPV6MDTP _ | VPNV6UP _ | VPNV6MP _)) => true
  | _ => false
  end.
Ltac each I := repeat (destruct I as [I|I]; [injection I as <- <-|]); [..|destruct I].
Lemma withdraws_of oc p n afi sf w : attr_decode oc p 15 64 n (0 :: afi :: sf :: w) = ('(a, _) <- addrs_decode oc p afi sf w ;; Ok (AMPWithdraws a)).
Proof.
  unfold attr_decode. cbn [attr_decode_n N.eqb Pos.eqb]. unfold mpwithdraws_decode.
  change (getn_u16 (0 :: afi :: sf :: w)) with (Ok (N.lor (N.shiftl 0 8) afi)). rewrite N.shiftl_0_l, N.lor_0_l. cbn [bind].
  change (idx (0 :: afi :: sf :: w) 2) with (Ok sf). cbn [bind].
  change (rfrom (0 :: afi :: sf :: w) 3) with (Ok w). cbn [bind]. destruct (addrs_decode oc p afi sf w) as [[a k]| | |]; reflexivity.
Qed.
Lemma pid_fam {T} oc (ex : extractor T) w wp p afi sf buf (r f : bool) : check_addpath_receive p afi sf = r -> sp_fuzzy p = f ->
  dec_fam oc ex w wp p afi sf buf =
    if (r || (f && is_addpath_nlri buf))%bool then '(v, n) <- decode_pathid_bgpitems_from oc ex buf ;; Ok (wp v, n)
    else '(v, n) <- decode_bgpitems_from oc ex buf ;; Ok (w v, n).
Proof. intros <- <-. reflexivity. Qed.
Lemma some_pids oc p afi sf : In (afi, sf) pid_families ->
  has_pids ('(a, _) <- addrs_decode oc p afi sf [] ;; Ok (AMPWithdraws a)) = check_addpath_receive p afi sf /\
  has_pids ('(a, _) <- addrs_decode oc p afi sf (pid_witness afi sf) ;; Ok (AMPWithdraws a)) = check_addpath_receive p afi sf || sp_fuzzy p.
Proof.
  intros I. unfold pid_families in I. cbn [In] in I.
  each I; unfold addrs_decode; cbn [N.eqb Pos.eqb];
    (match goal with |- context [check_addpath_receive p ?a ?b] => destruct (check_addpath_receive p a b) eqn:R; destruct (sp_fuzzy p) eqn:F end);
    rewrite !(pid_fam _ _ _ _ _ _ _ _ _ _ R F); clear R F; destruct oc; split; vm_compute; reflexivity.
Qed.
Lemma empty_pids oc p afi sf : In (afi, sf) pid_families -> has_pids (attr_decode oc p 15 64 3 [0; afi; sf]) = check_addpath_receive p afi sf.
Proof. intros I. rewrite withdraws_of. now apply some_pids. Qed.
Lemma guessed_pids oc p afi sf : In (afi, sf) pid_families ->
  has_pids (attr_decode oc p 15 64 (3 + length (pid_witness afi sf)) ([0; afi; sf] ++ pid_witness afi sf)) = check_addpath_receive p afi sf || sp_fuzzy p.
Proof. intros I. cbn [app]. rewrite withdraws_of. now apply some_pids. Qed.
Lemma alike_update oc p p' : (forall buf, update_decode oc p update_new buf = update_decode oc p' update_new buf) -> hear_alike p p'.
Proof.
  intros H. split; [|split].
  - pose proof (one_attr_alike oc p p' 3 [10; 0; 0; 1] ltac:(cbn; lia) (H _)) as E.
    unfold attr_decode in E. cbn [length] in E. cbn [attr_decode_n N.eqb Pos.eqb] in E. unfold nexthop_decode in E.
    destruct (sp_mode p), (sp_mode p'); try reflexivity; vm_compute in E; discriminate.
  - pose proof (one_attr_alike oc p p' 2 [2; 2; 0; 1; 0; 2] ltac:(cbn; lia) (H _)) as E.
    unfold attr_decode in E. cbn [length] in E. cbn [attr_decode_n N.eqb Pos.eqb] in E. unfold aspath_decode in E.
    destruct (sp_as32 p), (sp_as32 p'); try reflexivity; vm_compute in E; discriminate.
  - intros afi sf I. pose proof (empty_pids oc p afi sf I) as P1. pose proof (empty_pids oc p' afi sf I) as P2.
    pose proof (guessed_pids oc p afi sf I) as P3. pose proof (guessed_pids oc p' afi sf I) as P4.
    pose proof (one_attr_alike oc p p' 15 [0; afi; sf] ltac:(cbn; lia) (H _)) as E0. cbn [length] in E0. rewrite E0 in P1.
    assert (L : (length (pid_witness afi sf) < 97)%nat) by (unfold pid_witness; destruct (sf =? 66), (afi =? 1), (128 <=? sf); cbn; lia).
    pose proof (one_attr_alike oc p p' 15 ([0; afi; sf] ++ pid_witness afi sf) ltac:(rewrite app_length; cbn [length]; lia) (H _)) as E.
    rewrite app_length in E. cbn [length] in E. rewrite E in P3. split; [congruence|].
    intros Z. rewrite P4 in P3. rewrite Z in P3. assert (Z' : check_addpath_receive p' afi sf = false) by congruence.
    rewrite Z' in P3. cbn [orb] in P3. congruence.
Qed.
Lemma hear_exactly oc p p' : (forall buf, update_decode oc p update_new buf = update_decode oc p' update_new buf) <-> hear_alike p p'.
Proof. split; [apply alike_update|]. intros H buf. now apply update_alike. Qed.

(** ** Writing *)
Lemma attr_speak oc p p' a : speak_alike p p' -> attr_encode oc p a = attr_encode oc p' a.
Proof.
  intros (Hm & Ha). unfold attr_encode. replace (attr_put oc p' a) with (attr_put oc p a); [reflexivity|].
  unfold attr_put, aspath_encode, nexthop_encode, aggregator_encode, originator_encode. now rewrite Hm, Ha.
Qed.
Lemma attrs_speak oc p p' v : speak_alike p p' -> forall a c buf, upd_attrs_encode oc p v a c buf = upd_attrs_encode oc p' v a c buf.
Proof.
  intros H. induction v as [|x v IH]; intros a c buf; cbn [upd_attrs_encode]; [reflexivity|].
  destruct (65535 <? N.of_nat (c - a)); [reflexivity|]. rewrite (attr_speak oc p p' x H).
  unfold ebind. destruct (on_tail c (attr_encode oc p' x) buf) as [[n b]| | |]; try reflexivity. apply IH.
Qed.
Lemma update_speak oc p p' m buf : speak_alike p p' -> update_encode oc p m buf = update_encode oc p' m buf.
Proof.
  intros H. assert (E : forall a, upd_nlri_encode oc p a = upd_nlri_encode oc p' a) by (intros a; unfold upd_nlri_encode; now rewrite (proj1 H)).
  unfold update_encode, upd_withdraws. rewrite !E. unfold ebind at 1. symmetry. unfold ebind at 1. symmetry.
  match goal with |- match ?m with _ => _ end = _ => destruct m as [[n b]| | |]; try reflexivity end.
  unfold ebind at 1. symmetry. unfold ebind at 1. symmetry. now rewrite (attrs_speak oc p p' _ H).
Qed.
Lemma message_speak oc p p' m buf : speak_alike p p' -> message_encode oc p m buf = message_encode oc p' m buf.
Proof. intros H. destruct m; cbn [message_encode]; try reflexivity. now apply update_speak. Qed.
Lemma send_speak oc p p' m buf : speak_alike p p' -> send_message oc p m buf = send_message oc p' m buf.
Proof.
  intros H. unfold send_message. unfold ebind at 1. symmetry. unfold ebind at 1. symmetry.
  unfold on_from. destruct (Nat.leb 19 (length buf)); [|reflexivity]. now rewrite (message_speak oc p p' _ _ H).
Qed.
Lemma speak_exactly oc p p' : (forall m buf, update_encode oc p m buf = update_encode oc p' m buf) <-> speak_alike p p'.
Proof.
  split; [|intros H m buf; now apply update_speak]. intros H. split.
  - specialize (H (mkUpd (IPV4U [mkV4 0 0]) ANone []) (repeat 0 9)). unfold update_encode, upd_withdraws, upd_nlri_encode in H.
    cbn [u_updates u_withdraws u_attrs] in H. destruct (sp_mode p), (sp_mode p'); try reflexivity; vm_compute in H; discriminate.
  - specialize (H (mkUpd ANone ANone [AASPath [1]]) (repeat 0 20)). unfold update_encode, upd_withdraws, upd_nlri_encode in H.
    cbn [u_updates u_withdraws u_attrs upd_attrs_encode] in H. unfold attr_encode, attr_put, aspath_encode in H.
    destruct (sp_mode p), (sp_mode p'), (sp_as32 p), (sp_as32 p'); try reflexivity; vm_compute in H; discriminate.
Qed.
Lemma addpath_speak oc p m buf : message_encode oc (remove_capability_addpath p) m buf = message_encode oc p m buf.
Proof. apply message_speak. split; reflexivity. Qed.
