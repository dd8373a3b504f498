(** C82 to C84: texts that identify what is printed. *)
From Coq Require Import Ascii String.
From Verif Require Import Base BaseFacts M_Util S_Wire M_Prefix S_Prefix M_Nlri S_Nlri M_Vpls M_Session M_Evpn S_Evpn M_Mvpn S_Mvpn M_Attr S_Attr M_Flowspec
  M_Text S_Text M_Text2 S_Text2 F_Text3 F_Text4 F_Text5.

(** C82. Different errors have different texts. *)
Theorem C82_injective : forall c s c' s', error_text c s = error_text c' s' -> c = c' /\ s = s'.
Proof. exact error_text_inj. Qed.
Print Assumptions C82_injective.

(** The text begins with the name of the code, whatever the subcode ... *)
Theorem C82_code : forall c name, In (c, name) error_codes -> forall sub, names_code (error_text c sub) name.
Proof. exact error_code_named. Qed.
Print Assumptions C82_code.

(** ... and ends in the name of the subcode, for the first three codes. *)
Theorem C82_subcode : forall c s name, In (c, s, name) error_subcodes -> names_subcode (error_text c s) name.
Proof. exact error_sub_named. Qed.
Print Assumptions C82_subcode.

(** The subcodes of Cease are not named: only the number is shown. *)
Theorem C82_cease_refuted : forall s name, In (s, name) cease_subcodes -> ~ names_subcode (error_text 6 s) name.
Proof. exact cease_unnamed. Qed.
Print Assumptions C82_cease_refuted.

Theorem C82_cease : forall s, s <> 0 -> error_text 6 s = lit "Cease subcode " ++ fmt_dec s.
Proof. exact cease_text. Qed.
Print Assumptions C82_cease.

Example C82_ex : error_text 2 2 = lit "OPEN Message Error: Bad Peer AS" /\ error_text 3 12 = lit "Update Message Error:  subcode 12" /\
  error_text 6 2 = lit "Cease subcode 2" /\ error_text 4 0 = lit "Hold Timer Expired(0)" /\ error_text 9 1 = lit "Unknown code 9 subcode 1" /\
  names_subcode (error_text 2 2) "Bad Peer AS".
Proof.
  repeat (split; [vm_compute; reflexivity|]). apply C82_subcode. cbn. tauto.
Qed.

(** C83. Exactly which extended communities print alike. *)
Theorem C83_exact : forall x y, ecomm_wf x -> ecomm_wf y -> ecomm_fmt x = ecomm_fmt y <-> ec_alike x y.
Proof. exact ecomm_alike. Qed.
Print Assumptions C83_exact.

(** The three kinds of communities that cannot be told apart, for all values of what is not shown. *)
Theorem C83_encapsulation_refuted : forall a a' b, ecomm_fmt (mkEC 3 12 a b) = ecomm_fmt (mkEC 3 12 a' b).
Proof. reflexivity. Qed.
Print Assumptions C83_encapsulation_refuted.

Theorem C83_l2_refuted : forall a b b', b / 65536 = b' / 65536 -> ecomm_fmt (mkEC 6 4 a b) = ecomm_fmt (mkEC 6 4 a b').
Proof. exact l2_info_alike. Qed.
Print Assumptions C83_l2_refuted.

Theorem C83_import_refuted : forall a b, ecomm_fmt (mkEC 1 10 a b) = ecomm_fmt (mkEC 0x41 10 a b).
Proof. reflexivity. Qed.
Print Assumptions C83_import_refuted.

Example C83_ex : ecomm_fmt (mkEC 0 2 65000 100) = lit "ext-target:65000:100" /\ ecomm_fmt (mkEC 1 2 49320 65613) = lit "ext-target:192.168.0.1:77" /\
  ecomm_fmt (mkEC 2 2 1 100) = lit "ext-target:2:1:100" /\ ecomm_fmt (mkEC 3 12 0 8) = lit "encapsulation:0x8" /\
  ecomm_fmt (mkEC 6 4 2 98304000) = lit "evpn-l2-info:cf=2:mtu=1500" /\ ecomm_fmt (mkEC 0x80 6 0 17) = lit "ext-unknown:0x80:0x06:0x0:0x11" /\
  ~ ec_alike (mkEC 0 2 65000 100) (mkEC 0 2 65000 101).
Proof.
  repeat (split; [vm_compute; reflexivity|]).
  intros [E|[(E & _)|[(E & _)|(E & _)]]]; [discriminate E|discriminate E|discriminate E|]. cbn in E. intuition discriminate.
Qed.

(** C84. EVPN routes: the text determines the route, labels included. *)
Theorem C84_evpn : forall r r', ev_any r -> ev_any r' -> evpn_fmt r = evpn_fmt r' -> r = r'.
Proof. exact evpn_inj. Qed.
Print Assumptions C84_evpn.

Theorem C84_rd : forall r r', rd_wf r -> rd_wf r' -> rd_fmt r = rd_fmt r' -> r = r'.
Proof. exact rd_inj. Qed.
Print Assumptions C84_rd.

Theorem C84_labels : forall l l', labels_fmt l = labels_fmt l' -> l = l'.
Proof. exact labels_inj. Qed.
Print Assumptions C84_labels.

(** Prefixes with path identifier, labels and route distinguisher, each of which is left out of the text when it is absent. *)
Theorem C84_v4 : forall x y, withrd_wf v4_any (lab_prefix (pid_nlri x)) -> withrd_wf v4_any (lab_prefix (pid_nlri y)) ->
  withpid_fmt (labeled_fmt (withrd_fmt v4_fmt)) x = withpid_fmt (labeled_fmt (withrd_fmt v4_fmt)) y -> x = y.
Proof. exact v4_route. Qed.
Print Assumptions C84_v4.

Theorem C84_v6 : forall x y, withrd_wf v6_any (lab_prefix (pid_nlri x)) -> withrd_wf v6_any (lab_prefix (pid_nlri y)) ->
  withpid_fmt (labeled_fmt (withrd_fmt v6_fmt)) x = withpid_fmt (labeled_fmt (withrd_fmt v6_fmt)) y -> x = y.
Proof. exact v6_route. Qed.
Print Assumptions C84_v6.

Theorem C84_mac : forall x y, withrd_wf macp_any (lab_prefix (pid_nlri x)) -> withrd_wf macp_any (lab_prefix (pid_nlri y)) ->
  withpid_fmt (labeled_fmt (withrd_fmt macp_fmt)) x = withpid_fmt (labeled_fmt (withrd_fmt macp_fmt)) y -> x = y.
Proof. exact macp_route. Qed.
Print Assumptions C84_mac.

Theorem C84_mdt4 : forall x y, withrd_wf mdt4_any (lab_prefix (pid_nlri x)) -> withrd_wf mdt4_any (lab_prefix (pid_nlri y)) ->
  withpid_fmt (labeled_fmt (withrd_fmt mdt4_fmt)) x = withpid_fmt (labeled_fmt (withrd_fmt mdt4_fmt)) y -> x = y.
Proof. exact mdt4_route. Qed.
Print Assumptions C84_mdt4.

Theorem C84_mdt6 : forall x y, withrd_wf mdt6_any (lab_prefix (pid_nlri x)) -> withrd_wf mdt6_any (lab_prefix (pid_nlri y)) ->
  withpid_fmt (labeled_fmt (withrd_fmt mdt6_fmt)) x = withpid_fmt (labeled_fmt (withrd_fmt mdt6_fmt)) y -> x = y.
Proof. exact mdt6_route. Qed.
Print Assumptions C84_mdt6.

(** VPLS: everything but the labels. *)
Theorem C84_vpls : forall x y, rd_wf (l2a_rd x) -> rd_wf (l2a_rd y) ->
  l2a_fmt x = l2a_fmt y <-> (l2a_rd x = l2a_rd y /\ l2a_site x = l2a_site y /\ l2a_offset x = l2a_offset y /\ l2a_range x = l2a_range y).
Proof. exact l2a_text. Qed.
Print Assumptions C84_vpls.

(** MVPN routes: those with one address, and those with IPv4 addresses. Missing: types 3 to 7 with IPv6 addresses ... *)
Theorem C84_mvpn_partial : forall r r', mv_plain r -> mv_plain r' -> mvpn_fmt r = mvpn_fmt r' -> r = r'.
Proof. exact mvpn_inj. Qed.
Print Assumptions C84_mvpn_partial.

(** ... which are joined by colons: [a::b:x] and [c::d] print like [a::b] and [x:c::d]. *)
Theorem C84_mvpn_refuted : forall rd a b x c d, group a -> group b -> group x -> group c -> group d ->
  let s := IPv6 (ip6_groups [a; 0; 0; 0; 0; 0; b; x]) in
  let g := IPv6 (ip6_groups [c; 0; 0; 0; 0; 0; 0; d]) in
  let s' := IPv6 (ip6_groups [a; 0; 0; 0; 0; 0; 0; b]) in
  let g' := IPv6 (ip6_groups [x; c; 0; 0; 0; 0; 0; d]) in
  s <> s' /\
  mvpn_fmt (MvT5 (mkMvpn5 rd s g)) = mvpn_fmt (MvT5 (mkMvpn5 rd s' g')) /\
  (forall o, mvpn_fmt (MvT3 (mkMvpn3 rd s g o)) = mvpn_fmt (MvT3 (mkMvpn3 rd s' g' o))) /\
  (forall o o', mvpn_fmt (MvT4 (mkMvpn4 (mkMvpn3 rd s g o) o')) = mvpn_fmt (MvT4 (mkMvpn4 (mkMvpn3 rd s' g' o) o'))) /\
  (forall n, mvpn_fmt (MvT6 (mkMvpn67 rd n s g)) = mvpn_fmt (MvT6 (mkMvpn67 rd n s' g'))) /\
  (forall n, mvpn_fmt (MvT7 (mkMvpn67 rd n s g)) = mvpn_fmt (MvT7 (mkMvpn67 rd n s' g'))).
Proof. exact mvpn_collide. Qed.
Print Assumptions C84_mvpn_refuted.

(** Next hops: an address with the route distinguisher 0:0 prints like the address alone; nothing else does. *)
Theorem C84_nexthop : forall a b, nh_any a -> nh_any b -> bgpaddr_fmt a = bgpaddr_fmt b <-> nh_plain a = nh_plain b.
Proof. exact nh_text. Qed.
Print Assumptions C84_nexthop.

(** PMSI tunnels: everything but the opaque value of an mLDP tunnel. *)
Theorem C84_pmsi : forall x y, pmsi_any x -> pmsi_any y -> pmsi_fmt x = pmsi_fmt y <-> no_opaque x = no_opaque y.
Proof. exact pmsi_alike. Qed.
Print Assumptions C84_pmsi.

(** FlowSpec operators. *)
Theorem C84_flowspec_value : forall x y, fsval_fmt x = fsval_fmt y -> x = y.
Proof. exact fsval_inj. Qed.
Print Assumptions C84_flowspec_value.

Theorem C84_flowspec_mask : forall x y, fsmask_fmt x = fsmask_fmt y -> x = y.
Proof. exact fsmask_inj. Qed.
Print Assumptions C84_flowspec_mask.

Example C84_ex :
  evpn_fmt (Ev2 (mkEvpn2 (mkRD 65000 1) 0 [0;0;0;0;0;0;0;0;0] 5 [6;5;4;3;2;1] (Some (IPv4 0x0a000001)) [100; 200])) =
    lit "2:65000:1::00000005::01:02:03:04:05:06::10.0.0.1 100,200" /\
  evpn_fmt (Ev5 (mkEvpn5 (mkRD 0x1c0a8 0x10007) 1 [0;0;0;0;0;0;0;0;9] 5 24 (IPv4 0x0a000000) (IPv4 0) [])) =
    lit "5:192.168.0.1:7:1:000000000000000009:5:10.0.0.0/24:0.0.0.0:" /\
  withpid_fmt (labeled_fmt (withrd_fmt v4_fmt)) (mkPid 7 (mkLab (mkWRD (mkV4 0x0a000000 8) (mkRD 1 2)) [16])) = lit "<pathid:7> <l:16> <rd:1:2> 10.0.0.0/8" /\
  mvpn_fmt (MvT5 (mkMvpn5 (mkRD 1 2) (IPv6 (ip6_groups [1; 0; 0; 0; 0; 0; 2; 3])) (IPv6 (ip6_groups [4; 0; 0; 0; 0; 0; 0; 5])))) = lit "5:1:2:1::2:3:4::5" /\
  bgpaddr_fmt (BAV4RD (mkRD 1 2) 0x0a000001) = lit "<1:2>10.0.0.1" /\
  fsval_fmt (mkFsVal true true false true 80) = lit "&&<= 80" /\
  ev_any (Ev3 (mkEvpn3 (mkRD 65000 1) 5 (IPv6 1))).
Proof.
  repeat (split; [vm_compute; reflexivity|]). split; [split; reflexivity|]. split; reflexivity.
Qed.
