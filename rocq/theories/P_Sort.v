(** The order of prefixes and routes: C112, C113. *)
From Verif Require Import Base M_Util M_Prefix M_Nlri M_Vpls M_Mvpn M_Evpn M_Flowspec M_Cap M_Open M_Session M_Addrs M_Attr
  M_Order S_Prefix S_Order S_Sort F_Order F_Sort.

(** ** C112: the prefixes a prefix covers form one run of the order *)

(** IPv4 and IPv6, also as [BgpNet]: [p] contains [q] exactly when [q] lies between [p] and the last address of [p]. *)
Theorem C112_run_partial : forall oc p, net_clean p -> net_kind p <> KMac -> exists last, last_covered oc p last /\
  forall q, net_clean q -> (net_contains oc p q = Ok true <-> upto onet p q /\ upto onet q last).
Proof. exact net_run. Qed.
Print Assumptions C112_run_partial.
Theorem C112_v4_run : forall oc p, v4_wf p -> normalised 32 (v4_len p) (v4_addr p) -> exists last, v4_range_last oc p = Ok last /\
  forall q, v4_wf q -> normalised 32 (v4_len q) (v4_addr q) ->
    (v4_contains oc p q = Ok true <-> upto ov4 p q /\ upto ov4 q (mkV4 last 32)).
Proof. exact v4_run. Qed.
Print Assumptions C112_v4_run.
Theorem C112_v6_run : forall oc p, v6_wf p -> normalised 128 (v6_len p) (v6_addr p) -> exists last, v6_range_last oc p = Ok last /\
  forall q, v6_wf q -> normalised 128 (v6_len q) (v6_addr q) ->
    (v6_contains oc p q = Ok true <-> upto ov6 p q /\ upto ov6 q (mkV6 last 128)).
Proof. exact v6_run. Qed.
Print Assumptions C112_v6_run.
(** 10.0.0.0/8, 10.0.0.0/16 and 10.255.255.255/32 in this order; 9.0.0.0/8 and 10.0.0.0/7 come before, 11.0.0.0/8 after. *)
Example C112_v4_run_ex : v4_range_last true (mkV4 0x0a000000 8) = Ok 0x0affffff /\
  upto ov4 (mkV4 0x0a000000 8) (mkV4 0x0a000000 16) /\ upto ov4 (mkV4 0x0a000000 16) (mkV4 0x0affffff 32) /\
  ~ upto ov4 (mkV4 0x0a000000 8) (mkV4 0x09000000 8) /\ ~ upto ov4 (mkV4 0x0a000000 8) (mkV4 0x0a000000 7) /\
  ~ upto ov4 (mkV4 0x0b000000 8) (mkV4 0x0affffff 32).
Proof.
  unfold upto. repeat split; try discriminate; try (intros H; now apply H).
Qed.

(** For MAC prefixes this fails, whatever the prefix (lengths 1 to 47): the least significant octet is compared first, and
    some address between the prefix and its last address is not covered. *)
Theorem C112_mac_run_refuted : forall oc p, macp_wf p -> normalised 48 (mc_len p) (mac_val (mc_addr p)) ->
  1 <= mc_len p -> mc_len p <= 47 ->
  exists last q, mac_range_last oc p = Ok last /\ macp_wf q /\ mc_len q = 48 /\
    upto omacpfx p q /\ upto omacpfx q (mkMac last 48) /\ mac_contains oc p q = Ok false.
Proof. exact mac_run_refuted. Qed.
Print Assumptions C112_mac_run_refuted.
(** 00:1b:00:00:00:00/16 and 80:00:00:00:00:01 *)
Example C112_mac_run_refuted_ex :
  let p := mkMac [0; 0; 0; 0; 27; 0] 16 in let q := mkMac [1; 0; 0; 0; 0; 128] 48 in
  mac_range_last true p = Ok [255; 255; 255; 255; 27; 0] /\ ocmp omacpfx p q = Lt /\
  ocmp omacpfx q (mkMac [255; 255; 255; 255; 27; 0] 48) = Lt /\ mac_contains true p q = Ok false.
Proof. repeat split. Qed.

(** It holds for the remaining lengths: of everything, and of a single address. *)
Theorem C112_mac_run_ends : forall oc p, macp_wf p -> normalised 48 (mc_len p) (mac_val (mc_addr p)) -> mc_len p = 0 \/ mc_len p = 48 ->
  exists last, mac_range_last oc p = Ok last /\
  forall q, macp_wf q -> normalised 48 (mc_len q) (mac_val (mc_addr q)) ->
    (mac_contains oc p q = Ok true <-> upto omacpfx p q /\ upto omacpfx q (mkMac last 48)).
Proof. exact mac_run_ends. Qed.
Print Assumptions C112_mac_run_ends.
(** 00:00:00:00:00:02/47 ends with 00:00:00:00:00:03; ff:00:00:00:00:02 lies between them. The empty prefix covers it. *)
Example C112_mac_47_ex :
  let p := mkMac [2; 0; 0; 0; 0; 0] 47 in let q := mkMac [2; 0; 0; 0; 0; 255] 48 in
  mac_range_last true p = Ok [3; 0; 0; 0; 0; 0] /\ ocmp omacpfx p q = Lt /\
  ocmp omacpfx q (mkMac [3; 0; 0; 0; 0; 0] 48) = Lt /\ mac_contains true p q = Ok false /\
  mac_contains true (mkMac [0; 0; 0; 0; 0; 0] 0) q = Ok true.
Proof. repeat split. Qed.

(** ** C113: routes are sorted by their fields *)

Theorem C113_prefixes : sorted_by ov4 v4_key any /\ sorted_by ov6 v6_key any /\ sorted_by onet net_key net_sized /\
  sorted_by ord_rd rd_key any /\ sorted_by omdt4 mdt4_key any /\ sorted_by omdt6 mdt6_key any.
Proof.
  exact (conj (keyed_sorted _ _ _ keyed_v4) (conj (keyed_sorted _ _ _ keyed_v6) (conj (keyed_sorted _ _ _ keyed_net)
    (conj (keyed_sorted _ _ _ keyed_rd) (conj (keyed_sorted _ _ _ keyed_mdt4) (keyed_sorted _ _ _ keyed_mdt6)))))).
Qed.
Print Assumptions C113_prefixes.
Theorem C113_vpn : sorted_by (owithpid (olabeled (owithrd ov4))) (pid_key (lab_key (wrd_key v4_key))) any /\
  sorted_by (owithpid (olabeled (owithrd ov6))) (pid_key (lab_key (wrd_key v6_key))) any.
Proof.
  exact (conj (keyed_sorted _ _ _ (keyed_withpid _ _ (keyed_labeled _ _ (keyed_withrd _ _ keyed_v4))))
    (keyed_sorted _ _ _ (keyed_withpid _ _ (keyed_labeled _ _ (keyed_withrd _ _ keyed_v6))))).
Qed.
Print Assumptions C113_vpn.
(** VPN routes of one prefix stay together whatever their RDs; of one RD they do not. *)
Example C113_vpn_ex :
  let r a rd := mkPid 0 (mkLab (mkWRD (mkV4 a 24) (mkRD 1 rd)) []) in
  let o := owithpid (olabeled (owithrd ov4)) in
  ocmp o (r 256 7) (r 256 9) = Lt /\ ocmp o (r 256 9) (r 512 7) = Lt /\
  pid_key (lab_key (wrd_key v4_key)) (r 256 7) = [256; 24; 1; 7; 0] /\ lex_lt [256; 24; 1; 9; 0] [512; 24; 1; 7; 0].
Proof. repeat split. left. now exists [], 256, 512, [24; 1; 9; 0], [24; 1; 7; 0]. Qed.
Theorem C113_vpls : sorted_by ol2a l2a_key any /\ sorted_by ol2 l2_key any /\ ord_laws ol2 (fun x => x) /\ partial_agrees ol2.
Proof. exact (conj (keyed_sorted _ _ _ keyed_l2a) (conj (keyed_sorted _ _ _ keyed_l2) (conj laws_l2 pa_l2))). Qed.
Print Assumptions C113_vpls.
Theorem C113_mvpn : sorted_by omvpn mvpn_key any.
Proof. exact (keyed_sorted _ _ _ keyed_mvpn). Qed.
Print Assumptions C113_mvpn.
Theorem C113_evpn : sorted_by oevpn evpn_key evpn_sized.
Proof. exact (keyed_sorted _ _ _ keyed_evpn). Qed.
Print Assumptions C113_evpn.
Theorem C113_flowspec : sorted_by (oflowspec ov4) (flowspec_key v4_key) any /\ sorted_by (oflowspec ofs6) (flowspec_key fs6_key) any /\
  sorted_by (oflowspec (owithrd ov4)) (flowspec_key (wrd_key v4_key)) any.
Proof.
  exact (conj (keyed_sorted _ _ _ (keyed_flowspec _ _ keyed_v4)) (conj (keyed_sorted _ _ _ (keyed_flowspec _ _ keyed_fs6))
    (keyed_sorted _ _ _ (keyed_flowspec _ _ (keyed_withrd _ _ keyed_v4))))).
Qed.
Print Assumptions C113_flowspec.
(** Whole NLRI lists. *)
Theorem C113_addrs : sorted_by oaddrs addrs_key addrs_sized.
Proof. exact (keyed_sorted _ _ _ keyed_addrs). Qed.
Print Assumptions C113_addrs.
Example C113_addrs_ex :
  let e t := Ev3 (mkEvpn3 (mkRD 1 2) t (IPv4 5)) in
  ocmp oaddrs (EVPN [e 1]) (EVPN [e 1; e 0]) = Lt /\ ocmp oaddrs (EVPN [e 2]) (EVPN [e 1; e 0]) = Gt /\ addrs_sized (EVPN [e 1; e 0]) /\
  addrs_key (EVPN [e 1]) = [17; 1; 3; 1; 2; 1; 0; 5; 0].
Proof. repeat split. repeat constructor. Qed.
