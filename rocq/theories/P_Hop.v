(** C138: the next hop of a multiprotocol announcement is the one that was sent. *)
From Verif Require Import Base M_Util S_Wire M_Prefix M_Nlri S_Nlri M_Cap M_Open M_Session M_Addrs M_Attr S_Hop F_Hop.

(** In the forms the code knows the next hop is reported as sent - of a global and a link-local address, the global one -
    and the routes are those behind it, for every family and all octets of routes. *)
Theorem C138_known_partial : forall oc p f n afi sf h nh r, hop_wf h -> known_hop afi sf h nh ->
  attr_decode oc p 14 f n (announcement afi sf h r) = reported oc p afi sf nh r.
Proof. exact known_reported. Qed.
Print Assumptions C138_known_partial.
Example C138_known_ex : announcement 2 1 (Hop6Local 1 2) [8; 32] = [0; 2; 1; 32] ++ be_bytes 16 1 ++ be_bytes 16 2 ++ [0; 8; 32] /\
  attr_decode true (params_new 1 180 ModeV4 1 []) 14 128 39 (announcement 2 1 (Hop6Local 1 2) [8; 32]) = Ok (AMPUpdates (BAV6 1) (IPV6U [mkV6 (32 * 2 ^ 120) 8])).
Proof. split; vm_compute; reflexivity. Qed.

(** An IPv6 next hop of IPv4 routes (RFC 8950), or of VPLS and EVPN routes, is taken for the IPv4 address in its first four
    octets: for every address and all routes, without an error. *)
Theorem C138_ipv6_refuted : forall oc p f n afi sf x r h, x < 2 ^ 128 -> (h = Hop6 x \/ exists b, h = Hop6Local x b) ->
  (afi = 1 /\ In sf [1; 2; 4; 5; 66; 133] \/ afi = 25 /\ In sf [65; 70]) ->
  attr_decode oc p 14 f n (announcement afi sf h r) = reported oc p afi sf (BAV4 (x / 2 ^ 96)) r.
Proof. exact mixed_reported. Qed.
Print Assumptions C138_ipv6_refuted.
(** 10.0.0.0/8 via 2001:db8::1 is reported via 32.1.13.184 *)
Example C138_ipv6_ex : attr_decode true (params_new 1 180 ModeV4 1 []) 14 128 23 (announcement 1 1 (Hop6 (0x20010db8 * 2 ^ 96 + 1)) [8; 10]) =
  Ok (AMPUpdates (BAV4 0x20010db8) (IPV4U [mkV4 0x0a000000 8])).
Proof. vm_compute. reflexivity. Qed.
(** The same of VPN routes, if they are accepted at all. *)
Theorem C138_vpn_ipv6_refuted : forall oc p f n sf rd x r a, rd_wf rd -> x < 2 ^ 128 -> In sf [128; 129; 134] ->
  attr_decode oc p 14 f n (announcement 1 sf (HopRD6 rd x) r) = Ok a -> exists v, a = AMPUpdates (BAV4RD rd (x / 2 ^ 96)) v.
Proof. exact mixed_vpn. Qed.
Print Assumptions C138_vpn_ipv6_refuted.
Example C138_vpn_ipv6_ex : exists v, attr_decode true (params_new 1 180 ModeV4 1 []) 14 128 29
  (announcement 1 128 (HopRD6 (mkRD 0 0) 0x20010db8005800001100000000000001) []) = Ok (AMPUpdates (BAV4RD (mkRD 0 0) 0x20010db8) v).
Proof. eexists. vm_compute. reflexivity. Qed.
(** Of a VPN-IPv6 next hop with a link-local address (RFC 4659) the second half is read as routes. *)
Theorem C138_vpn_local_refuted : forall oc p f n sf rd x rd' y r, rd_wf rd -> x < 2 ^ 128 -> rdh rd' < 2 ^ 24 -> In sf [128; 129] ->
  attr_decode oc p 14 f n (announcement 2 sf (HopRD6Local rd x rd' y) r) =
  reported oc p 2 sf (BAV6RD rd x) (skipn 1 (rd_wire rd') ++ be_bytes 16 y ++ [0] ++ r).
Proof. exact local_vpn. Qed.
Print Assumptions C138_vpn_local_refuted.
(** next hop ::1 with fe80::2, and one route *)
Example C138_vpn_local_ex : let m := announcement 2 128 (HopRD6Local (mkRD 0 0) 1 (mkRD 0 0) (0xfe80 * 2 ^ 112 + 2)) [88; 0; 0; 17; 0; 0; 0; 0; 0; 0; 0; 0] in
  attr_decode true (params_new 1 180 ModeV4 1 []) 14 128 54 m = Panic /\ attr_decode false (params_new 1 180 ModeV4 1 []) 14 128 54 m = Err EOther /\
  exists v, addrs_decode true (params_new 1 180 ModeV4 1 []) 2 128 [88; 0; 0; 17; 0; 0; 0; 0; 0; 0; 0; 0] = Ok v.
Proof. split; [vm_compute; reflexivity|]. split; [vm_compute; reflexivity|]. eexists. vm_compute. reflexivity. Qed.
(** Announcements of IPv4 flow specifications without a next hop (RFC 8955), and all announcements of IPv6 flow
    specifications, are refused whatever their routes. *)
Theorem C138_flow_refuted : forall oc p f n r, attr_decode oc p 14 f n (announcement 1 133 NoHop r) = Err EOther /\
  forall h, attr_decode oc p 14 f n (announcement 2 133 h r) = Err EOther.
Proof. exact flow_refused. Qed.
Print Assumptions C138_flow_refuted.
Example C138_flow_ex : announcement 1 133 NoHop [3; 3; 129; 6] = [0; 1; 133; 0; 0; 3; 3; 129; 6] /\
  exists a, addrs_decode true (params_new 1 180 ModeV4 1 []) 1 133 [3; 3; 129; 6] = Ok a.
Proof. split; [reflexivity|]. eexists. vm_compute. reflexivity. Qed.
