(** C138, continued: the octet between the next hop and the routes. *)
From Verif Require Import Base M_Util S_Wire M_Prefix M_Nlri S_Nlri M_Cap M_Open M_Session M_Addrs M_Attr S_Hop S_Snpa F_Snpa.

(** RFC 4760 reserves the octet and asks receivers to ignore it; here as many SNPAs are dropped from the front of the routes,
    for every value of it, and the program stops if there are not so many. *)
Theorem C138_reserved_refuted : forall oc p f n afi sf h nh c r, hop_wf h -> known_hop afi sf h nh ->
  attr_decode oc p 14 f n (announcement_with c afi sf h r) =
  match behind_snpas (N.to_nat c) r with Some s => reported oc p afi sf nh s | None => Panic end.
Proof. exact reserved_reported. Qed.
Print Assumptions C138_reserved_refuted.
(** 0.0.0.0/1 is lost *)
Example C138_reserved_ex : let p := params_new 1 180 ModeV4 1 [] in
  behind_snpas 1 [2; 10; 8; 8; 11] = Some [8; 11] /\
  attr_decode true p 14 128 14 (announcement_with 0 1 1 (Hop4 1) [1; 0; 8; 11]) = Ok (AMPUpdates (BAV4 1) (IPV4U [mkV4 0 1; mkV4 0x0b000000 8])) /\
  attr_decode true p 14 128 14 (announcement_with 1 1 1 (Hop4 1) [1; 0; 8; 11]) = Ok (AMPUpdates (BAV4 1) (IPV4U [mkV4 0x0b000000 8])).
Proof. repeat split; vm_compute; reflexivity. Qed.
(** It stops whenever the octet is greater than the number of octets of routes. *)
Theorem C138_reserved_stops : forall oc p f n afi sf h nh c r, hop_wf h -> known_hop afi sf h nh -> N.of_nat (length r) < c ->
  attr_decode oc p 14 f n (announcement_with c afi sf h r) = Panic.
Proof. exact reserved_stops. Qed.
Print Assumptions C138_reserved_stops.
Example C138_reserved_stops_ex : known_hop 2 1 (Hop6 1) (BAV6 1) /\
  attr_decode true (params_new 1 180 ModeV4 1 []) 14 128 23 (announcement_with 255 2 1 (Hop6 1) [8; 32]) = Panic.
Proof. split; [cbn; tauto|vm_compute; reflexivity]. Qed.
(** VPN flow specifications without next hop (RFC 8955) are never reported without one: if they are accepted, the next hop
    is made of the reserved octet and the first eleven octets of the rules. *)
Theorem C138_flow_vpn_refuted : forall oc p f n r a, bytes_ok r -> attr_decode oc p 14 f n (announcement 1 134 NoHop r) = Ok a ->
  exists rd x v t, a = AMPUpdates (BAV4RD rd x) v /\ 0 :: r = rd_wire rd ++ be_bytes 4 x ++ t.
Proof. exact flow_vpn_hop. Qed.
Print Assumptions C138_flow_vpn_refuted.
(** a rule for 0.0.0.0/8 in the VPN 1:1: no rules, and a next hop of its octets *)
Example C138_flow_vpn_ex : exists rd, attr_decode true (params_new 1 180 ModeV4 1 []) 14 128 17 (announcement 1 134 NoHop ([11] ++ rd_wire (mkRD 1 1) ++ [1; 8; 0])) =
  Ok (AMPUpdates (BAV4RD rd 0x00010108) (FSV4U [])).
Proof. eexists. vm_compute. reflexivity. Qed.
