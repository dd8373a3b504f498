(** C144: routes with one label entry. *)
From Verif Require Import Base M_Util S_Wire M_Prefix S_Prefix M_Nlri S_Nlri M_Vpls M_Cap M_Open M_Session M_Mvpn M_Evpn M_Flowspec M_Addrs M_Order S_Order S_Relabel F_Relabel.

(** The three octets of the label of a labelled or VPN route, if they end the label stack, can be any others that do: the
    list of routes is read as an equal one that hashes alike. So a withdrawal (0x800000, 0x000000 or any last label)
    matches the announcement. *)
Theorem C144_label : forall oc p afi sf bits b0 b1 b2 c0 c1 c2 s a n, In (afi, sf) label_families -> check_addpath_receive p afi sf = false -> 0 < bits ->
  bytes_ok (bits :: b0 :: b1 :: b2 :: s) -> bytes_ok [c0; c1; c2] -> entry_ends b0 b1 b2 -> entry_ends c0 c1 c2 ->
  addrs_decode oc p afi sf (bits :: b0 :: b1 :: b2 :: s) = Ok (a, n) ->
  exists a', addrs_decode oc p afi sf (bits :: c0 :: c1 :: c2 :: s) = Ok (a', n) /\ oeq oaddrs a a' = true /\ ocmp oaddrs a a' = Eq /\ ohash oaddrs a = ohash oaddrs a'.
Proof. exact relabel_nlri. Qed.
Print Assumptions C144_label.
(** 10.0.0.0/8 with label 100, and its withdrawal with 0x800000 *)
Example C144_label_ex : let p := params_new 65000 180 ModeV4 1 [] in
  check_addpath_receive p 1 4 = false /\ entry_ends 0 6 0x41 /\ entry_ends 0x80 0 0 /\
  addrs_decode true p 1 4 [32; 0; 6; 0x41; 10] = Ok (IPV4LU [mkLab (mkV4 0x0a000000 8) [100]], 5%nat) /\
  addrs_decode true p 1 4 [32; 0x80; 0; 0; 10] = Ok (IPV4LU [mkLab (mkV4 0x0a000000 8) [0x80000]], 5%nat).
Proof. cbv zeta. split; [reflexivity|]. split; [right; reflexivity|]. split; [left; vm_compute; tauto|]. split; vm_compute; reflexivity. Qed.
(** The same behind a path identifier, in sessions that negotiated them. *)
Theorem C144_label_path_id : forall oc p afi sf pi bits b0 b1 b2 c0 c1 c2 s a n, In (afi, sf) label_families -> check_addpath_receive p afi sf = true -> length pi = 4%nat -> 0 < bits ->
  bytes_ok pi -> bytes_ok (bits :: b0 :: b1 :: b2 :: s) -> bytes_ok [c0; c1; c2] -> entry_ends b0 b1 b2 -> entry_ends c0 c1 c2 ->
  addrs_decode oc p afi sf (pi ++ bits :: b0 :: b1 :: b2 :: s) = Ok (a, n) ->
  exists a', addrs_decode oc p afi sf (pi ++ bits :: c0 :: c1 :: c2 :: s) = Ok (a', n) /\ oeq oaddrs a a' = true /\ ocmp oaddrs a a' = Eq /\ ohash oaddrs a = ohash oaddrs a'.
Proof. exact relabel_nlri_pid. Qed.
Print Assumptions C144_label_path_id.
Example C144_label_path_id_ex : let p := mkParams 1 180 ModeV4 true 1 [CapAddPath [mkAP 1 4 true true]] false in
  check_addpath_receive p 1 4 = true /\
  addrs_decode true p 1 4 [0; 0; 0; 7; 32; 0; 6; 0x41; 10] = Ok (IPV4LUP [mkPid 7 (mkLab (mkV4 0x0a000000 8) [100])], 9%nat) /\
  addrs_decode true p 1 4 [0; 0; 0; 7; 32; 0x80; 0; 0; 10] = Ok (IPV4LUP [mkPid 7 (mkLab (mkV4 0x0a000000 8) [0x80000])], 9%nat).
Proof. cbv zeta. split; [reflexivity|]. split; vm_compute; reflexivity. Qed.
(** RFC 8277 2.2 and 2.4 have a receiver ignore the bottom-of-stack bit, and the whole field in withdrawals. Without the
    bit the octets behind are taken as another label: with overflow checks, every IPv4 prefix of 1 to 23 bits stops the
    program. *)
Theorem C144_bottom_refuted : forall p bits b0 b1 b2 s, check_addpath_receive p 1 4 = false -> 24 < bits < 48 -> b0 < 256 -> b1 < 256 -> b2 < 256 -> ~ entry_ends b0 b1 b2 ->
  addrs_decode true p 1 4 (bits :: b0 :: b1 :: b2 :: s) = Panic.
Proof. exact bottom_stops. Qed.
Print Assumptions C144_bottom_refuted.
Example C144_bottom_ex : let p := params_new 65000 180 ModeV4 1 [] in
  check_addpath_receive p 1 4 = false /\ ~ entry_ends 0 6 0x40 /\ addrs_decode true p 1 4 [32; 0; 6; 0x40; 10] = Panic.
Proof. cbv zeta. split; [reflexivity|]. split; [|vm_compute; reflexivity]. intros [H|H]; [|discriminate]. vm_compute in H. intuition discriminate. Qed.
(** If such a route is accepted, in either build, it has more labels than the one sent. *)
Theorem C144_more_labels_v4_refuted : forall oc p bits b0 b1 b2 s a n, check_addpath_receive p 1 4 = false -> 24 < bits -> bytes_ok (bits :: b0 :: b1 :: b2 :: s) -> ~ entry_ends b0 b1 b2 ->
  addrs_decode oc p 1 4 (bits :: b0 :: b1 :: b2 :: s) = Ok (a, n) -> exists x v, a = IPV4LU (x :: v) /\ (2 <= length (lab_labels x))%nat.
Proof. exact no_bottom4. Qed.
Print Assumptions C144_more_labels_v4_refuted.
Theorem C144_more_labels_v6_refuted : forall oc p bits b0 b1 b2 s a n, check_addpath_receive p 2 4 = false -> 24 < bits -> bytes_ok (bits :: b0 :: b1 :: b2 :: s) -> ~ entry_ends b0 b1 b2 ->
  addrs_decode oc p 2 4 (bits :: b0 :: b1 :: b2 :: s) = Ok (a, n) -> exists x v, a = IPV6LU (x :: v) /\ (2 <= length (lab_labels x))%nat.
Proof. exact no_bottom6. Qed.
Print Assumptions C144_more_labels_v6_refuted.
(** 10.1.1.0/24 with label 100 is the default route with two labels; 2001:db9::/32 with label 100 is b900::/8 with two *)
Example C144_more_labels_ex : let p := params_new 65000 180 ModeV4 1 [] in
  addrs_decode true p 1 4 [48; 0; 6; 0x40; 10; 1; 1] = Ok (IPV4LU [mkLab (mkV4 0 0) [100; 0xa010]], 7%nat) /\
  addrs_decode true p 2 4 [56; 0; 6; 0x40; 0x20; 1; 0x0d; 0xb9] = Ok (IPV6LU [mkLab (mkV6 (0xb9 * 2 ^ 120) 8) [100; 0x20010]], 8%nat).
Proof. cbv zeta. split; vm_compute; reflexivity. Qed.
