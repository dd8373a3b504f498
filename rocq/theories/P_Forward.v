(** A received UPDATE sent on: C101. *)
From Verif Require Import Base M_Util S_Wire M_Prefix M_Nlri S_Nlri M_Cap M_Open M_Session M_Addrs S_Addrs M_Attr S_Attr M_Update S_Update S_Forward F_Forward.

(** C101: a received UPDATE that holds only what the library can send is sent on so that the
    next speaker with the same session parameters receives the same message. *)
Theorem C101_forward : forall oc p b m buf, bytes_ok b -> update_decode oc p update_new b = Ok m ->
  forwardable p m -> (length (update_wire p m) <= length buf)%nat ->
  exists n out, update_encode oc p m buf = Ok (n, out) /\ update_decode oc p update_new (firstn n out) = Ok m.
Proof. exact forward_l. Qed.
Print Assumptions C101_forward.
(** One holding an AGGREGATOR is received but, sent on, is not a message any more. *)
Theorem C101_aggregator_refuted : forall oc p asn a, asn < 2 ^ (8 * N.of_nat (as_octets p)) -> a < 2 ^ 32 ->
  let m := mkUpd (empty_list p) (empty_list p) [AAggregatorAS asn a] in
  (exists b, bytes_ok b /\ update_decode oc p update_new b = Ok m) /\
  forall buf, (11 <= length buf)%nat ->
    exists n out, update_encode oc p m buf = Ok (n, out) /\ update_decode oc p update_new (firstn n out) = Err EOther.
Proof. exact aggregator_lost. Qed.
Print Assumptions C101_aggregator_refuted.

(** a withdrawn route, a long-form ORIGIN with an octet to spare, AS_PATH, NEXT_HOP, a VPN route with two labels and a route *)
Example C101_ex : let p := params_new 1 180 ModeV4 1 [] in
  let b := [0; 3; 12; 172; 31; 0; 64; 80; 1; 0; 2; 1; 7; 64; 2; 10; 2; 2; 0; 0; 253; 232; 0; 1; 17; 112; 64; 3; 4; 1; 2; 3; 4;
    128; 14; 35; 0; 1; 128; 12; 0; 0; 0; 0; 0; 0; 0; 0; 10; 0; 0; 1; 0; 136; 0; 1; 0; 0; 2; 17; 0; 0; 253; 232; 0; 0; 0; 5; 192; 168; 7; 16; 10; 1] in
  let m := mkUpd (IPV4U [mkV4 0x0a010000 16]) (IPV4U [mkV4 0xac1f0000 12])
    [AOrigin Egp; AASPath [65000; 70000]; ANextHop (IPv4 0x01020304);
     AMPUpdates (BAV4RD (mkRD 0 0) 0x0a000001) (VPNV4U [mkLab (mkWRD (mkV4 0xc0a80700 24) (mkRD 65000 5)) [16; 33]])] in
  bytes_ok b /\ update_decode true p update_new b = Ok m /\ forwardable p m /\ update_wire p m <> b /\
  exists out, update_encode true p m (repeat 9 100) = Ok (length (update_wire p m), out) /\ update_decode true p update_new (firstn (length (update_wire p m)) out) = Ok m.
Proof.
  intros p b m. split; [unfold b, bytes_ok; repeat (apply Forall_cons; [reflexivity|]); apply Forall_nil|].
  split; [vm_compute; reflexivity|]. split.
  - split; [|vm_compute; discriminate]. unfold m. cbn [u_attrs].
    apply Forall_cons; [split; [vm_compute; discriminate|exact I]|].
    apply Forall_cons; [split; [vm_compute; discriminate|left; reflexivity]|].
    apply Forall_cons; [split; [vm_compute; discriminate|exact I]|].
    apply Forall_cons; [split; [vm_compute; discriminate|]|apply Forall_nil].
    apply Forall_cons; [split; [discriminate|reflexivity]|apply Forall_nil].
  - split; [vm_compute; discriminate|]. exists (update_wire p m ++ repeat 9 26). split; vm_compute; reflexivity.
Qed.
Example C101_aggregator_ex : let p := params_new 1 180 ModeV4 1 [] in
  let m := mkUpd (IPV4U []) (IPV4U []) [AAggregatorAS 70000 0x0a000001] in
  update_decode true p update_new [0; 0; 0; 11; 192; 7; 8; 0; 1; 17; 112; 10; 0; 0; 1] = Ok m /\
  update_encode true p m (repeat 9 12) = Ok (11%nat, [0; 0; 0; 7; 64; 7; 4; 9; 9; 9; 9; 9]) /\
  update_decode true p update_new [0; 0; 0; 7; 64; 7; 4; 9; 9; 9; 9] = Err EOther.
Proof. cbv zeta. split; [vm_compute; reflexivity|]. split; vm_compute; reflexivity. Qed.
