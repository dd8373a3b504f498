(** C20: EVPN routes. *)
From Verif Require Import Base BaseFacts M_Util S_Wire M_Prefix S_Prefix M_Nlri S_Nlri M_Vpls M_Evpn S_Evpn F_Evpn.

(** Types 1-4 with up to ten labels, and type 5 with IPv4 addresses and one
    label, are encoded as RFC 7432/9136 prescribe and decode back, whatever
    follows, consuming exactly the bytes written. *)
Theorem C20_evpn_partial : forall oc r, ev_wf r -> ev5_ok r ->
  writes (evpn_encode r) (ev_wire r) (length (ev_wire r)) /\
  forall rest, evpn_decode oc (ev_wire r ++ rest) = Ok (r, length (ev_wire r)).
Proof. exact evpn_roundtrip. Qed.
Print Assumptions C20_evpn_partial.
(** ... and so do lists of them. *)
Theorem C20_evpn_list_partial : forall oc v, Forall (fun r => ev_wf r /\ ev5_ok r) v ->
  writes (encode_bgpaddritems_to evpn_encode v) (flat_map ev_wire v) (length (flat_map ev_wire v)) /\
  decode_bgpaddritems_from (evpn_decode oc) (flat_map ev_wire v) = Ok (v, length (flat_map ev_wire v)).
Proof. exact evpn_list. Qed.
Print Assumptions C20_evpn_list_partial.

(** No other type 5 route survives: if it is encoded at all (mixed address
    families are not), the bytes do not decode to it. *)
Theorem C20_evpn5_refuted : forall oc r buf n out rest k, ev_wf r -> ~ ev5_ok r -> (258 <= length buf)%nat ->
  evpn_encode r buf = Ok (n, out) -> evpn_decode oc (firstn n out ++ rest) <> Ok (r, k).
Proof. exact evpn5_refuted. Qed.
Print Assumptions C20_evpn5_refuted.
(** In particular no bytes at all decode to a type 5 route with an IPv6 prefix
    or gateway; *)
Theorem C20_evpn5_v6_refuted : forall oc buf r n, evpn_decode oc buf = Ok (Ev5 r, n) ->
  exists a g, ev5_prefix r = IPv4 a /\ ev5_gw r = IPv4 g.
Proof. exact evpn_kind. Qed.
Print Assumptions C20_evpn5_v6_refuted.
(** and, with overflow checks on, none decode to more than ten labels. *)
Theorem C20_evpn_labels_refuted : forall buf r n, bytes_ok buf -> evpn_decode true buf = Ok (r, n) ->
  (length (match r with Ev1 r => ev1_labels r | Ev2 r => ev2_labels r | Ev5 r => ev5_labels r | _ => [] end) <= 10)%nat.
Proof. exact evpn_max_labels. Qed.
Print Assumptions C20_evpn_labels_refuted.

Example C20_ex :
  let r := Ev2 (mkEvpn2 (mkRD 65536 1) 0 [0; 0; 0; 0; 0; 0; 0; 0; 0] 7 [6; 5; 4; 3; 2; 1] (Some (IPv4 (ip4_new 10 0 0 1))) [100]) in
  ev_wf r /\ ev5_ok r /\
  ev_wire r = [2; 37; 0; 1; 0; 0; 0; 0; 0; 1; 0; 0; 0; 0; 0; 0; 0; 0; 0; 0; 0; 0; 0; 7; 48; 1; 2; 3; 4; 5; 6; 32; 10; 0; 0; 1; 0; 6; 65] /\
  evpn_decode true (ev_wire r ++ [9; 9]) = Ok (r, 39%nat).
Proof.
  cbv zeta. split.
  - split; [split; reflexivity|]. split; [split; [reflexivity|split; [reflexivity|repeat (apply Forall_cons; [reflexivity|]); apply Forall_nil]]|].
    split; [reflexivity|]. split; [split; [reflexivity|repeat (apply Forall_cons; [reflexivity|]); apply Forall_nil]|].
    split; [reflexivity|]. split; [|cbn; repeat constructor]. right. split; [discriminate|].
    split; [apply Forall_cons; [reflexivity|apply Forall_nil]|apply Forall_nil].
  - split; [exact I|]. split; reflexivity.
Qed.
(** an IPv6 prefix advertisement: written, and then rejected *)
Example C20_ex5 :
  let r := Ev5 (mkEvpn5 (mkRD 65536 1) 0 [0; 0; 0; 0; 0; 0; 0; 0; 0] 7 64 (IPv6 1) (IPv6 2) [100]) in
  ~ ev5_ok r /\
  exists out, evpn_encode r (repeat 0 258) = Ok (44%nat, out) /\ evpn_decode true (firstn 44 out) = Err EOther.
Proof. cbv zeta. split; [intros H; exact H|]. eexists. split; vm_compute; reflexivity. Qed.
