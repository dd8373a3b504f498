(** C24, C48, C54, C63: NLRI lists by address family. *)
From Verif Require Import Base BaseFacts M_Util M_Prefix S_Prefix M_Nlri S_Nlri M_Vpls M_Mvpn S_Mvpn M_Evpn M_Flowspec
  M_Cap M_Open M_Session M_Addrs S_Addrs F_Addrs.

(** C24: for every family but IPv4 multicast and IPv4 labeled unicast, the capability is announced with
    the AFI and SAFI under which its routes are encoded ([get_afi_safi]) and decoded; the library's own
    lookup [afisafi_from_cap] agrees, except that it refuses the FlowSpec families. *)
Theorem C24_code_points_partial : forall s a buf, cap_carries s a -> s <> SafiIPv4m -> s <> SafiIPv4lu ->
  length buf = 6%nat ->
  fill_buffer (CapMP s) buf = Ok (tt, mp_wire (fst (get_afi_safi a)) (snd (get_afi_safi a))) /\
  (afisafi_from_cap (CapMP s) = Ok (get_afi_safi a) \/ s = SafiIPv4fu \/ s = SafiIPv6fu \/ s = SafiVPNv4fu).
Proof. exact (fun s a buf H H1 H2 L => eq_ind_r (fun x => x = _ /\ _) (cap_agree s a H H1 H2) (fill_mp s buf L)). Qed.
Print Assumptions C24_code_points_partial.
(** Routes are encoded under the code points registered for the family, and whatever is decoded under
    an AFI and SAFI is a list of that family. *)
Theorem C24_nlri_code_points : forall s a afi sf, cap_carries s a -> get_afi_safi a = (afi, sf) -> safi_codes s = (afi, sf).
Proof. exact cap_codes. Qed.
Print Assumptions C24_nlri_code_points.
Theorem C24_decoded_family : forall oc p afi sf buf a n, addrs_decode oc p afi sf buf = Ok (a, n) -> get_afi_safi a = (afi, sf).
Proof. exact (fun oc p afi sf buf a n H => proj1 (addrs_decode_family oc p afi sf buf a n H)). Qed.
Print Assumptions C24_decoded_family.
(** IPv4 multicast and IPv4 labeled unicast are announced under each other's code point. *)
Theorem C24_code_points_refuted : forall s a b buf,
  s = SafiIPv4m /\ b = SafiIPv4lu \/ s = SafiIPv4lu /\ b = SafiIPv4m -> cap_carries s a -> length buf = 6%nat ->
  fill_buffer (CapMP s) buf <> Ok (tt, mp_wire (fst (get_afi_safi a)) (snd (get_afi_safi a))) /\
  fill_buffer (CapMP b) buf = Ok (tt, mp_wire (fst (get_afi_safi a)) (snd (get_afi_safi a))) /\
  afisafi_from_cap (CapMP b) = Ok (get_afi_safi a).
Proof.
  exact (fun s a b buf H C L => eq_ind_r (fun x => x <> _ /\ _) (eq_ind_r (fun y => _ /\ y = _ /\ _) (cap_swapped s a b H C) (fill_mp b buf L)) (fill_mp s buf L)).
Qed.
Print Assumptions C24_code_points_refuted.
Example C24_ex :
  cap_carries SafiVPNv6u (VPNV6U []) /\ fill_buffer (CapMP SafiVPNv6u) (repeat 9 6) = Ok (tt, [1; 4; 0; 2; 0; 128]) /\
  cap_carries SafiIPv4lu (IPV4LU []) /\ fill_buffer (CapMP SafiIPv4lu) (repeat 9 6) = Ok (tt, [1; 4; 0; 1; 0; 2]) /\
  get_afi_safi (IPV4LU []) = (1, 4).
Proof. repeat split; reflexivity. Qed.

(** C48: without fuzzy detection, what is decoded has path identifiers exactly when receiving them was
    negotiated for the family. *)
Theorem C48_negotiated_partial : forall oc p afi sf buf a n, sp_fuzzy p = false ->
  addrs_decode oc p afi sf buf = Ok (a, n) ->
  with_pathid a = (addpath_family afi sf && check_addpath_receive p afi sf)%bool.
Proof.
  exact (fun oc p afi sf buf a n H E => eq_trans (proj2 (addrs_decode_family oc p afi sf buf a n E))
    (f_equal (andb (addpath_family afi sf)) (eq_trans (f_equal (fun b => (check_addpath_receive p afi sf || (b && is_addpath_nlri buf))%bool) H)
      (Bool.orb_false_r (check_addpath_receive p afi sf))))).
Qed.
Print Assumptions C48_negotiated_partial.
(** In all sessions: also when fuzzy detection is on and the bytes look so. *)
Theorem C48_exact : forall oc p afi sf buf a n, addrs_decode oc p afi sf buf = Ok (a, n) ->
  with_pathid a = (addpath_family afi sf &&
    (check_addpath_receive p afi sf || (sp_fuzzy p && (Nat.leb 5 (length buf) && list_eqb (firstn 2 buf) [0; 0]))))%bool.
Proof. exact addrs_decode_pathid. Qed.
Print Assumptions C48_exact.
(** With fuzzy detection (on in [BgpSessionParams::new]) the claim is false, in every session and
    family where path identifiers were not negotiated: the bytes decide. *)
Theorem C48_fuzzy_refuted : forall oc p afi sf, sp_fuzzy p = true -> check_addpath_receive p afi sf = false ->
  addpath_family afi sf = true ->
  exists l1 l2 a b n m, addrs_decode oc p afi sf l1 = Ok (a, n) /\ with_pathid a = true /\ addrs_len a = 1%nat /\
    addrs_decode oc p afi sf l2 = Ok (b, m) /\ with_pathid b = false.
Proof. exact (fun oc p afi sf H1 H2 H3 => ex_intro _ (fuzzy_bytes afi sf) (ex_intro _ [] (fuzzy_wrong oc p afi sf H1 H2 H3))). Qed.
Print Assumptions C48_fuzzy_refuted.
Example C48_ex :
  let p := params_new 65000 180 ModeV4 1 [] in
  check_addpath_receive p 1 1 = false /\
  addrs_encode true (IPV4U [mkV4 0 0; mkV4 0 0; mkV4 0x0a000000 8; mkV4 0x0b000000 8]) (repeat 9 6) = Ok (6%nat, [0; 0; 8; 10; 8; 11]) /\
  addrs_decode true p 1 1 [0; 0; 8; 10; 8; 11] = Ok (IPV4UP [mkPid 0x80a (mkV4 0x0b000000 8)], 6%nat).
Proof. repeat split; vm_compute; reflexivity. Qed.

(** C54: decoding an NLRI list of any family terminates on every input. *)
Theorem C54_addrs_terminates : forall oc p afi sf buf, addrs_decode oc p afi sf buf <> OutOfFuel.
Proof. exact addrs_decode_nf. Qed.
Print Assumptions C54_addrs_terminates.
Example C54_addrs_ex : addrs_decode true (params_new 1 1 ModeV4 1 []) 25 70 [9; 0; 1] = Err EOther.
Proof. reflexivity. Qed.

(** C63: every list whose items can be carried is written as its wire form, which decodes, under the
    list's own AFI and SAFI in a session that negotiated (or detects) the list's form, to the list (bits beyond the last octet of each prefix dropped) and
    consumes all of it. *)
Theorem C63_addrs_roundtrip_partial : forall oc p a buf, addrs_wf a -> (length (addrs_wire a) <= length buf)%nat ->
  (let '(afi, sf) := get_afi_safi a in addpath_family afi sf = true -> use_pathid p afi sf (addrs_wire a) = with_pathid a) ->
  addrs_encode oc a buf = Ok (length (addrs_wire a), addrs_wire a ++ skipn (length (addrs_wire a)) buf) /\
  addrs_decode oc p (fst (get_afi_safi a)) (snd (get_afi_safi a)) (addrs_wire a) = Ok (addrs_trunc a, length (addrs_wire a)).
Proof. exact addrs_roundtrip. Qed.
Print Assumptions C63_addrs_roundtrip_partial.
(** The number of items is kept. *)
Theorem C63_trunc_len : forall a, addrs_len (addrs_trunc a) = addrs_len a /\ addrs_is_empty a = Nat.eqb (addrs_len a) 0.
Proof. exact addrs_trunc_len. Qed.
Print Assumptions C63_trunc_len.
Example C63_ex :
  let a := VPNV4UP [mkPid 7 (mkLab (mkWRD (mkV4 0x0a010000 16) (mkRD 100 7)) [500])] in
  let p := mkParams 1 180 ModeV4 true 1 [CapAddPath [mkAP 1 128 false true]] false in
  addrs_wf a /\ check_addpath_receive p 1 128 = with_pathid a /\
  addrs_wire a = [0; 0; 0; 7; 104; 0; 31; 65; 0; 0; 0; 100; 0; 0; 0; 7; 10; 1] /\
  addrs_decode true p 1 128 (addrs_wire a) = Ok (a, 18%nat).
Proof.
  split; [|repeat split; vm_compute; reflexivity].
  cbn [addrs_wf]. apply Forall_cons; [|apply Forall_nil].
  split; [reflexivity|]. split; [|reflexivity]. split.
  - split; [discriminate|]. split; [apply Forall_cons; [reflexivity|apply Forall_nil]|constructor].
  - split; [split; reflexivity|split; [reflexivity|discriminate]].
Qed.
