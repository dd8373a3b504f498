(** C134: End-of-RIB markers. *)
From Verif Require Import Base M_Util S_Wire M_Prefix M_Nlri M_Cap M_Open M_Session M_Addrs M_Attr M_Update S_Eor F_Eor.

(** A marker of every family the library knows is read, with any flags, as the withdrawal of nothing of that family. *)
Theorem C134_read : forall oc p f afi sf e, f < 256 -> no_routes afi sf (check_addpath_receive p afi sf) = Some e ->
  exists a, no_routes (plain_afi p) 1 (check_addpath_receive p (plain_afi p) 1) = Some a /\
  update_decode oc p update_new (eor f afi sf) = Ok (mkUpd a a [AMPWithdraws e]).
Proof. exact marker_read. Qed.
Print Assumptions C134_read.
Theorem C134_read_plain : forall oc p, exists a, no_routes (plain_afi p) 1 (check_addpath_receive p (plain_afi p) 1) = Some a /\
  update_decode oc p update_new eor_plain = Ok (mkUpd a a []).
Proof. exact plain_read. Qed.
Print Assumptions C134_read_plain.
(** The family can be told from the empty list. *)
Theorem C134_family : forall afi sf ids a, no_routes afi sf ids = Some a -> get_afi_safi a = (afi, sf) /\ addrs_is_empty a = true /\ afi < 2 ^ 16.
Proof. exact none_family. Qed.
Print Assumptions C134_family.
Theorem C134_unknown : forall oc p f afi sf u, f < 256 -> afi < 2 ^ 16 -> sf < 256 -> (forall ids, no_routes afi sf ids = None) ->
  update_decode oc p update_new (eor f afi sf) <> Ok u.
Proof. exact marker_unknown. Qed.
Print Assumptions C134_unknown.

(** Exactly these octets are read as markers: up to four stray octets may stand in the place of each list whose routes
    would have path identifiers. *)
Theorem C134_exact : forall oc p b u afi sf, bytes_ok b ->
  update_decode oc p update_new b = Ok u /\ says_eor u afi sf <->
  exists w f s nl, b = eor_with w f afi sf s nl /\ stray p (plain_afi p) 1 w /\ stray p (plain_afi p) 1 nl /\ stray p afi sf s /\
    exists a e, no_routes (plain_afi p) 1 (check_addpath_receive p (plain_afi p) 1) = Some a /\ no_routes afi sf (check_addpath_receive p afi sf) = Some e /\
      u = mkUpd a a [AMPWithdraws e].
Proof. exact marker_exact. Qed.
Print Assumptions C134_exact.
Theorem C134_exact_plain : forall oc p b u, bytes_ok b ->
  update_decode oc p update_new b = Ok u /\ says_eor_plain u <->
  exists w nl, b = eor_plain_with w nl /\ stray p (plain_afi p) 1 w /\ stray p (plain_afi p) 1 nl /\
    exists a, no_routes (plain_afi p) 1 (check_addpath_receive p (plain_afi p) 1) = Some a /\ u = mkUpd a a [].
Proof. exact plain_exact. Qed.
Print Assumptions C134_exact_plain.
(** Without path identifiers nothing but a marker is read as one. *)
Theorem C134_only_partial : forall oc p b u afi sf, bytes_ok b -> check_addpath_receive p (plain_afi p) 1 = false ->
  check_addpath_receive p afi sf = false \/ ~ with_ids afi sf ->
  update_decode oc p update_new b = Ok u -> says_eor u afi sf -> exists f, b = eor f afi sf.
Proof. exact marker_only. Qed.
Print Assumptions C134_only_partial.
Theorem C134_only_plain_partial : forall oc p b u, bytes_ok b -> check_addpath_receive p (plain_afi p) 1 = false ->
  update_decode oc p update_new b = Ok u -> says_eor_plain u -> b = eor_plain.
Proof. exact plain_only. Qed.
Print Assumptions C134_only_plain_partial.
(** With path identifiers, routes that are cut off within the identifier are read as the end of the table. *)
Theorem C134_cut_refuted : forall oc p w nl, check_addpath_receive p (plain_afi p) 1 = true -> bytes_ok w -> bytes_ok nl -> (length w <= 4)%nat -> (length nl <= 4)%nat ->
  update_decode oc p update_new (eor_plain_with w nl) = update_decode oc p update_new eor_plain.
Proof. exact plain_cut. Qed.
Print Assumptions C134_cut_refuted.

(** What a caller builds to mark the end is sent as a marker. *)
Theorem C134_sent : forall oc p u afi sf buf, says_eor u afi sf -> (afi, sf) <> (0, 0) -> (11 <= length buf)%nat ->
  update_encode oc p u buf = Ok (11%nat, eor 144 afi sf ++ skipn 11 buf).
Proof. exact marker_sent. Qed.
Print Assumptions C134_sent.
Theorem C134_sent_plain : forall oc p u buf, says_eor_plain u -> (4 <= length buf)%nat -> update_encode oc p u buf = Ok (4%nat, eor_plain ++ skipn 4 buf).
Proof. exact plain_sent. Qed.
Print Assumptions C134_sent_plain.

Definition c134_p : params := params_new 1 180 ModeV4 1 [].
Definition c134_q : params := params_new 1 180 ModeV4 1 [CapAddPath [mkAP 1 1 true true]].
Example C134_ex :
  no_routes 2 1 (check_addpath_receive c134_p 2 1) = Some (IPV6U []) /\ eor 144 2 1 = [0; 0; 0; 7; 144; 15; 0; 3; 0; 2; 1] /\ eor 128 25 70 = [0; 0; 0; 6; 128; 15; 3; 0; 25; 70] /\
  update_decode true c134_p update_new (eor 144 2 1) = Ok (mkUpd (IPV4U []) (IPV4U []) [AMPWithdraws (IPV6U [])]) /\
  update_decode true c134_p update_new (eor 128 25 70) = Ok (mkUpd (IPV4U []) (IPV4U []) [AMPWithdraws (EVPN [])]) /\
  says_eor (mkUpd ANone ANone [AMPWithdraws (EVPN [])]) 25 70 /\ says_eor_plain update_new /\
  update_encode true c134_p (mkUpd ANone ANone [AMPWithdraws (EVPN [])]) (repeat 9 12) = Ok (11%nat, [0; 0; 0; 7; 144; 15; 0; 3; 0; 25; 70; 9]) /\
  no_routes 3 1 true = None /\ no_routes 1 70 false = None.
Proof. repeat split; try reflexivity. exists (EVPN []). repeat split. Qed.
(** four octets of an identifier are taken for the end of the table; five are not *)
Example C134_cut_ex :
  check_addpath_receive c134_q (plain_afi c134_q) 1 = true /\ eor_plain_with [] [0; 0; 0; 1] = [0; 0; 0; 0; 0; 0; 0; 1] /\
  update_decode true c134_q update_new [0; 0; 0; 0; 0; 0; 0; 1] = Ok (mkUpd (IPV4UP []) (IPV4UP []) []) /\
  update_decode true c134_q update_new [0; 0; 0; 0; 0; 0; 0; 1; 8; 10] = Ok (mkUpd (IPV4UP [mkPid 1 (mkV4 0x0a000000 8)]) (IPV4UP []) []).
Proof. repeat split; reflexivity. Qed.
