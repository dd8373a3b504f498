(** C140: missing and repeated attributes of an UPDATE. *)
From Verif Require Import Base M_Util S_Wire M_Prefix S_Prefix M_Nlri S_Nlri M_Vpls M_Cap M_Open M_Session M_Mvpn M_Evpn M_Flowspec M_Addrs M_Attr S_Attr M_Update S_Update S_Exact S_Join S_Once F_Once.

(** The attributes of an UPDATE are read independently: those of two groups one after the other are those of the first,
    then those of the second, accepted if and only if both groups are. *)
Theorem C140_parts : forall oc p w fs1 fs2 nl u, bytes_ok w -> bytes_ok nl -> bytes_ok (frames_wire (fs1 ++ fs2)) -> Forall frame_ok (fs1 ++ fs2) ->
  N.of_nat (length w) < 2 ^ 16 -> N.of_nat (length (frames_wire (fs1 ++ fs2))) < 2 ^ 16 ->
  update_decode oc p update_new (upd_body w (frames_wire (fs1 ++ fs2)) nl) = Ok u <->
  exists v1 v2, update_decode oc p update_new (upd_body w (frames_wire fs1) nl) = Ok (mkUpd (u_updates u) (u_withdraws u) v1) /\
    update_decode oc p update_new (upd_body w (frames_wire fs2) nl) = Ok (mkUpd (u_updates u) (u_withdraws u) v2) /\ u_attrs u = v1 ++ v2.
Proof. exact parts. Qed.
Print Assumptions C140_parts.
(** That an attribute is missing can be seen: its getter says None exactly when no attribute of its type was received. *)
Theorem C140_seen : forall oc p w fs nl u, bytes_ok w -> bytes_ok nl -> bytes_ok (frames_wire fs) -> Forall frame_ok fs -> N.of_nat (length w) < 2 ^ 16 -> N.of_nat (length (frames_wire fs)) < 2 ^ 16 ->
  update_decode oc p update_new (upd_body w (frames_wire fs) nl) = Ok u ->
  (get_attr_origin u = None <-> absent 1 fs) /\ (get_attr_aspath u = None <-> absent 2 fs) /\ (get_attr_nexthop u = None <-> absent 3 fs) /\
  (get_attr_communitylist u = None <-> absent 8 fs) /\ (get_mpupdates u = None <-> absent 14 fs) /\ (get_mpwithdraws u = None <-> absent 15 fs) /\
  (get_attr_extcommunitylist u = None <-> absent 16 fs) /\ (get_attr_largecommunitylist u = None <-> absent 32 fs).
Proof. exact seen. Qed.
Print Assumptions C140_seen.
(** A repeated attribute does not change what the getters say (RFC 7606: all but the first are discarded). *)
Theorem C140_first_partial : forall oc p w fs f tc d nl u u', bytes_ok w -> bytes_ok nl -> bytes_ok (frames_wire (fs ++ [(f, tc, d)])) -> Forall frame_ok (fs ++ [(f, tc, d)]) ->
  N.of_nat (length w) < 2 ^ 16 -> N.of_nat (length (frames_wire (fs ++ [(f, tc, d)]))) < 2 ^ 16 -> ~ absent tc fs ->
  update_decode oc p update_new (upd_body w (frames_wire fs) nl) = Ok u ->
  update_decode oc p update_new (upd_body w (frames_wire (fs ++ [(f, tc, d)])) nl) = Ok u' -> same_getters u' u.
Proof. exact repeated_first. Qed.
Print Assumptions C140_first_partial.
(** But no attribute is required: without any of its attributes, ORIGIN and AS_PATH among them, an accepted UPDATE is still
    accepted, with the same routes. *)
Theorem C140_missing_refuted : forall oc p w fs1 fs fs2 nl u, bytes_ok w -> bytes_ok nl -> bytes_ok (frames_wire (fs1 ++ fs ++ fs2)) -> Forall frame_ok (fs1 ++ fs ++ fs2) ->
  N.of_nat (length w) < 2 ^ 16 -> N.of_nat (length (frames_wire (fs1 ++ fs ++ fs2))) < 2 ^ 16 ->
  update_decode oc p update_new (upd_body w (frames_wire (fs1 ++ fs ++ fs2)) nl) = Ok u ->
  exists v1 v v2, u_attrs u = v1 ++ v ++ v2 /\ length v = length fs /\
    update_decode oc p update_new (upd_body w (frames_wire (fs1 ++ fs2)) nl) = Ok (mkUpd (u_updates u) (u_withdraws u) (v1 ++ v2)).
Proof. exact missing. Qed.
Print Assumptions C140_missing_refuted.
(** And no repetition is refused or dropped, not even of MP_REACH_NLRI and MP_UNREACH_NLRI: whatever attribute is good
    alone is kept behind any others. *)
Theorem C140_repeated_refuted : forall oc p w fs f tc d nl u v, bytes_ok w -> bytes_ok nl -> bytes_ok (frames_wire (fs ++ [(f, tc, d)])) -> Forall frame_ok (fs ++ [(f, tc, d)]) ->
  N.of_nat (length w) < 2 ^ 16 -> N.of_nat (length (frames_wire (fs ++ [(f, tc, d)]))) < 2 ^ 16 ->
  update_decode oc p update_new (upd_body w (frames_wire fs) nl) = Ok u ->
  update_decode oc p update_new (upd_body w (frames_wire [(f, tc, d)]) nl) = Ok (mkUpd (u_updates u) (u_withdraws u) v) ->
  update_decode oc p update_new (upd_body w (frames_wire (fs ++ [(f, tc, d)])) nl) = Ok (mkUpd (u_updates u) (u_withdraws u) (u_attrs u ++ v)).
Proof. exact repeated. Qed.
Print Assumptions C140_repeated_refuted.
Example C140_ex : let p := params_new 65000 180 ModeV4 1 [] in let fs := [(64, 1, [2]); (64, 3, [10; 0; 0; 1])] in let r := (64, 1, [0]) in
  Forall frame_ok (fs ++ [r]) /\ bytes_ok (frames_wire (fs ++ [r])) /\ ~ absent 1 fs /\ absent 2 fs /\
  update_decode true p update_new (upd_body [] (frames_wire fs) [8; 10]) = Ok (mkUpd (IPV4U [mkV4 0x0a000000 8]) (IPV4U []) [AOrigin Incomplete; ANextHop (IPv4 0x0a000001)]) /\
  update_decode true p update_new (upd_body [] (frames_wire (fs ++ [r])) [8; 10]) =
    Ok (mkUpd (IPV4U [mkV4 0x0a000000 8]) (IPV4U []) [AOrigin Incomplete; ANextHop (IPv4 0x0a000001); AOrigin Igp]) /\
  update_decode true p update_new (upd_body [] [] [8; 10]) = Ok (mkUpd (IPV4U [mkV4 0x0a000000 8]) (IPV4U []) []).
Proof.
  cbv zeta. split; [repeat constructor; cbn; discriminate|]. split; [repeat constructor|]. split; [intros H; apply (H 64 [2]); now left|].
  split; [intros f d [E|[E|[]]]; discriminate E|]. repeat split.
Qed.
(** IPv6 routes from two MP_REACH_NLRI, with different next hops: the getter shows those of the first *)
Example C140_reach_ex : let p := params_new 65000 180 ModeV4 1 [] in
  let r x n := (128, 14, [0; 2; 1; 16] ++ be_bytes 16 x ++ [0; 8; n]) in
  exists u, update_decode true p update_new (upd_body [] (frames_wire [r 1 32; r 2 48]) []) = Ok u /\
    u_attrs u = [AMPUpdates (BAV6 1) (IPV6U [mkV6 (32 * 2 ^ 120) 8]); AMPUpdates (BAV6 2) (IPV6U [mkV6 (48 * 2 ^ 120) 8])] /\
    get_mpupdates u = Some (BAV6 1, IPV6U [mkV6 (32 * 2 ^ 120) 8]).
Proof. cbv zeta. eexists. split; [vm_compute; reflexivity|]. split; vm_compute; reflexivity. Qed.
