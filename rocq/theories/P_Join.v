(** * C126: lists of routes can be put together and taken apart
    * C127: the order of the attributes of an UPDATE does not matter *)
From Coq Require Import Permutation.
From Verif Require Import Base M_Util S_Wire M_Prefix S_Prefix M_Nlri S_Nlri M_Vpls M_Cap M_Open M_Session M_Mvpn M_Evpn M_Flowspec M_Addrs M_Attr S_Attr M_Update S_Update S_Exact S_Join F_Join F_Join2 F_Join3 F_Join4.

(** * C126 *)

(** What follows a list of routes that was read to its end is read as if it stood alone, and so are its errors.
    [n1] is the number of octets the decoder says it has read; where that is more than there were, as after FlowSpec
    prefixes, the excess is missing from what follows. *)
Theorem C126_read : forall oc p afi sf b1 b2 a1 n1, bytes_ok b1 -> bytes_ok b2 -> addrs_decode oc p afi sf b1 = Ok (a1, n1) -> (length b1 <= n1)%nat ->
  same_form p afi sf b1 b2 ->
  comes_after a1 n1 (addrs_decode oc p afi sf (skipn (n1 - length b1) b2)) (addrs_decode oc p afi sf (b1 ++ b2)).
Proof. exact routes_join. Qed.
Print Assumptions C126_read.
Example C126_read_ex : let p := params_new 65000 180 ModeV4 1 [] in
  let b1 := [8; 10; 16; 172; 16] in let b2 := [24; 192; 168; 1] in
  bytes_ok b1 /\ bytes_ok b2 /\ same_form p 1 1 b1 b2 /\
  addrs_decode true p 1 1 b1 = Ok (IPV4U [mkV4 0x0a000000 8; mkV4 0xac100000 16], 5%nat) /\
  addrs_decode true p 1 1 b2 = Ok (IPV4U [mkV4 0xc0a80100 24], 4%nat) /\
  addrs_decode true p 1 1 (b1 ++ b2) = Ok (IPV4U [mkV4 0x0a000000 8; mkV4 0xac100000 16; mkV4 0xc0a80100 24], 9%nat) /\
  addrs_decode true p 1 1 (b1 ++ [33; 1; 2; 3; 4; 5]) = addrs_decode true p 1 1 [33; 1; 2; 3; 4; 5].
Proof.
  repeat split; try (repeat constructor; fail). right.
  assert (X : forall x b, x <> 0 -> ~ asks_pid (params_new 65000 180 ModeV4 1 []) 1 1 (x :: b)) by (intros x b H [E|(_ & _ & r & E)]; [discriminate E|congruence]).
  split; split; intros H; apply X in H; discriminate || contradiction.
Qed.

(** Writing: the second list is written behind the first as if its buffer began there; if the first list cannot be
    written, nothing else can. *)
Theorem C126_written : forall oc a1 a2 a buf n1 b1, addrs_join a1 a2 = Some a -> addrs_encode oc a1 buf = Ok (n1, b1) -> (n1 <= length b1)%nat ->
  written_after n1 b1 (addrs_encode oc a2 (skipn n1 b1)) (addrs_encode oc a buf).
Proof. exact routes_written. Qed.
Print Assumptions C126_written.
Theorem C126_unwritten : forall oc a1 a2 a buf, addrs_join a1 a2 = Some a -> (forall n b, addrs_encode oc a1 buf <> Ok (n, b)) ->
  addrs_encode oc a buf = addrs_encode oc a1 buf.
Proof. exact routes_unwritten'. Qed.
Print Assumptions C126_unwritten.
Example C126_written_ex : let a1 := IPV4U [mkV4 0x0a000000 8] in let a2 := IPV4U [mkV4 0xc0a80100 24] in
  addrs_join a1 a2 = Some (IPV4U [mkV4 0x0a000000 8; mkV4 0xc0a80100 24]) /\
  addrs_encode true a1 (repeat 9 7) = Ok (2%nat, [8; 10; 9; 9; 9; 9; 9]) /\
  addrs_encode true a2 [9; 9; 9; 9; 9] = Ok (4%nat, [24; 192; 168; 1; 9]) /\
  addrs_encode true (IPV4U [mkV4 0x0a000000 8; mkV4 0xc0a80100 24]) (repeat 9 7) = Ok (6%nat, [8; 10; 24; 192; 168; 1; 9]) /\
  addrs_encode true a1 [9] = Panic /\ addrs_encode true (IPV4U [mkV4 0x0a000000 8; mkV4 0xc0a80100 24]) [9] = Panic.
Proof. repeat split. Qed.

(** UPDATE: routes in front of the announced or the withdrawn routes come in front of them in the message, and change
    nothing else. *)
Theorem C126_announced : forall oc p w s b1 b2 a1 u, bytes_ok w -> bytes_ok s -> bytes_ok b1 -> bytes_ok b2 -> N.of_nat (length w) < 2 ^ 16 -> N.of_nat (length s) < 2 ^ 16 ->
  addrs_decode oc p (own_afi p) 1 b1 = Ok (a1, length b1) -> same_form p (own_afi p) 1 b1 b2 ->
  update_decode oc p update_new (upd_body w s (b1 ++ b2)) = Ok u <->
  exists u2, update_decode oc p update_new (upd_body w s b2) = Ok u2 /\ addrs_join a1 (u_updates u2) = Some (u_updates u) /\
             u_withdraws u = u_withdraws u2 /\ u_attrs u = u_attrs u2.
Proof. exact update_join_announced. Qed.
Print Assumptions C126_announced.
Theorem C126_withdrawn : forall oc p w1 w2 s nl a1 u, bytes_ok w1 -> bytes_ok w2 -> bytes_ok s -> bytes_ok nl ->
  N.of_nat (length w1) + N.of_nat (length w2) < 2 ^ 16 -> N.of_nat (length s) < 2 ^ 16 ->
  addrs_decode oc p (own_afi p) 1 w1 = Ok (a1, length w1) -> same_form p (own_afi p) 1 w1 w2 ->
  update_decode oc p update_new (upd_body (w1 ++ w2) s nl) = Ok u <->
  exists u2, update_decode oc p update_new (upd_body w2 s nl) = Ok u2 /\ addrs_join a1 (u_withdraws u2) = Some (u_withdraws u) /\
             u_updates u = u_updates u2 /\ u_attrs u = u_attrs u2.
Proof. exact update_join_withdrawn. Qed.
Print Assumptions C126_withdrawn.
Example C126_update_ex : let p := params_new 65000 180 ModeV4 1 [] in
  addrs_decode true p (own_afi p) 1 [8; 10] = Ok (IPV4U [mkV4 0x0a000000 8], length [8; 10]) /\
  update_decode true p update_new (upd_body [16; 172; 16] [64; 1; 1; 0] [24; 192; 168; 1]) =
    Ok (mkUpd (IPV4U [mkV4 0xc0a80100 24]) (IPV4U [mkV4 0xac100000 16]) [AOrigin Igp]) /\
  update_decode true p update_new (upd_body [16; 172; 16] [64; 1; 1; 0] ([8; 10] ++ [24; 192; 168; 1])) =
    Ok (mkUpd (IPV4U [mkV4 0x0a000000 8; mkV4 0xc0a80100 24]) (IPV4U [mkV4 0xac100000 16]) [AOrigin Igp]) /\
  update_decode true p update_new (upd_body ([8; 10] ++ [16; 172; 16]) [64; 1; 1; 0] [24; 192; 168; 1]) =
    Ok (mkUpd (IPV4U [mkV4 0xc0a80100 24]) (IPV4U [mkV4 0x0a000000 8; mkV4 0xac100000 16]) [AOrigin Igp]).
Proof. repeat split. Qed.

(** Not so for FlowSpec: of what follows a rule with a destination prefix the first octet, whatever it is, is lost. *)
Theorem C126_flowspec_refuted : forall oc p bits s x b2, bits <= 32 -> length s = prefix_octets bits -> bytes_ok s -> is_byte x -> bytes_ok b2 ->
  let rule := [1; bits] ++ s in let b1 := N.of_nat (length rule) :: rule in
  exists a, v4_len a = bits /\ be_bytes 4 (v4_addr a) = s ++ repeat 0 (4 - length s) /\
    addrs_decode oc p 1 133 b1 = Ok (FS4U [FsDst a], S (length b1)) /\
    comes_after (FS4U [FsDst a]) (S (length b1)) (addrs_decode oc p 1 133 b2) (addrs_decode oc p 1 133 (b1 ++ x :: b2)).
Proof. exact flow_join. Qed.
Print Assumptions C126_flowspec_refuted.
Example C126_flowspec_ex : let p := params_new 65000 180 ModeV4 1 [] in
  addrs_decode true p 1 133 [3; 1; 8; 10] = Ok (FS4U [FsDst (mkV4 0x0a000000 8)], 5%nat) /\
  addrs_decode true p 1 133 ([3; 1; 8; 10] ++ [7; 3; 1; 8; 11]) = Ok (FS4U [FsDst (mkV4 0x0a000000 8); FsDst (mkV4 0x0b000000 8)], 10%nat).
Proof. repeat split. Qed.
(** Nor where path identifiers are guessed: two default routes make the rest look like routes with identifiers. *)
Theorem C126_guess_refuted : forall oc p b2 v n, sp_fuzzy p = true -> check_addpath_receive p 1 1 = false -> bytes_ok (0 :: b2) -> (3 <= length b2)%nat ->
  addrs_decode oc p 1 1 (0 :: b2) = Ok (IPV4U v, n) ->
  addrs_decode oc p 1 1 [0] = Ok (IPV4U [mkV4 0 0], 1%nat) /\
  ~ comes_after (IPV4U [mkV4 0 0]) 1 (addrs_decode oc p 1 1 (0 :: b2)) (addrs_decode oc p 1 1 ([0] ++ 0 :: b2)).
Proof. exact fuzzy_join. Qed.
Print Assumptions C126_guess_refuted.
Example C126_guess_ex : let p := params_new 65000 180 ModeV4 1 [] in
  sp_fuzzy p = true /\ check_addpath_receive p 1 1 = false /\
  addrs_decode true p 1 1 [0; 8; 10; 0] = Ok (IPV4U [mkV4 0 0; mkV4 0x0a000000 8; mkV4 0 0], 4%nat) /\
  addrs_decode true p 1 1 [0; 0; 8; 10; 0] = Ok (IPV4UP [mkPid 0x080a (mkV4 0 0)], 5%nat).
Proof. repeat split. Qed.

(** * C127 *)

(** Attributes in another order are read as the same attributes, in that order; the routes do not change. *)
Theorem C127_reordered : forall oc p w fs fs' nl u, Permutation fs fs' -> Forall frame_ok fs -> bytes_ok w -> bytes_ok (frames_wire fs) -> bytes_ok nl ->
  N.of_nat (length w) < 2 ^ 16 -> N.of_nat (length (frames_wire fs)) < 2 ^ 16 -> update_decode oc p update_new (upd_body w (frames_wire fs) nl) = Ok u ->
  exists v, update_decode oc p update_new (upd_body w (frames_wire fs') nl) = Ok (mkUpd (u_updates u) (u_withdraws u) v) /\ Permutation (u_attrs u) v.
Proof. exact update_reordered. Qed.
Print Assumptions C127_reordered.
(** If no attribute occurs twice, every getter returns the same. *)
Theorem C127_getters : forall oc p w fs fs' nl u u', Permutation fs fs' -> NoDup (map (fun x => snd (fst x)) fs) -> Forall frame_ok fs -> bytes_ok w -> bytes_ok (frames_wire fs) -> bytes_ok nl ->
  N.of_nat (length w) < 2 ^ 16 -> N.of_nat (length (frames_wire fs)) < 2 ^ 16 -> update_decode oc p update_new (upd_body w (frames_wire fs) nl) = Ok u ->
  update_decode oc p update_new (upd_body w (frames_wire fs') nl) = Ok u' ->
  get_attr_origin u = get_attr_origin u' /\ get_attr_aspath u = get_attr_aspath u' /\ get_attr_communitylist u = get_attr_communitylist u' /\
  get_attr_largecommunitylist u = get_attr_largecommunitylist u' /\ get_attr_extcommunitylist u = get_attr_extcommunitylist u' /\
  get_attr_nexthop u = get_attr_nexthop u' /\ get_mpupdates u = get_mpupdates u' /\ get_mpwithdraws u = get_mpwithdraws u'.
Proof. exact getters_reordered. Qed.
Print Assumptions C127_getters.
Example C127_ex : let p := params_new 65000 180 ModeV4 1 [] in
  let fs := [(64, 1, [2]); (64, 3, [10; 0; 0; 1]); (192, 99, [7])] in let fs' := [(192, 99, [7]); (64, 1, [2]); (64, 3, [10; 0; 0; 1])] in
  Permutation fs fs' /\ Forall frame_ok fs /\ NoDup (map (fun x => snd (fst x)) fs) /\
  update_decode true p update_new (upd_body [] (frames_wire fs) [8; 10]) =
    Ok (mkUpd (IPV4U [mkV4 0x0a000000 8]) (IPV4U []) [AOrigin Incomplete; ANextHop (IPv4 0x0a000001); AUnknown 99 192 [7]]) /\
  update_decode true p update_new (upd_body [] (frames_wire fs') [8; 10]) =
    Ok (mkUpd (IPV4U [mkV4 0x0a000000 8]) (IPV4U []) [AUnknown 99 192 [7]; AOrigin Incomplete; ANextHop (IPv4 0x0a000001)]).
Proof.
  repeat split; try (repeat constructor; cbn; intuition discriminate).
  apply Permutation_sym, (Permutation_middle [_; _] []).
Qed.
