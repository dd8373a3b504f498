(** C141: the flags of received attributes. *)
From Verif Require Import Base M_Util S_Wire M_Prefix S_Prefix M_Nlri S_Nlri M_Vpls M_Cap M_Open M_Session M_Mvpn M_Evpn M_Flowspec M_Addrs M_Attr S_Attr M_Update S_Update S_Exact S_Join S_Once S_RFlag F_RFlag.

(** With any other flags on attributes of known types, and a length of one octet or of two, an UPDATE is the same message:
    accepted alike, with the same routes and attributes. So the form of the length does not matter; but flags that
    contradict the type (RFC 4271 6.3: an error) are not noticed, and the partial bit of an attribute is lost. *)
Theorem C141_flags_refuted : forall oc p w fs fs' nl u, Forall2 but_for_flags fs fs' -> bytes_ok w -> bytes_ok nl -> bytes_ok (frames_wire fs) -> bytes_ok (frames_wire fs') ->
  Forall frame_ok fs -> Forall frame_ok fs' -> N.of_nat (length w) < 2 ^ 16 -> N.of_nat (length (frames_wire fs)) < 2 ^ 16 -> N.of_nat (length (frames_wire fs')) < 2 ^ 16 ->
  update_decode oc p update_new (upd_body w (frames_wire fs) nl) = Ok u <-> update_decode oc p update_new (upd_body w (frames_wire fs') nl) = Ok u.
Proof. exact flags_ignored. Qed.
Print Assumptions C141_flags_refuted.
(** ORIGIN as an optional attribute, with the partial and the unused bits, and a length of two octets *)
Example C141_flags_ex : let p := params_new 65000 180 ModeV4 1 [] in let fs := [(64, 1, [2]); (192, 99, [7])] in let fs' := [(255, 1, [2]); (192, 99, [7])] in
  Forall2 but_for_flags fs fs' /\ frames_wire fs = [64; 1; 1; 2; 192; 99; 1; 7] /\ frames_wire fs' = [255; 1; 0; 1; 2; 192; 99; 1; 7] /\
  update_decode true p update_new (upd_body [] (frames_wire fs) [8; 10]) = Ok (mkUpd (IPV4U [mkV4 0x0a000000 8]) (IPV4U []) [AOrigin Incomplete; AUnknown 99 192 [7]]) /\
  update_decode true p update_new (upd_body [] (frames_wire fs') [8; 10]) = Ok (mkUpd (IPV4U [mkV4 0x0a000000 8]) (IPV4U []) [AOrigin Incomplete; AUnknown 99 192 [7]]).
Proof. cbv zeta. split; [repeat constructor; cbn; tauto|]. repeat split. Qed.
(** The same of one attribute, be it accepted, refused or the end of the program. *)
Theorem C141_attribute : forall oc p tc f f' n n' d, In tc known_codes -> attr_decode oc p tc f n d = attr_decode oc p tc f' n' d.
Proof. exact attr_flags_ignored. Qed.
Print Assumptions C141_attribute.
Example C141_attribute_ex : In 8 known_codes /\ attr_decode true (params_new 1 180 ModeV4 1 []) 8 224 4 [0; 1; 0; 2] = Ok (ACommunityList [0x10002]) /\
  attr_decode true (params_new 1 180 ModeV4 1 []) 8 192 4 [0; 1; 0; 2] = Ok (ACommunityList [0x10002]).
Proof. split; [cbn; tauto|]. split; vm_compute; reflexivity. Qed.
(** An attribute of an unknown type is kept with its flags and payload behind any others, also if its flags say that it is
    well-known (RFC 4271 6.3: an error) or optional and non-transitive (section 9: quietly ignored). *)
Theorem C141_unknown_refuted : forall oc p w fs f tc d nl u, ~ In tc known_codes -> bytes_ok w -> bytes_ok nl -> bytes_ok (frames_wire (fs ++ [(f, tc, d)])) -> Forall frame_ok (fs ++ [(f, tc, d)]) ->
  N.of_nat (length w) < 2 ^ 16 -> N.of_nat (length (frames_wire (fs ++ [(f, tc, d)]))) < 2 ^ 16 ->
  update_decode oc p update_new (upd_body w (frames_wire fs) nl) = Ok u ->
  update_decode oc p update_new (upd_body w (frames_wire (fs ++ [(f, tc, d)])) nl) = Ok (mkUpd (u_updates u) (u_withdraws u) (u_attrs u ++ [AUnknown tc f d])).
Proof. exact unknown_kept. Qed.
Print Assumptions C141_unknown_refuted.
(** a well-known and an optional non-transitive attribute of type 99 *)
Example C141_unknown_ex : let p := params_new 65000 180 ModeV4 1 [] in
  ~ In 99 known_codes /\
  update_decode true p update_new (upd_body [] (frames_wire [(64, 99, [7]); (128, 99, [7; 8])]) []) = Ok (mkUpd (IPV4U []) (IPV4U []) [AUnknown 99 64 [7]; AUnknown 99 128 [7; 8]]).
Proof. cbv zeta. split; [cbn; intuition discriminate|]. vm_compute. reflexivity. Qed.
