(** C37 (attributes), C39-C44, C47, C78 (class), C54 (attributes), C64: path attributes. *)
From Verif Require Import Base BaseFacts M_Util S_Wire M_Prefix M_Nlri S_Nlri M_Vpls M_Mvpn S_Mvpn M_Cap M_Open M_Session
  M_Addrs S_Addrs M_Attr S_Attr F_Attr F_Attr2.

(** C39: whatever the attribute, what is written begins with its flags, its type code and the number of
    octets that follow, in one or two octets as the flags say. *)
Theorem C39_header : forall oc p a buf n b, attr_encode oc p a buf = Ok (n, b) ->
  exists k rest, b = [attr_flags a; attr_code a] ++ be_bytes (len_octets (attr_flags a)) k ++ rest /\
    k <= len_max (attr_flags a) /\ N.of_nat n = 2 + N.of_nat (len_octets (attr_flags a)) + k.
Proof. exact attr_header. Qed.
Print Assumptions C39_header.
(** A well formed value is framed around its wire form; the rest of the buffer is untouched. *)
Theorem C39_frame : forall oc p a, attr_wf p a -> N.of_nat (length (attr_wire p a)) <= len_max (attr_flags a) ->
  writes (attr_encode oc p a) (frame (attr_flags a) (attr_code a) (attr_wire p a)) (length (frame (attr_flags a) (attr_code a) (attr_wire p a))).
Proof. exact attr_encode_writes. Qed.
Print Assumptions C39_frame.
(** A payload too long for the length field is refused. *)
Theorem C39_too_long : forall oc p a buf, attr_wf p a -> len_max (attr_flags a) < N.of_nat (length (attr_wire p a)) ->
  (length (attr_full p a) <= length buf)%nat -> attr_encode oc p a buf = Err EOther.
Proof. exact refused. Qed.
Print Assumptions C39_too_long.
(** The flags are those of the RFCs, except for AGGREGATOR, which is sent as well known. *)
Theorem C78_class_partial : forall a, (forall asn ad, a <> AAggregatorAS asn ad) ->
  (fl_optional (attr_flags a), fl_transitive (attr_flags a)) = rfc_class a.
Proof. exact attr_class. Qed.
Print Assumptions C78_class_partial.
Theorem C78_aggregator_class_refuted : forall asn ad,
  (fl_optional (attr_flags (AAggregatorAS asn ad)), fl_transitive (attr_flags (AAggregatorAS asn ad))) = (false, true) /\
  rfc_class (AAggregatorAS asn ad) = (true, true).
Proof. exact (fun asn ad => conj eq_refl eq_refl). Qed.
Print Assumptions C78_aggregator_class_refuted.
Example C39_ex : let p := params_new 1 1 ModeV4 1 [] in
  attr_wf p (ACommunityList [5; 65537]) /\
  attr_encode true p (ACommunityList [5; 65537]) (repeat 9 13) = Ok (12%nat, [208; 8; 0; 8; 0; 0; 0; 5; 0; 1; 0; 1; 9]) /\
  attr_encode true p (AMED 7) (repeat 9 7) = Ok (7%nat, [128; 4; 4; 0; 0; 0; 7]) /\
  attr_encode true p (AUnknown 77 128 (repeat 1 256)) (repeat 9 300) = Err EOther.
Proof.
  cbv zeta. split; [split; [apply Forall_cons; [reflexivity|apply Forall_cons; [reflexivity|apply Forall_nil]]|]|].
  - split; [apply Forall_cons; [reflexivity|apply Forall_nil]|split; [apply Forall_nil|exact I]].
  - split; [reflexivity|]. split; vm_compute; reflexivity.
Qed.

(** C40: an attribute of unknown type decodes to its flags, type code and octets, and is written back
    as it was framed. *)
Theorem C40_unknown_verbatim : forall oc p tc f body, ~ In tc known_codes -> tc < 256 -> f < 256 -> bytes_ok body ->
  N.of_nat (length body) <= len_max f ->
  attr_decode oc p tc f (length body) body = Ok (AUnknown tc f body) /\
  forall buf, (length (frame f tc body) <= length buf)%nat ->
    attr_encode oc p (AUnknown tc f body) buf = Ok (length (frame f tc body), frame f tc body ++ skipn (length (frame f tc body)) buf).
Proof. exact unknown_verbatim. Qed.
Print Assumptions C40_unknown_verbatim.
Example C40_ex : let p := params_new 1 1 ModeV4 1 [] in ~ In 77 known_codes /\
  attr_decode true p 77 224 3 [1; 2; 3] = Ok (AUnknown 77 224 [1; 2; 3]) /\
  attr_encode true p (AUnknown 77 224 [1; 2; 3]) (repeat 0 7) = Ok (6%nat, [224; 77; 3; 1; 2; 3; 0]).
Proof. split; [cbv [known_codes In]; intuition discriminate|]. split; reflexivity. Qed.

(** C41: scalar and address attributes round trip. *)
Theorem C41_scalar_roundtrip : forall oc p a buf, scalar a -> attr_wf p a -> N.of_nat (length (attr_wire p a)) <= len_max (attr_flags a) ->
  (length (attr_full p a) <= length buf)%nat ->
  attr_encode oc p a buf = Ok (length (attr_full p a), attr_full p a ++ skipn (length (attr_full p a)) buf) /\
  attr_decode oc p (attr_code a) (attr_flags a) (length (attr_wire p a)) (attr_wire p a) = Ok a.
Proof. exact scalar_roundtrip. Qed.
Print Assumptions C41_scalar_roundtrip.
(** Only a cluster list can be too long for the length field. *)
Theorem C41_scalar_fits : forall p a, scalar a -> attr_wf p a -> (forall v, a <> AClusterList v) ->
  N.of_nat (length (attr_wire p a)) <= len_max (attr_flags a).
Proof. exact scalar_fits. Qed.
Print Assumptions C41_scalar_fits.
Example C41_ex : let p := params_new 1 1 ModeV6 1 [] in
  scalar (AConnector 5 6 7) /\ attr_wf p (AConnector 5 6 7) /\ attr_wf p (ANextHop (IPv6 77)) /\
  attr_full p (AConnector 5 6 7) = [192; 20; 14; 0; 1; 0; 0; 0; 5; 0; 0; 0; 6; 0; 0; 0; 7] /\
  attr_full p (ANextHop (IPv6 77)) = [64; 3; 16; 0; 0; 0; 0; 0; 0; 0; 0; 0; 0; 0; 0; 0; 0; 0; 77].
Proof. cbv zeta. split; [exact I|]. split; [split; [reflexivity|split; reflexivity]|]. split; [reflexivity|]. split; reflexivity. Qed.

(** C42: sets of communities round trip... *)
Theorem C42_communities_roundtrip_partial : forall oc p a buf, communities a -> attr_wf p a ->
  N.of_nat (length (attr_wire p a)) <= len_max (attr_flags a) -> (length (attr_full p a) <= length buf)%nat ->
  attr_encode oc p a buf = Ok (length (attr_full p a), attr_full p a ++ skipn (length (attr_full p a)) buf) /\
  attr_decode oc p (attr_code a) (attr_flags a) (length (attr_wire p a)) (attr_wire p a) = Ok a.
Proof. exact communities_roundtrip. Qed.
Print Assumptions C42_communities_roundtrip_partial.
(** ... on the wire each community appears once, in ascending order of its octets... *)
Theorem C42_ascending : forall p a, communities a -> attr_wf p a ->
  exists ws, attr_wire p a = concat ws /\ ascending (fun x y => be_val x ?= be_val y) ws /\
    Forall (fun w => length w = match a with ACommunityList _ => 4 | AExtCommunityList _ => 8 | _ => 12 end)%nat ws.
Proof. exact communities_ascending. Qed.
Print Assumptions C42_ascending.
(** ... and from any sequence of communities, in any order and with repetitions, the set of those
    communities is decoded. *)
Theorem C42_community_set : forall oc p f n v, Forall (fun x => x < 2 ^ 32) v -> exists s,
  attr_decode oc p 8 f n (flat_map (be_bytes 4) v) = Ok (ACommunityList s) /\ ascending N.compare s /\ forall x, In x s <-> In x v.
Proof. exact community_set. Qed.
Print Assumptions C42_community_set.
Theorem C42_extended_set : forall oc p f n v, Forall ecomm_wf v -> exists s,
  attr_decode oc p 16 f n (flat_map ecomm_wire v) = Ok (AExtCommunityList s) /\ ascending ecomm_cmp s /\ forall x, In x s <-> In x v.
Proof. exact ext_set. Qed.
Print Assumptions C42_extended_set.
Theorem C42_large_set : forall oc p f n v, Forall lcomm_wf v -> exists s,
  attr_decode oc p 32 f n (flat_map lcomm_wire v) = Ok (ALargeCommunityList s) /\ ascending lcomm_cmp s /\ forall x, In x s <-> In x v.
Proof. exact large_set. Qed.
Print Assumptions C42_large_set.
(** More than 31 extended communities cannot be sent. *)
Theorem C42_extended_refuted : forall oc p v buf, Forall ecomm_wf v -> ascending ecomm_cmp v -> (31 < length v)%nat ->
  (3 + 8 * length v <= length buf)%nat -> attr_encode oc p (AExtCommunityList v) buf = Err EOther.
Proof. exact ext_too_many. Qed.
Print Assumptions C42_extended_refuted.
Example C42_ex : let p := params_new 1 1 ModeV4 1 [] in
  attr_decode true p 32 240 36 (flat_map lcomm_wire [mkLC 2 0 0; mkLC 1 9 9; mkLC 2 0 0]) = Ok (ALargeCommunityList [mkLC 1 9 9; mkLC 2 0 0]) /\
  attr_wf p (AExtCommunityList [mkEC 0 2 1 1; mkEC 1 2 0 0]) /\
  attr_wire p (AExtCommunityList [mkEC 0 2 1 1; mkEC 1 2 0 0]) = [0; 2; 0; 1; 0; 0; 0; 1; 1; 2; 0; 0; 0; 0; 0; 0].
Proof.
  cbv zeta. split; [vm_compute; reflexivity|]. split; [|reflexivity]. split.
  - apply Forall_cons; [split; [reflexivity|split; [reflexivity|split; reflexivity]]|].
    apply Forall_cons; [split; [reflexivity|split; [reflexivity|split; reflexivity]]|apply Forall_nil].
  - split; [apply Forall_cons; [reflexivity|apply Forall_nil]|split; [apply Forall_nil|exact I]].
Qed.
Example C42_too_many_ex : let v := map (fun i => mkEC 0 2 65000 (N.of_nat i)) (seq 0 32) in
  Forall ecomm_wf v /\ ascending ecomm_cmp v /\ length v = 32%nat /\
  attr_encode true (params_new 1 1 ModeV4 1 []) (AExtCommunityList v) (repeat 0 300) = Err EOther.
Proof.
  cbv zeta. split; [|split; [|split; [reflexivity|vm_compute; reflexivity]]].
  - cbn [seq map]. repeat (apply Forall_cons; [split; [reflexivity|split; [reflexivity|split; reflexivity]]|]). apply Forall_nil.
  - cbn [seq map ascending]. repeat (split; [repeat (apply Forall_cons; [reflexivity|]); apply Forall_nil|]). exact I.
Qed.

(** C43: in a session with 4-octet AS numbers an AS path that fits the attribute round trips. *)
Theorem C43_aspath_roundtrip_partial : forall oc p v buf, sp_as32 p = true -> Forall (fun x => x < 2 ^ 32) v ->
  (2 + 4 * length v <= N.to_nat 65535)%nat -> (6 + 4 * length v <= length buf)%nat ->
  attr_encode oc p (AASPath v) buf = Ok (length (attr_full p (AASPath v)), attr_full p (AASPath v) ++ skipn (length (attr_full p (AASPath v))) buf) /\
  attr_decode oc p 2 80 (length (attr_wire p (AASPath v))) (attr_wire p (AASPath v)) = Ok (AASPath v).
Proof. exact aspath_roundtrip. Qed.
Print Assumptions C43_aspath_roundtrip_partial.
(** In a session with 2-octet AS numbers no path round trips but the empty one: the segment header is
    read as one more AS. *)
Theorem C43_two_octet_refuted : forall oc p v buf, sp_as32 p = false -> Forall (fun x => x < 65536) v -> v <> [] -> (length v <= 255)%nat ->
  (6 + 2 * length v <= length buf)%nat ->
  attr_encode oc p (AASPath v) buf = Ok (length (attr_full p (AASPath v)), attr_full p (AASPath v) ++ skipn (length (attr_full p (AASPath v))) buf) /\
  attr_decode oc p 2 80 (length (attr_wire p (AASPath v))) (attr_wire p (AASPath v)) = Ok (AASPath ((512 + N.of_nat (length v)) :: v)).
Proof. exact aspath2_broken. Qed.
Print Assumptions C43_two_octet_refuted.
(** There an AS number that needs 4 octets is sent as its low 16 bits instead of AS_TRANS. *)
Theorem C43_as_trans_refuted : forall oc p v buf, sp_as32 p = false ->
  attr_encode oc p (AASPath v) buf = attr_encode oc p (AASPath (map (fun x => x mod 65536) v)) buf.
Proof. exact aspath2_truncates. Qed.
Print Assumptions C43_as_trans_refuted.
(** More than 255 numbers are put in one segment, whose count octet is then wrong. *)
Theorem C43_long_refuted : forall oc p v buf, sp_as32 p = true -> Forall (fun x => x < 2 ^ 32) v -> (255 < length v)%nat ->
  (2 + 4 * length v <= N.to_nat 65535)%nat -> (6 + 4 * length v <= length buf)%nat ->
  exists n b c, attr_encode oc p (AASPath v) buf = Ok (n, b) /\ nth_error b 4 = Some 2 /\ nth_error b 5 = Some c /\ c <> N.of_nat (length v).
Proof. exact aspath_long. Qed.
Print Assumptions C43_long_refuted.
(** A received path of two segments is never understood. *)
Theorem C43_segments_refuted : forall oc p f n t1 n1 v1 t2 n2 v2 r, sp_as32 p = true ->
  attr_decode oc p 2 f n (([t1; n1] ++ flat_map (be_bytes 4) v1) ++ [t2; n2] ++ flat_map (be_bytes 4) v2) = Ok (AASPath r) -> r <> v1 ++ v2.
Proof. exact aspath_segments. Qed.
Print Assumptions C43_segments_refuted.
Example C43_ex : let p := params_new 1 1 ModeV4 1 [] in let p2 := mkParams 1 1 ModeV4 false 1 [] true in
  attr_encode true p (AASPath [65536; 7]) (repeat 0 14) = Ok (14%nat, [80; 2; 0; 10; 2; 2; 0; 1; 0; 0; 0; 0; 0; 7]) /\
  attr_decode true p 2 80 10 [2; 2; 0; 1; 0; 0; 0; 0; 0; 7] = Ok (AASPath [65536; 7]) /\
  attr_decode true p2 2 80 6 [2; 2; 0; 5; 0; 7] = Ok (AASPath [514; 5; 7]) /\
  attr_decode true p 2 80 12 [2; 1; 0; 0; 0; 5; 1; 1; 0; 0; 0; 7] = Ok (AASPath [33619968; 327937; 7]).
Proof. cbv zeta. split; [vm_compute; reflexivity|]. split; [vm_compute; reflexivity|]. split; vm_compute; reflexivity. Qed.

(** C44: the AGGREGATOR payload is never written, and what is announced cannot be decoded. *)
Theorem C44_aggregator_refuted : forall oc p asn a buf, (7 <= length buf)%nat ->
  exists n b, attr_encode oc p (AAggregatorAS asn a) buf = Ok (n, b) /\ n = (3 + as_octets p)%nat /\
    sub b 3 n = sub buf 3 n /\ attr_decode oc p 7 64 (n - 3) (sub b 3 n) = Err EOther.
Proof. exact aggregator_broken. Qed.
Print Assumptions C44_aggregator_refuted.
(** A correctly encoded AGGREGATOR is understood. *)
Theorem C44_aggregator_decode_partial : forall oc p f n asn a, asn < 2 ^ (8 * N.of_nat (as_octets p)) -> a < 2 ^ 32 ->
  attr_decode oc p 7 f n (attr_wire p (AAggregatorAS asn a)) = Ok (AAggregatorAS asn a).
Proof. exact aggregator_decode_rfc. Qed.
Print Assumptions C44_aggregator_decode_partial.
Example C44_ex : let p := params_new 1 1 ModeV4 1 [] in
  attr_encode true p (AAggregatorAS 5 6) (repeat 9 8) = Ok (7%nat, [64; 7; 4; 9; 9; 9; 9; 9]) /\
  attr_decode true p 7 64 4 [9; 9; 9; 9] = Err EOther /\
  attr_decode true p 7 192 8 [0; 0; 0; 5; 0; 0; 0; 6] = Ok (AAggregatorAS 5 6).
Proof. cbv zeta. split; [reflexivity|]. split; reflexivity. Qed.

(** C47: announcements with the next hop the family expects, and withdrawals, round trip in a session
    that negotiated (or detects) the path-id form of the list. *)
Theorem C47_mp_reach_roundtrip_partial : forall oc p nh a buf, addrs_wf a -> nexthop_ok a nh -> session_form p a ->
  N.of_nat (length (mp_reach_wire nh a)) <= 65535 -> (4 + length (mp_reach_wire nh a) <= length buf)%nat ->
  attr_encode oc p (AMPUpdates nh a) buf = Ok (length (attr_full p (AMPUpdates nh a)), attr_full p (AMPUpdates nh a) ++ skipn (length (attr_full p (AMPUpdates nh a))) buf) /\
  attr_decode oc p 14 144 (length (mp_reach_wire nh a)) (mp_reach_wire nh a) = Ok (AMPUpdates nh (addrs_trunc a)).
Proof. exact reach_roundtrip. Qed.
Print Assumptions C47_mp_reach_roundtrip_partial.
Theorem C47_mp_unreach_roundtrip : forall oc p a buf, addrs_wf a -> session_form p a ->
  N.of_nat (length (mp_unreach_wire a)) <= 65535 -> (4 + length (mp_unreach_wire a) <= length buf)%nat ->
  attr_encode oc p (AMPWithdraws a) buf = Ok (length (attr_full p (AMPWithdraws a)), attr_full p (AMPWithdraws a) ++ skipn (length (attr_full p (AMPWithdraws a))) buf) /\
  attr_decode oc p 15 144 (length (mp_unreach_wire a)) (mp_unreach_wire a) = Ok (AMPWithdraws (addrs_trunc a)).
Proof. exact unreach_roundtrip. Qed.
Print Assumptions C47_mp_unreach_roundtrip.
(** IPv6 FlowSpec announcements, and IPv4 FlowSpec announcements without next hop, are refused by the
    decoder; a VPNv6 announcement with a VPNv4 next hop never keeps it. *)
Theorem C47_flowspec6_refuted : forall oc p nh v, mpupdates_decode oc p (mp_reach_wire nh (FS6U v)) = Err EOther.
Proof. exact fs6_reach_refused. Qed.
Print Assumptions C47_flowspec6_refuted.
Theorem C47_flowspec4_no_nexthop_refuted : forall oc p v, mpupdates_decode oc p (mp_reach_wire BANone (FS4U v)) = Err EOther.
Proof. exact fs4_reach_no_nexthop. Qed.
Print Assumptions C47_flowspec4_no_nexthop_refuted.
Theorem C47_vpnv6_nexthop_refuted : forall oc p rd a x r, get_afi_safi x = (2, 128) \/ get_afi_safi x = (2, 129) ->
  mpupdates_decode oc p (mp_reach_wire (BAV4RD rd a) x) <> Ok (BAV4RD rd a, r).
Proof. exact s4vpnv6_reach. Qed.
Print Assumptions C47_vpnv6_nexthop_refuted.
Example C47_ex :
  let a := VPNV4U [mkLab (mkWRD (mkV4 0x0a010000 16) (mkRD 100 7)) [500]] in
  let p := mkParams 1 180 ModeV4 true 1 [] false in
  addrs_wf a /\ nexthop_ok a (BAV4RD (mkRD 0 0) 5) /\ session_form p a /\
  mp_reach_wire (BAV4RD (mkRD 0 0) 5) a = [0; 1; 128; 12; 0; 0; 0; 0; 0; 0; 0; 0; 0; 0; 0; 5; 0; 104; 0; 31; 65; 0; 0; 0; 100; 0; 0; 0; 7; 10; 1] /\
  attr_decode true p 14 144 31 (mp_reach_wire (BAV4RD (mkRD 0 0) 5) a) = Ok (AMPUpdates (BAV4RD (mkRD 0 0) 5) a).
Proof.
  cbv zeta. split.
  - cbn [addrs_wf]. apply Forall_cons; [|apply Forall_nil]. split; [|reflexivity]. split.
    + split; [discriminate|]. split; [apply Forall_cons; [reflexivity|apply Forall_nil]|constructor].
    + split; [split; reflexivity|split; [reflexivity|discriminate]].
  - split; [split; [split; [split; reflexivity|reflexivity]|exact I]|]. split; [intros _; reflexivity|]. split; [reflexivity|vm_compute; reflexivity].
Qed.

(** C37: the decoders of ORIGIN, AS_PATH, NEXT_HOP, MED, LOCAL_PREF, ATOMIC_AGGREGATE, AGGREGATOR,
    CLUSTER_LIST, extended communities, CONNECTOR and of unknown attributes never panic. *)
Theorem C37_attributes_partial : forall oc p tc f buf, ~ In tc panicky -> attr_decode oc p tc f (length buf) buf <> Panic.
Proof. exact attr_decode_np. Qed.
Print Assumptions C37_attributes_partial.
(** Each of the others does. *)
Theorem C37_attributes_refuted : forall oc p tc f n buf, panics_on p tc buf -> attr_decode oc p tc f n buf = Panic.
Proof. exact attr_decode_panics. Qed.
Print Assumptions C37_attributes_refuted.
Example C37_attributes_ex : let p := params_new 1 1 ModeV4 1 [] in
  panics_on p 8 [1; 2; 3] /\ attr_decode true p 8 192 3 [1; 2; 3] = Panic /\
  panics_on p 14 [0; 1; 1] /\ attr_decode true p 14 128 3 [0; 1; 1] = Panic /\
  attr_decode true p 7 192 3 [1; 2; 3] = Err EOther.
Proof. cbv zeta. split; [discriminate|]. split; [reflexivity|]. split; [cbn; auto|]. split; reflexivity. Qed.

(** C54: decoding an attribute terminates. *)
Theorem C54_attr_terminates : forall oc p tc f n buf, attr_decode oc p tc f n buf <> OutOfFuel.
Proof. exact attr_decode_nf. Qed.
Print Assumptions C54_attr_terminates.

(** C64: a route target made from an IPv4 address and a number is the RFC 4360 IPv4-specific form and
    gives both back. *)
Theorem C64_route_target_ip : forall ip n, ip < 2 ^ 32 -> n < 2 ^ 16 -> exists x, rt_ipn ip n = Ok x /\ get_ipv4 x = ip /\ get_num x = n /\
  ecomm_wf x /\ ecomm_wire x = [1; 2] ++ be_bytes 4 ip ++ be_bytes 2 n.
Proof. exact rt_ipn_facts. Qed.
Print Assumptions C64_route_target_ip.
(** The AS form. *)
Theorem C64_route_target_as : forall asn n, ecomm_wire (rt_asn asn n) = [0; 2] ++ be_bytes 2 asn ++ be_bytes 4 n.
Proof. exact (fun asn n => eq_refl). Qed.
Print Assumptions C64_route_target_as.
(** An extended community made from a 64-bit number has that number's octets. *)
Theorem C64_from_u64 : forall v, v < 2 ^ 64 -> exists x, ecomm_from_u64 v = Ok x /\ ecomm_wire x = be_bytes 8 v.
Proof. exact ecomm_from_u64_wire. Qed.
Print Assumptions C64_from_u64.
Example C64_ex : rt_ipn 0xc0a80001 77 = Ok (mkEC 1 2 49320 65613) /\ get_ipv4 (mkEC 1 2 49320 65613) = 0xc0a80001 /\ get_num (mkEC 1 2 49320 65613) = 77.
Proof. split; [reflexivity|]. split; reflexivity. Qed.
