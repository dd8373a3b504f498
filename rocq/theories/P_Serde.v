(** C85-C89: serialization with serde. [ser hr t v] is what the value [v] of type [t] tells a format, [presents ix s d] says that [d] is
    an answer of a format that hands back what it was given ([ix]: fields may be identified by number), [de hr t d] is what is
    read from it. [g_attr], [g_addrs], ... show the model's values to serde; they lose nothing ([C85_attributes_injective]). *)
From Coq Require Import Ascii String.
From Verif Require Import Base S_Attr S_Nlri S_Prefix S_Text S_Text2 M_Util M_Prefix M_Nlri M_Vpls M_Mvpn M_Evpn M_Flowspec M_Addrs M_Attr M_Text M_Text2 M_Serde S_Serde S_Serde2 F_Serde4 F_Serde5 F_Serde6.

(** * C85: serialization round trip *)

(** Attributes without FlowSpec rules come back as they were, from every faithful format that identifies fields by name (JSON, YAML, ...) or
    by position (bincode, ...), human-readable or not, however deep attribute sets are nested. *)
Theorem C85_attributes_partial : forall hr n a d, attr_any a -> (sets_deep a <= n)%nat -> attr_lists flow_list a = false ->
  presents false (ser hr (T_Attr n) (g_attr a)) d -> de hr (T_Attr n) d = SOk (g_attr a).
Proof. exact attr_rt. Qed.
Print Assumptions C85_attributes_partial.

(** With FlowSpec rules anywhere in them, they never do: reading always fails. *)
Theorem C85_attributes_refuted : forall hr n a d, attr_any a -> (sets_deep a <= n)%nat -> attr_lists flow_list a = true ->
  presents false (ser hr (T_Attr n) (g_attr a)) d -> de hr (T_Attr n) d = SErr InvalidType.
Proof. exact attr_rt_flow. Qed.
Print Assumptions C85_attributes_refuted.

(** The same for lists of routes. *)
Theorem C85_routes_partial : forall hr a d, addrs_any a -> flow_list a = false ->
  presents false (ser hr T_Addrs (g_addrs a)) d -> de hr T_Addrs d = SOk (g_addrs a).
Proof. exact addrs_rt. Qed.
Print Assumptions C85_routes_partial.

Theorem C85_routes_refuted : forall hr a d, addrs_any a -> flow_list a = true ->
  presents false (ser hr T_Addrs (g_addrs a)) d -> de hr T_Addrs d = SErr InvalidType.
Proof. exact addrs_rt_flow. Qed.
Print Assumptions C85_routes_refuted.

(** [BgpNet], in every faithful format. *)
Theorem C85_net : forall hr ix n d, net_any n -> presents ix (ser hr TNet (GNet n)) d -> de hr TNet d = SOk (GNet n).
Proof. exact net_read. Qed.
Print Assumptions C85_net.

(** A format that numbers the fields gets back attributes without FlowSpec rules and without routes that have labels, a route
    distinguisher or a path identifier ... *)
Theorem C85_numbered_partial : forall hr n a d, attr_any a -> (sets_deep a <= n)%nat -> attr_lists flow_list a = false -> attr_lists wrapped_list a = false ->
  presents true (ser hr (T_Attr n) (g_attr a)) d -> de hr (T_Attr n) d = SOk (g_attr a).
Proof. exact attr_num. Qed.
Print Assumptions C85_numbered_partial.

(** ... and only those: the hand-written visitors refuse numbers. *)
Theorem C85_numbered_refuted : forall hr n a, attr_any a -> (sets_deep a <= n)%nat -> (attr_lists flow_list a || attr_lists wrapped_list a)%bool = true ->
  presents true (ser hr (T_Attr n) (g_attr a)) (num_doc (ser hr (T_Attr n) (g_attr a))) /\
  de hr (T_Attr n) (num_doc (ser hr (T_Attr n) (g_attr a))) = SErr InvalidType.
Proof. exact attr_num_bad. Qed.
Print Assumptions C85_numbered_refuted.

(** Different values are different to serde. *)
Theorem C85_attributes_injective : forall a b, g_attr a = g_attr b -> a = b.
Proof. exact inj_attr. Qed.
Print Assumptions C85_attributes_injective.

Theorem C85_routes_injective : forall a b, g_addrs a = g_addrs b -> a = b.
Proof. exact inj_addrs. Qed.
Print Assumptions C85_routes_injective.

Definition ex85_routes : addrs :=
  VPNV4UP [mkPid 7 (mkLab (mkWRD (mkV4 0x0a000000 8) (mkRD 1 2)) [16; 17])].
Definition ex85_attr : attr :=
  AAttrSet 65000 [AMPUpdates (BAV4RD (mkRD 0 0) 0x0a000001) ex85_routes; ACommunityList [5; 9]; AAttrSet 1 [AOrigin Egp]].
Definition ex85_flow : attr := AMPWithdraws (FS4U [FsProto [mkFsVal false false false true 6]]).
Example C85_ex_any : attr_any ex85_attr /\ attr_any ex85_flow /\ addrs_any ex85_routes.
Proof.
  assert (R : addrs_any ex85_routes).
  { apply Forall_cons; [|apply Forall_nil]. split; [reflexivity|]. split; [apply Forall_cons; [reflexivity|]; apply Forall_cons; [reflexivity|apply Forall_nil]|].
    split; split; reflexivity. }
  split; [|split; [|exact R]].
  - split; [reflexivity|]. split; [split; [split; [split; reflexivity|reflexivity]|exact R]|]. split.
    { split; [apply Forall_cons; [reflexivity|]; apply Forall_cons; [reflexivity|apply Forall_nil]|].
      repeat constructor. }
    split; [|exact I]. split; [reflexivity|]. now split.
  - apply Forall_cons; [|apply Forall_nil]. apply Forall_cons; [reflexivity|apply Forall_nil].
Qed.
Example C85_ex :
  sets_deep ex85_attr = 2%nat /\ attr_lists flow_list ex85_attr = false /\ attr_lists wrapped_list ex85_attr = true /\
  attr_lists flow_list ex85_flow = true /\
  presents false (ser true (T_Attr 2) (g_attr ex85_attr)) (name_doc (ser true (T_Attr 2) (g_attr ex85_attr))) /\
  name_doc (ser true T_Addrs (g_addrs ex85_routes)) =
    DEnum (KName (txt "VPNV4UP")) (Some (DSeq [DMap [(KName (txt "pathid"), DNum 7); (KName (txt "nlri"),
      DMap [(KName (txt "labels"), DSeq [DNum 16; DNum 17]); (KName (txt "prefix"),
        DMap [(KName (txt "rd"), DMap [(KName (txt "rdh"), DNum 1); (KName (txt "rdl"), DNum 2)]); (KName (txt "prefix"),
          DMap [(KName (txt "addr"), DStr (txt "10.0.0.0")); (KName (txt "prefixlen"), DNum 8)])])])]])) /\
  de true (T_Attr 2) (name_doc (ser true (T_Attr 2) (g_attr ex85_attr))) = SOk (g_attr ex85_attr) /\
  de false (T_Attr 2) (name_doc (ser false (T_Attr 2) (g_attr ex85_attr))) = SOk (g_attr ex85_attr).
Proof.
  do 4 (split; [reflexivity|]). split; [apply name_presents|]. split; [vm_compute; reflexivity|]. split; vm_compute; reflexivity.
Qed.

(** * C86: FlowSpec rules *)

(** A rule is read only from a map with one entry whose key is the name of the component ... *)
Theorem C86_accepts : forall hr t d v,
  de hr (T_Flow t) d = SOk v <->
  exists i nm d' w, nth_error BFS_VARS i = Some nm /\ d = DMap [(KName nm, d')] /\
    de hr (match i with O | 1%nat => t | 8%nat | 11%nat => TVec T_FsMask | _ => TVec T_FsVal end) d' = SOk w /\ v = GVariant i (Some w).
Proof. exact flow_reads. Qed.
Print Assumptions C86_accepts.

(** ... but written as an enum variant, so that no rule of any kind is ever read back, whatever the format: *)
Theorem C86_ipv4_refuted : forall hr ix f d, flow_any v4_any f ->
  presents ix (ser hr (T_Flow T_V4) (g_flow g_v4 f)) d -> de hr (T_Flow T_V4) d = SErr InvalidType.
Proof. exact flow_fails4. Qed.
Print Assumptions C86_ipv4_refuted.

Theorem C86_ipv6_refuted : forall hr ix f d, flow_any fs6_any f ->
  presents ix (ser hr (T_Flow T_Fs6) (g_flow g_fs6 f)) d -> de hr (T_Flow T_Fs6) d = SErr InvalidType.
Proof. exact flow_fails6. Qed.
Print Assumptions C86_ipv6_refuted.

Theorem C86_vpn_refuted : forall hr ix f d, flow_any (wrd_any v4_any) f ->
  presents ix (ser hr (T_Flow (TRd T_V4)) (g_flow (g_wrd g_v4) f)) d -> de hr (T_Flow (TRd T_V4)) d = SErr InvalidType.
Proof. exact flow_fails_vpn. Qed.
Print Assumptions C86_vpn_refuted.

Example C86_ex :
  let f := FsDst (mkV4 0x0a000000 8) in
  let d := name_doc (ser true (T_Flow T_V4) (g_flow g_v4 f)) in
  d = DEnum (KName (txt "PrefixDst")) (Some (DMap [(KName (txt "addr"), DStr (txt "10.0.0.0")); (KName (txt "prefixlen"), DNum 8)])) /\
  de true (T_Flow T_V4) d = SErr InvalidType /\
  de true (T_Flow T_V4) (DMap [(KName (txt "PrefixDst"), DMap [(KName (txt "addr"), DStr (txt "10.0.0.0")); (KName (txt "prefixlen"), DNum 8)])]) =
    SOk (g_flow g_v4 f).
Proof. repeat split; vm_compute; reflexivity. Qed.

(** * C87: what the hand-written visitors accept *)

(** [WithRd], [Labeled] and [WithPathId]: exactly the two fields, by position or by name in either order. *)
Theorem C87_with_rd : forall hr t d v, de hr (TRd t) d = SOk v <->
  exists da db a b, de hr T_RD da = SOk a /\ de hr t db = SOk b /\ v = GPair a b /\
    (d = DSeq [da; db] \/ d = DMap [(KName (txt "rd"), da); (KName (txt "prefix"), db)] \/ d = DMap [(KName (txt "prefix"), db); (KName (txt "rd"), da)]).
Proof. exact rd_accepts. Qed.
Print Assumptions C87_with_rd.

Theorem C87_labeled : forall hr t d v, de hr (TLab t) d = SOk v <->
  exists da db a b, de hr T_Labels da = SOk a /\ de hr t db = SOk b /\ v = GPair a b /\
    (d = DSeq [da; db] \/ d = DMap [(KName (txt "labels"), da); (KName (txt "prefix"), db)] \/ d = DMap [(KName (txt "prefix"), db); (KName (txt "labels"), da)]).
Proof. exact lab_accepts. Qed.
Print Assumptions C87_labeled.

Theorem C87_with_pathid : forall hr t d v, de hr (TPid t) d = SOk v <->
  exists da db a b, de hr (TUint 32) da = SOk a /\ de hr t db = SOk b /\ v = GPair a b /\
    (d = DSeq [da; db] \/ d = DMap [(KName (txt "pathid"), da); (KName (txt "nlri"), db)] \/ d = DMap [(KName (txt "nlri"), db); (KName (txt "pathid"), da)]).
Proof. exact pid_accepts. Qed.
Print Assumptions C87_with_pathid.

(** A missing field is named in the error ... *)
Theorem C87_with_rd_missing : forall hr t da db a b, de hr T_RD da = SOk a -> de hr t db = SOk b ->
  de hr (TRd t) (DMap []) = SErr (MissingField (txt "rd")) /\
  de hr (TRd t) (DMap [(KName (txt "prefix"), db)]) = SErr (MissingField (txt "rd")) /\
  de hr (TRd t) (DMap [(KName (txt "rd"), da)]) = SErr (MissingField (txt "prefix")).
Proof. exact rd_missing. Qed.
Print Assumptions C87_with_rd_missing.

Theorem C87_labeled_missing : forall hr t da db a b, de hr T_Labels da = SOk a -> de hr t db = SOk b ->
  de hr (TLab t) (DMap []) = SErr (MissingField (txt "labels")) /\
  de hr (TLab t) (DMap [(KName (txt "prefix"), db)]) = SErr (MissingField (txt "labels")) /\
  de hr (TLab t) (DMap [(KName (txt "labels"), da)]) = SErr (MissingField (txt "prefix")).
Proof. exact lab_missing. Qed.
Print Assumptions C87_labeled_missing.

(** ... but [WithPathId] always names a field it does not have. *)
Theorem C87_with_pathid_missing_refuted : forall hr t da db a b, de hr (TUint 32) da = SOk a -> de hr t db = SOk b ->
  de hr (TPid t) (DMap []) = SErr (MissingField (txt "rd")) /\
  de hr (TPid t) (DMap [(KName (txt "nlri"), db)]) = SErr (MissingField (txt "rd")) /\
  de hr (TPid t) (DMap [(KName (txt "pathid"), da)]) = SErr (MissingField (txt "prefix")).
Proof. exact pid_missing. Qed.
Print Assumptions C87_with_pathid_missing_refuted.

Example C87_ex :
  de true (TPid (TUint 8)) (DMap [(KName (txt "nlri"), DNum 5); (KName (txt "pathid"), DNum 7)]) = SOk (GPair (GNum 7) (GNum 5)) /\
  de true T_RD (DSeq [DNum 1; DNum 2]) = SOk (GList [GNum 1; GNum 2]) /\ de true T_Labels (DSeq [DNum 16]) = SOk (GList [GNum 16]).
Proof. repeat split; vm_compute; reflexivity. Qed.

(** * C88: fields that are not known *)

(** In a struct with a derived implementation they do not matter ... *)
Theorem C88_derived : forall hr fs es1 s d es2, ~ In s (map fst fs) ->
  de hr (TStruct fs) (DMap (es1 ++ (KName s, d) :: es2)) = de hr (TStruct fs) (DMap (es1 ++ es2)).
Proof. exact unknown_ignored. Qed.
Print Assumptions C88_derived.

(** ... in the hand-written ones nothing is read, wherever the field is. *)
Theorem C88_wrappers_refuted : forall hr t es1 s d es2 v,
  (s <> txt "rd" -> s <> txt "prefix" -> de hr (TRd t) (DMap (es1 ++ (KName s, d) :: es2)) <> SOk v) /\
  (s <> txt "labels" -> s <> txt "prefix" -> de hr (TLab t) (DMap (es1 ++ (KName s, d) :: es2)) <> SOk v) /\
  (s <> txt "pathid" -> s <> txt "nlri" -> de hr (TPid t) (DMap (es1 ++ (KName s, d) :: es2)) <> SOk v).
Proof. exact wrappers_unknown. Qed.
Print Assumptions C88_wrappers_refuted.

(** The error names the field. *)
Theorem C88_wrappers_error : forall hr t s d es,
  (s <> txt "rd" -> s <> txt "prefix" -> de hr (TRd t) (DMap ((KName s, d) :: es)) = SErr (UnknownField s)) /\
  (s <> txt "labels" -> s <> txt "prefix" -> de hr (TLab t) (DMap ((KName s, d) :: es)) = SErr (UnknownField s)) /\
  (s <> txt "pathid" -> s <> txt "nlri" -> de hr (TPid t) (DMap ((KName s, d) :: es)) = SErr (UnknownField s)).
Proof. exact wrappers_unknown_first. Qed.
Print Assumptions C88_wrappers_error.

Example C88_ex :
  let x := (KName (txt "note"), DStr (txt "x")) in
  let v4 := [(KName (txt "addr"), DStr (txt "10.0.0.0")); (KName (txt "prefixlen"), DNum 8)] in
  de true T_V4 (DMap (v4 ++ x :: [])) = SOk (g_v4 (mkV4 0x0a000000 8)) /\
  de true (TPid T_V4) (DMap [(KName (txt "pathid"), DNum 7); x; (KName (txt "nlri"), DMap v4)]) = SErr (UnknownField (txt "note")) /\
  ~ In (txt "note") (map fst [(txt "addr", TIp4); (txt "prefixlen", TUint 8)]).
Proof. split; [vm_compute; reflexivity|]. split; [vm_compute; reflexivity|]. intros [H|[H|[]]]; discriminate H. Qed.

(** * C89: what can be read at all *)

(** Whatever the document is, what is read is a value of the type: integers in range, arrays of their length, sets in order. *)
Theorem C89_attributes : forall hr n d v, de hr (T_Attr n) d = SOk v -> exists a, v = g_attr a /\ attr_any a /\ (sets_deep a <= n)%nat.
Proof. exact attr_sound. Qed.
Print Assumptions C89_attributes.

Theorem C89_routes : forall hr d v, de hr T_Addrs d = SOk v -> exists a, v = g_addrs a /\ addrs_any a.
Proof. exact addrs_sound. Qed.
Print Assumptions C89_routes.

(** The model looks deep enough. *)
Theorem C89_depth : forall n hr d, (doc_deep d <= 3 * S n)%nat -> de hr (T_Attr n) d <> SFuel.
Proof. exact attr_fuel. Qed.
Print Assumptions C89_depth.

(** But prefix lengths are not checked: every length below 256 is read ... *)
Theorem C89_ipv4_length_refuted : forall hr ix a l d, a < 2 ^ 32 -> l < 256 ->
  presents ix (ser hr T_V4 (g_v4 (mkV4 a l))) d -> de hr T_V4 d = SOk (g_v4 (mkV4 a l)).
Proof. exact v4_any_len. Qed.
Print Assumptions C89_ipv4_length_refuted.

Theorem C89_ipv6_length_refuted : forall hr ix a l d, a < 2 ^ 128 -> l < 256 ->
  presents ix (ser hr T_V6 (g_v6 (mkV6 a l))) d -> de hr T_V6 d = SOk (g_v6 (mkV6 a l)).
Proof. exact v6_any_len. Qed.
Print Assumptions C89_ipv6_length_refuted.

(** ... and using such a prefix panics: its range in a debug build, its encoding in both. *)
Theorem C89_bad_length_range : forall a l, 32 < l -> v4_range_first true (mkV4 a l) = Panic.
Proof. exact v4_range_panics. Qed.
Print Assumptions C89_bad_length_range.

Theorem C89_bad_length_encode : forall oc a l b, 32 < l -> l < 249 -> v4_to_bits oc (mkV4 a l) b = Panic.
Proof. exact v4_enc_panics. Qed.
Print Assumptions C89_bad_length_encode.

Example C89_ex :
  let d := DMap [(KName (txt "prefixlen"), DNum 200); (KName (txt "addr"), DStr (txt "10.0.0.0"))] in
  presents false (ser true T_V4 (g_v4 (mkV4 0x0a000000 200))) (name_doc (ser true T_V4 (g_v4 (mkV4 0x0a000000 200)))) /\
  de true T_V4 d = SOk (g_v4 (mkV4 0x0a000000 200)) /\
  de true T_V4 (DMap [(KName (txt "prefixlen"), DNum 256); (KName (txt "addr"), DStr (txt "10.0.0.0"))]) = SErr InvalidType /\
  de true (T_Attr 0) (DEnum (KName (txt "CommunityList")) (Some (DSeq [DNum 9; DNum 5; DNum 9]))) = SOk (g_attr (ACommunityList [5; 9])) /\
  doc_deep (DEnum (KName (txt "CommunityList")) (Some (DSeq [DNum 9; DNum 5; DNum 9]))) = 3%nat.
Proof. split; [apply name_presents|]. repeat split; vm_compute; reflexivity. Qed.
