(** C57 to C59, C70 to C74: text forms. *)
From Coq Require Import Ascii String.
From Verif Require Import Base BaseFacts M_Util S_Wire M_Prefix S_Prefix M_Nlri S_Nlri M_Vpls M_Attr S_Attr M_Text S_Text F_Text F_Text2.

(** C57. *)
Theorem C57_community_roundtrip : forall c, c < 2 ^ 32 -> community_parse (community_fmt c) = Ok c.
Proof. exact community_rt. Qed.
Print Assumptions C57_community_roundtrip.

(** The form: a name for the well known ones, otherwise the two halves in decimal. *)
Theorem C57_community_display : forall c, c < 2 ^ 32 -> community_display (community_fmt c) c.
Proof. exact community_fmt_ok. Qed.
Print Assumptions C57_community_display.

(** What is accepted, and for which community. *)
Theorem C57_community_accepts : forall s c, community_parse s = Ok c <-> community_text s c.
Proof. exact community_iff. Qed.
Print Assumptions C57_community_accepts.

(** Lists: the set of the communities of the parts; other parts are skipped. *)
Theorem C57_list_accepts : forall s ps, parts list_separator s ps ->
  exists v, community_list_parse s = Ok v /\ ascending N.compare v /\ forall c, In c v <-> exists p, In p ps /\ community_text p c.
Proof. exact community_list_l. Qed.
Print Assumptions C57_list_accepts.

(** Communities displayed between separators are read back. *)
Theorem C57_list_roundtrip : forall s v, ascending N.compare v -> Forall (fun c => c < 2 ^ 32) v -> parts list_separator s (map community_fmt v) ->
  community_list_parse s = Ok v.
Proof. exact community_list_rt. Qed.
Print Assumptions C57_list_roundtrip.

(** Large communities (there is no parser for them) are displayed unambiguously. *)
Theorem C57_large_injective : forall a b, large_fmt a = large_fmt b -> a = b.
Proof. exact large_fmt_inj. Qed.
Print Assumptions C57_large_injective.

Example C57_ex : community_fmt 0x00010002 = lit "1:2" /\ community_fmt 0xffffff02 = lit "no_advertise" /\ community_fmt 0xffffff05 = lit "65535:65285" /\
  community_parse (lit " 65535:65281 ") = Ok 0xffffff01 /\ community_parse (lit "+7") = Ok 7 /\ community_parse (lit "1:65536") = Err EOther /\
  community_list_parse (lit "3:4, 1:2 x") = Ok [0x10002; 0x30004] /\ large_fmt (mkLC 1 2 3) = lit "1:2:3".
Proof. repeat (split; [vm_compute; reflexivity|]). vm_compute. reflexivity. Qed.

(** C58. *)
Theorem C58_mac_roundtrip : forall m, mac_wf m -> mac_parse (mac_fmt m) = Ok m.
Proof. exact mac_rt. Qed.
Print Assumptions C58_mac_roundtrip.

(** The form: six pairs of hexadecimal digits between colons, most significant octet first. *)
Theorem C58_mac_display : forall m, mac_wf m -> mac_text (mac_fmt m) m.
Proof. exact mac_fmt_ok. Qed.
Print Assumptions C58_mac_display.

(** What is accepted: any text with a hexadecimal digit; everything else in it is skipped, and the last twelve digits count. *)
Theorem C58_mac_accepts : forall s ds, hex_digits s ds ->
  mac_parse s = if Nat.eqb (length ds) 0 then Err EOther else Ok (rev (be_bytes 6 (digits_value 16 ds))).
Proof. exact mac_accepts_l. Qed.
Print Assumptions C58_mac_accepts.

(** Every text has exactly one sequence of hexadecimal digits. *)
Theorem C58_mac_total : forall s, exists ds, hex_digits s ds /\ forall ds', hex_digits s ds' -> ds' = ds.
Proof. exact mac_digits_unique. Qed.
Print Assumptions C58_mac_total.

(** Conversions to integers and octets agree; *)
Theorem C58_mac_conversions : forall m, mac_wf m -> mac_to_u64 m < 2 ^ 48 /\ mac_from_u64 (mac_to_u64 m) = m /\ mac_to_u64 m = be_val (rev m) /\
  mac_from_network_bytes (rev m) = Ok m /\ forall buf, length buf = 6%nat -> mac_write_to_network_bytes m buf = Ok (tt, rev m).
Proof. exact mac_u64_l. Qed.
Print Assumptions C58_mac_conversions.

(** from an integer, the low 48 bits are kept; *)
Theorem C58_mac_from_u64 : forall x, mac_to_u64 (mac_from_u64 x) = x mod 2 ^ 48.
Proof. exact mac_u64_back. Qed.
Print Assumptions C58_mac_from_u64.

(** and from octets in network order. *)
Theorem C58_mac_from_network : forall b0 b1 b2 b3 b4 b5 rest, bytes_ok [b0; b1; b2; b3; b4; b5] ->
  exists m, mac_from_network_bytes ([b0; b1; b2; b3; b4; b5] ++ rest) = Ok m /\ mac_wf m /\ mac_to_u64 m = be_val [b0; b1; b2; b3; b4; b5].
Proof. exact mac_net_l. Qed.
Print Assumptions C58_mac_from_network.

Example C58_ex : mac_wf [0xff; 0; 0x1a; 3; 2; 1] /\ mac_fmt [0xff; 0; 0x1a; 3; 2; 1] = lit "01:02:03:1a:00:ff" /\
  mac_parse (lit "0102.031A.00Ff") = Ok [0xff; 0; 0x1a; 3; 2; 1] /\ mac_parse (lit "a host") = Ok [10; 0; 0; 0; 0; 0] /\ mac_parse (lit "xyz") = Err EOther.
Proof. split; [split; [reflexivity|]|repeat (split; [vm_compute; reflexivity|]); vm_compute; reflexivity]. repeat (apply Forall_cons; [reflexivity|]). apply Forall_nil. Qed.

(** C59. Missing: route distinguishers of type 1. *)
Theorem C59_rd_roundtrip_partial : forall r, rd_wf r -> ~ rd_type1 r -> rd_parse (rd_fmt r) = Ok r.
Proof. exact rd_rt. Qed.
Print Assumptions C59_rd_roundtrip_partial.

(** None of those can be parsed from what is displayed. *)
Theorem C59_rd_type1_refuted : forall r, rd_type1 r -> rd_parse (rd_fmt r) = Err EOther.
Proof. exact rd_type1_l. Qed.
Print Assumptions C59_rd_type1_refuted.

(** What is accepted: one or two integers before the first two colons. *)
Theorem C59_rd_accepts : forall s r, rd_parse s = Ok r <-> rd_text s r.
Proof. exact rd_iff. Qed.
Print Assumptions C59_rd_accepts.

Example C59_ex : rd_wf (mkRD 65000 7) /\ ~ rd_type1 (mkRD 65000 7) /\ rd_fmt (mkRD 65000 7) = lit "65000:7" /\
  rd_type1 (mkRD 0x1c000 0x02010005) /\ rd_fmt (mkRD 0x1c000 0x02010005) = lit "192.0.2.1:5" /\ rd_parse (lit "5") = Ok (mkRD 5 0) /\ rd_parse (lit "1:2:x") = Ok (mkRD 1 2).
Proof.
  split; [split; reflexivity|]. split; [intros H; vm_compute in H; discriminate H|]. split; [vm_compute; reflexivity|]. split; [vm_compute; reflexivity|].
  split; [vm_compute; reflexivity|]. split; vm_compute; reflexivity.
Qed.

(** C70: prefixes of any length that the octet holds. *)
Theorem C70_v4_roundtrip : forall p, v4_any p -> v4_parse (v4_fmt p) = Ok p.
Proof. exact v4_text_rt. Qed.
Print Assumptions C70_v4_roundtrip.

Theorem C70_v6_roundtrip : forall p, v6_any p -> v6_parse (v6_fmt p) = Ok p.
Proof. exact v6_text_rt. Qed.
Print Assumptions C70_v6_roundtrip.

Theorem C70_mac_roundtrip : forall p, macp_any p -> macp_parse (macp_fmt p) = Ok p.
Proof. exact macp_text_rt. Qed.
Print Assumptions C70_mac_roundtrip.

(** What is accepted for an IPv4 prefix. *)
Theorem C70_v4_accepts : forall s p, v4_parse s = Ok p <-> exists h ps, parts (eq 47) s (h :: ps) /\ ipv4_text h (v4_addr p) /\
  match ps with
  | [] => v4_len p = 32
  | l :: _ => uint_text 8 l (v4_len p) \/ (forall v, ~ uint_text 8 l v) /\ v4_len p = 32
  end.
Proof. exact v4_parse_iff. Qed.
Print Assumptions C70_v4_accepts.

Example C70_ex : v4_any (mkV4 0x0a000001 24) /\ v4_fmt (mkV4 0x0a000001 24) = lit "10.0.0.1/24" /\
  v6_any (mkV6 (0x20010db8 * 2 ^ 96 + 1) 64) /\ v6_fmt (mkV6 (0x20010db8 * 2 ^ 96 + 1) 64) = lit "2001:db8::1/64" /\
  v6_fmt (mkV6 (0x20010db8 * 2 ^ 96 + 0x10000 * 2 ^ 64) 0) = lit "2001:db8:1::/0" /\ v6_fmt (mkV6 (0xffff * 2 ^ 32 + 0x0a000001) 128) = lit "::ffff:10.0.0.1/128" /\
  macp_fmt (mkMac [6; 5; 4; 3; 2; 1] 48) = lit "01:02:03:04:05:06/48".
Proof.
  split; [split; reflexivity|]. split; [vm_compute; reflexivity|]. split; [split; vm_compute; reflexivity|]. split; [vm_compute; reflexivity|].
  split; [vm_compute; reflexivity|]. split; vm_compute; reflexivity.
Qed.

(** C71: networks of each of the three families come back with their family. *)
Theorem C71_net_roundtrip : forall n, net_any n -> net_parse (net_fmt n) = Ok n.
Proof. exact net_text_rt. Qed.
Print Assumptions C71_net_roundtrip.

Example C71_ex : net_any (NetMac (mkMac [6; 5; 4; 3; 2; 1] 40)) /\ net_fmt (NetMac (mkMac [6; 5; 4; 3; 2; 1] 40)) = lit "01:02:03:04:05:06/40" /\
  net_parse (lit "1.2.3.4/8") = Ok (NetV4 (mkV4 0x01020304 8)) /\ net_parse (lit "::/0") = Ok (NetV6 (mkV6 0 0)).
Proof. split; [split; [split; [reflexivity|]|reflexivity]; repeat (apply Forall_cons; [reflexivity|]); apply Forall_nil|]. split; [vm_compute; reflexivity|]. split; vm_compute; reflexivity. Qed.

(** C72. *)
Theorem C72_mdt_v4_roundtrip : forall m, v4_any (mdt4_addr m) -> mdt4_group m < 2 ^ 32 -> mdt4_parse (mdt4_fmt m) = Ok m.
Proof. exact mdt4_text_rt. Qed.
Print Assumptions C72_mdt_v4_roundtrip.

Theorem C72_mdt_v6_roundtrip : forall m, v6_any (mdt6_addr m) -> mdt6_group m < 2 ^ 128 -> mdt6_parse (mdt6_fmt m) = Ok m.
Proof. exact mdt6_text_rt. Qed.
Print Assumptions C72_mdt_v6_roundtrip.

Example C72_ex : v4_any (mkV4 0x0a000000 8) /\ mdt4_fmt (mkMdt4 (mkV4 0x0a000000 8) 0xe0000001) = lit "10.0.0.0/8@224.0.0.1" /\
  mdt4_parse (lit "10.0.0.0/8") = Err EOther /\ mdt6_fmt (mkMdt6 (mkV6 1 8) 2) = lit "::1/8@::2".
Proof. split; [split; reflexivity|]. split; [vm_compute; reflexivity|]. split; vm_compute; reflexivity. Qed.

(** C73: an AS number is displayed as itself in decimal. Missing: multiples of 65536. *)
Theorem C73_as_display_partial : forall v, v mod 65536 <> 0 -> canonical 10 (as_fmt v) v.
Proof. exact as_fmt_plain. Qed.
Print Assumptions C73_as_display_partial.

(** Each of those is displayed like the AS number that is its high half. *)
Theorem C73_as_display_refuted : forall v, 0 < v -> v < 65536 -> as_fmt (v * 65536) = as_fmt v /\ v * 65536 <> v.
Proof. exact as_fmt_collides. Qed.
Print Assumptions C73_as_display_refuted.

Example C73_ex : as_fmt 65537 = lit "65537" /\ as_fmt 131072 = lit "2" /\ as_fmt 2 = lit "2".
Proof. split; [vm_compute; reflexivity|]. split; vm_compute; reflexivity. Qed.

(** C74 fails: whatever is not a length is taken for that of a host; *)
Theorem C74_v4_length_refuted : forall s a l, ipv4_text s a -> no_length l -> v4_parse (s ++ 47 :: l) = Ok (mkV4 a 32).
Proof. exact v4_bad_length. Qed.
Print Assumptions C74_v4_length_refuted.

Theorem C74_v6_length_refuted : forall a l, a < 2 ^ 128 -> no_length l -> v6_parse (fmt_ipv6 a ++ 47 :: l) = Ok (mkV6 a 128).
Proof. exact v6_bad_length. Qed.
Print Assumptions C74_v6_length_refuted.

(** a length above 32 is accepted; *)
Theorem C74_any_length_refuted : forall p l, v4_any p -> l < 256 -> v4_parse (v4_fmt (mkV4 (v4_addr p) l)) = Ok (mkV4 (v4_addr p) l).
Proof. exact v4_any_length. Qed.
Print Assumptions C74_any_length_refuted.

(** and for a network any text is accepted that has a hexadecimal digit before the first slash. *)
Theorem C74_net_refuted : forall s p c d, (exists ps, parts (eq 47) s (p :: ps)) -> In c p -> is_digit 16 c d -> exists n, net_parse s = Ok n.
Proof. exact net_accepts. Qed.
Print Assumptions C74_net_refuted.

Example C74_ex : ipv4_text (lit "10.0.0.0") 0x0a000000 /\ no_length (lit "8x") /\ v4_parse (lit "10.0.0.0/8x") = Ok (mkV4 0x0a000000 32) /\
  v4_parse (lit "10.0.0.0/200") = Ok (mkV4 0x0a000000 200) /\ net_parse (lit "default") = Ok (NetMac (mkMac [0xfa; 0xde; 0; 0; 0; 0] 48)).
Proof.
  split; [apply parse_ipv4_iff; vm_compute; reflexivity|]. split; [split|].
  - intros [H|[H|[]]]; discriminate H.
  - apply parse_uint_err. reflexivity.
  - split; [vm_compute; reflexivity|]. split; vm_compute; reflexivity.
Qed.
