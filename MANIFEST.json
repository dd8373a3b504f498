{
 "claims": [
  {
   "property": "C01",
   "status": "proved",
   "theorems": [
    "C01_u16",
    "C01_u32",
    "C01_u64",
    "C01_readers",
    "C01_addr_encode",
    "C01_addr_decode",
    "C01_addrv4_decode",
    "C01_addrv6_decode"
   ],
   "note": ""
  },
  {
   "property": "C02",
   "status": "proved",
   "theorems": [
    "C02_v4_membership"
   ],
   "note": ""
  },
  {
   "property": "C03",
   "status": "partial",
   "theorems": [
    "C03_v6_membership_refuted",
    "C03_v6_membership_exact",
    "C03_v6_membership_len0"
   ],
   "note": "As stated the property is false: the last address of every prefix shorter than 128 is not a member (C03_v6_membership_refuted, for all of them); length 0 panics or answers false. Exact behaviour proved for all lengths."
  },
  {
   "property": "C04",
   "status": "proved",
   "theorems": [
    "C04_mac_membership"
   ],
   "note": ""
  },
  {
   "property": "C05",
   "status": "partial",
   "theorems": [
    "C05_v4_range_first",
    "C05_v4_range_last",
    "C05_v6_range_first",
    "C05_v6_range_last",
    "C05_mac_range",
    "C05_v4_range_first_len0",
    "C05_v6_range_first_len0",
    "C05_v4_range_first_refuted",
    "C05_v6_range_first_refuted"
   ],
   "note": "False for prefix length 0 of IPv4/IPv6 range_first, refuted for every non-zero address (C05_*_range_first_refuted); proved for everything else, exact behaviour at length 0 proved."
  },
  {
   "property": "C06",
   "status": "partial",
   "theorems": [
    "C06_v4_contains_partial",
    "C06_v4_contains_refuted",
    "C06_v4_contains_exact",
    "C06_v4_contains_equal_len"
   ],
   "note": "False exactly for equal lengths with different host bits (C06_v4_contains_refuted, for all such pairs); the answer is characterised for all prefixes (C06_v4_contains_exact)."
  },
  {
   "property": "C07",
   "status": "partial",
   "theorems": [
    "C07_v6_contains_partial",
    "C07_mac_contains_partial",
    "C07_v6_contains_refuted",
    "C07_mac_contains_refuted",
    "C07_v6_contains_exact",
    "C07_mac_contains_exact"
   ],
   "note": "As C06 for IPv6 and MAC."
  },
  {
   "property": "C08",
   "status": "proved",
   "theorems": [
    "C08_v4_nlri"
   ],
   "note": ""
  },
  {
   "property": "C09",
   "status": "proved",
   "theorems": [
    "C09_v6_nlri"
   ],
   "note": ""
  },
  {
   "property": "C10",
   "status": "proved",
   "theorems": [
    "C10_v4_lossless",
    "C10_v6_lossless"
   ],
   "note": ""
  },
  {
   "property": "C11",
   "status": "proved",
   "theorems": [
    "C11_v4_addpath",
    "C11_v6_addpath"
   ],
   "note": ""
  },
  {
   "property": "C12",
   "status": "partial",
   "theorems": [
    "C12_v4_all_bytes",
    "C12_v6_all_bytes",
    "C12_labeled_all_bytes",
    "C12_addpath_refuted",
    "C12_v4_addpath_exact",
    "C12_v6_addpath_exact",
    "C12_addpath_dropped"
   ],
   "note": "Plain lists proved. ADD-PATH lists refuted for every list of well-formed items followed by 1 to 4 octets (C12_addpath_refuted): the loop condition curpos+4 < len drops them; exact characterisation proved."
  },
  {
   "property": "C13",
   "status": "proved",
   "theorems": [
    "C13_labels"
   ],
   "note": ""
  },
  {
   "property": "C14",
   "status": "proved",
   "theorems": [
    "C14_labeled_v4",
    "C14_labeled_v6"
   ],
   "note": ""
  },
  {
   "property": "C15",
   "status": "proved",
   "theorems": [
    "C15_vpnv4",
    "C15_vpnv6"
   ],
   "note": ""
  },
  {
   "property": "C16",
   "status": "proved",
   "theorems": [
    "C16_rd_encode",
    "C16_rd_decode"
   ],
   "note": ""
  },
  {
   "property": "C17",
   "status": "partial",
   "theorems": [
    "C17_vpls_refuted",
    "C17_vpls_decode",
    "C17_vpls_single_partial",
    "C17_l2_roundtrip"
   ],
   "note": "False of the code for every non-empty list (C17_vpls_refuted): encode_long_bgpitems_to does not count the two length octets of each item, so the reported byte count never decodes back. Proved instead: decoding of the wire form of any list, the exact bytes for one item, and the BgpL2 round trip."
  },
  {
   "property": "C18",
   "status": "partial",
   "theorems": [
    "C18_mvpn12_partial",
    "C18_mvpn_refuted",
    "C18_mvpn_written",
    "C18_mvpn_decode",
    "C18_mvpn5_v6_refuted"
   ],
   "note": "Holds for types 1 and 2. False for every route of types 3-7 (C18_mvpn_refuted): the encoder omits the prefix length octets and the inner route header. Also proved: the decoder accepts the RFC 6514 form of every type, except types 4 and 5 over IPv6 (type 5 over IPv6 is never decoded). C18_mvpn_written gives the octets written for every type exactly."
  },
  {
   "property": "C19",
   "status": "partial",
   "theorems": [
    "C19_mdt4",
    "C19_mdt4_rd",
    "C19_mdt4_clean",
    "C19_mdt6_partial",
    "C19_mdt6_rd_partial",
    "C19_mdt6_clean",
    "C19_mdt6_refuted",
    "C19_mdt6_rd_refuted"
   ],
   "note": "IPv4 holds for all lists. IPv6 is false for prefix lengths 127-128 without RD and from 64 with RD (bit length overflows u8); both refuted for all such items, and the round trip is proved below those bounds."
  },
  {
   "property": "C20",
   "status": "partial",
   "theorems": [
    "C20_evpn_partial",
    "C20_evpn_list_partial",
    "C20_evpn5_refuted",
    "C20_evpn5_v6_refuted",
    "C20_evpn_labels_refuted"
   ],
   "note": "Holds for types 1-4 with at most ten labels and for type 5 with IPv4 addresses and exactly one label (also for lists). False for every other type 5 route (C20_evpn5_refuted): the decoder reads IPv4 addresses in both branches and accepts only body lengths 34 and 58, the encoder advances 16 instead of 32. More than ten labels are never decoded when overflow checks are on (bit count truncated to u8)."
  },
  {
   "property": "C21",
   "status": "partial",
   "theorems": [
    "C21_val_item",
    "C21_mask_item",
    "C21_val_list",
    "C21_mask_list",
    "C21_rule_decode",
    "C21_rule_partial",
    "C21_rule_refuted",
    "C21_prefix4_partial",
    "C21_prefix6_partial",
    "C21_prefix_list_refuted",
    "C21_fsv4_refuted"
   ],
   "note": "Items and item lists round trip (all 32-bit values, any length). Rules: the announced length is computed from per-item sizes that disagree with what is written, so an operator rule round trips only when the discrepancy is exactly 1 octet (C21_rule_partial) and never otherwise (C21_rule_refuted). Prefix rules decode to themselves but report one octet too many (C21_prefix*_partial), so lists of them never decode back (C21_prefix_list_refuted); VPN prefix rules never decode (C21_fsv4_refuted). IPv6 prefixes are checked against the library's own form (offset octet, all prefix octets)."
  },
  {
   "property": "C22",
   "status": "partial",
   "theorems": [
    "C22_capability_roundtrip",
    "C22_decoded_encodable",
    "C22_fqdn_refuted"
   ],
   "note": "Proved for every capability except FQDN, and every decoded capability is shown encodable. For FQDN the claim is false of the code: the encoder overwrites its own length byte and omits the domain/hostname framing, so decoding never gives the capability back (C22_fqdn_refuted, for all names)."
  },
  {
   "property": "C23",
   "status": "proved",
   "theorems": [
    "C23_capability_parse_total",
    "C23_unknown_verbatim"
   ],
   "note": ""
  },
  {
   "property": "C24",
   "status": "partial",
   "theorems": [
    "C24_code_points_partial",
    "C24_nlri_code_points",
    "C24_decoded_family",
    "C24_code_points_refuted"
   ],
   "note": "Proved for every family except IPv4 multicast and IPv4 labeled unicast, which are announced under each other's SAFI (C24_code_points_refuted, lib.rs:398-450, 141-160). afisafi_from_cap refuses the FlowSpec families."
  },
  {
   "property": "C25",
   "status": "proved",
   "theorems": [
    "C25_match_caps",
    "C25_check_caps"
   ],
   "note": ""
  },
  {
   "property": "C26",
   "status": "partial",
   "theorems": [
    "C26_addpath_refuted",
    "C26_addpath_remote_agrees",
    "C26_addpath_both"
   ],
   "note": "False of the code for every pair of announcements in which the remote side announces a direction the local side does not answer: match_caps mirrors the remote announcement and ignores the local directions (C26_addpath_refuted). Proved: both sides announced the family and the remote side announced the matching direction; full claim if the local side announces both directions."
  },
  {
   "property": "C27",
   "status": "partial",
   "theorems": [
    "C27_remove",
    "C27_remove_addpath",
    "C27_remove_addpath_absent",
    "C27_remove_all_addpath",
    "C27_remove_refuted",
    "C27_remove_addpath_exact"
   ],
   "note": "Proved for all capabilities except ADD-PATH, and for ADD-PATH when the list holds at most one ADD-PATH capability; exact effect in general. With two of them the claim is false of every such list (C27_remove_refuted)."
  },
  {
   "property": "C28",
   "status": "proved",
   "theorems": [
    "C28_header",
    "C28_short",
    "C28_overlong"
   ],
   "note": ""
  },
  {
   "property": "C29",
   "status": "partial",
   "theorems": [
    "C29_header_exact",
    "C29_header_refuted"
   ],
   "note": "Exact outcome for all inputs proved. The rejection claim is false for every length field below 19 and every message type: panic with overflow checks, a body of len+65517 octets without (C29_header_refuted)."
  },
  {
   "property": "C30",
   "status": "proved",
   "theorems": [
    "C30_reframing",
    "C30_progress"
   ],
   "note": ""
  },
  {
   "property": "C31",
   "status": "partial",
   "theorems": [
    "C31_open_roundtrip",
    "C31_open_wire",
    "C31_open_reencode",
    "C31_open_refuted"
   ],
   "note": "Proved for all messages whose capabilities fit an optional parameter and are not FQDN; with FQDN the claim is false whatever else the message holds (C31_open_refuted)."
  },
  {
   "property": "C32",
   "status": "proved",
   "theorems": [
    "C32_open_decode_total",
    "C32_open_decode_fresh"
   ],
   "note": ""
  },
  {
   "property": "C33",
   "status": "partial",
   "theorems": [
    "C33_open_encode_refuted",
    "C33_open_encode_total_partial",
    "C33_open_encode_exact"
   ],
   "note": "False of the code: every buffer ending within a capability header panics (C33_open_encode_refuted). Proved: no panic when the buffer is shorter than 10 bytes or holds the whole message; exact panic condition otherwise for non-FQDN capabilities."
  },
  {
   "property": "C34",
   "status": "partial",
   "theorems": [
    "C34_open_optlen",
    "C34_open_optlen_fits",
    "C34_open_optlen_refuted"
   ],
   "note": "False of the code whenever capabilities need 256 octets or more: the length octet is truncated (C34_open_optlen_refuted). Proved when they fit, and that the octet is the length modulo 256 in general."
  },
  {
   "property": "C35",
   "status": "partial",
   "theorems": [
    "C35_notification",
    "C35_notification_total",
    "C35_notification_fresh",
    "C35_notification_stale_refuted"
   ],
   "note": "Round trip and totality proved. Independence of the previous contents is false for a two-byte body (C35_notification_stale_refuted) and proved for every other length."
  },
  {
   "property": "C36",
   "status": "partial",
   "theorems": [
    "C36_update_roundtrip_partial",
    "C36_other_family_refuted",
    "C36_attributes_overflow_refuted"
   ],
   "note": "Proved for every message with lists of the session's own family and attributes of the supported kinds (attr_ok), up to prefix bits beyond the last octet. Lists of another family are silently dropped (C36_other_family_refuted); attributes beyond 65535 octets get a wrong length (C36_attributes_overflow_refuted)."
  },
  {
   "property": "C37",
   "status": "partial",
   "theorems": [
    "C37_attributes_partial",
    "C37_attributes_refuted",
    "C37_attributes_exact",
    "C37_update_refuted",
    "C37_update_partial"
   ],
   "note": "False: every sendable message whose attribute area is cut inside an attribute header panics (C37_update_refuted), and the decoders of attribute types 8, 9, 14, 15, 22, 32, 128 panic on short or ragged payloads (C37_attributes_refuted; C102 and C103 say exactly when, for every type and for the whole message). Proved: in release builds, complete attributes of all other types with arbitrary payloads, and arbitrary withdrawn routes and NLRI, never panic."
  },
  {
   "property": "C38",
   "status": "partial",
   "theorems": [
    "C38_reuse_exact",
    "C38_reuse_refuted"
   ],
   "note": "False whenever the old message had an attribute (C38_reuse_refuted); exact dependence proved (C38_reuse_exact)."
  },
  {
   "property": "C39",
   "status": "proved",
   "theorems": [
    "C39_header",
    "C39_frame",
    "C39_too_long"
   ],
   "note": "Header exact for every attribute whatever its value; well formed values framed around their wire form; too long refused."
  },
  {
   "property": "C40",
   "status": "proved",
   "theorems": [
    "C40_unknown_verbatim"
   ],
   "note": ""
  },
  {
   "property": "C41",
   "status": "proved",
   "theorems": [
    "C41_scalar_roundtrip",
    "C41_scalar_fits"
   ],
   "note": "Hypothesis: payload fits the length field; this only restricts cluster lists (flags without extended length, at most 255 octets), C41_scalar_fits. Longer ones are refused by C39_too_long."
  },
  {
   "property": "C42",
   "status": "partial",
   "theorems": [
    "C42_communities_roundtrip_partial",
    "C42_ascending",
    "C42_community_set",
    "C42_extended_set",
    "C42_large_set",
    "C42_extended_refuted"
   ],
   "note": "Proved for every set that fits the length field; more than 31 extended communities are refused by the encoder (C42_extended_refuted). Community sets modelled as strictly ascending lists."
  },
  {
   "property": "C43",
   "status": "partial",
   "theorems": [
    "C43_aspath_roundtrip_partial",
    "C43_two_octet_refuted",
    "C43_as_trans_refuted",
    "C43_long_refuted",
    "C43_segments_refuted"
   ],
   "note": "Holds in 4-octet sessions for every path that fits the attribute. False in 2-octet sessions for every non-empty path (C43_two_octet_refuted, C43_as_trans_refuted), the count octet is wrong beyond 255 numbers (C43_long_refuted), and received multi-segment paths are corrupted (C43_segments_refuted)."
  },
  {
   "property": "C44",
   "status": "partial",
   "theorems": [
    "C44_aggregator_refuted",
    "C44_aggregator_decode_partial"
   ],
   "note": "False for every value (C44_aggregator_refuted: the payload is never written). The decoder accepts the RFC form (C44_aggregator_decode_partial)."
  },
  {
   "property": "C45",
   "status": "partial",
   "theorems": [
    "C45_as_refuted",
    "C45_as_exact",
    "C45_as_eq",
    "C45_as_equivalence",
    "C45_aspath_refuted"
   ],
   "note": "Refuted for every 16-bit AS number held in the high half (C45_as_refuted, C45_aspath_refuted); the failing pairs are exactly characterised (C45_as_exact), equality is an equivalence (C45_as_equivalence)."
  },
  {
   "property": "C46",
   "status": "proved",
   "theorems": [
    "C46_labeled",
    "C46_withrd",
    "C46_withpathid",
    "C46_prefixes",
    "C46_vpnv4"
   ],
   "note": "Laws of Labeled, WithRd and WithPathId over any lawful type, and of all prefix types. MplsLabels itself and derived types containing it: see C66."
  },
  {
   "property": "C47",
   "status": "partial",
   "theorems": [
    "C47_mp_reach_roundtrip_partial",
    "C47_mp_unreach_roundtrip",
    "C47_flowspec6_refuted",
    "C47_flowspec4_no_nexthop_refuted",
    "C47_vpnv6_nexthop_refuted",
    "C47_snpa"
   ],
   "note": "Withdrawals: all families. Announcements: all families with the next hop form the decoder expects (nexthop_ok), with any SNPAs (lengths counted in octets, as the code does; RFC 2858 counts half-octets); IPv6 FlowSpec and FlowSpec without next hop are refuted."
  },
  {
   "property": "C48",
   "status": "partial",
   "theorems": [
    "C48_negotiated_partial",
    "C48_exact",
    "C48_fuzzy_refuted"
   ],
   "note": "Proved when fuzzy_pathid is off; refuted with fuzzy_pathid (the default of BgpSessionParams::new): for every family and session without ADD-PATH the bytes decide. The exact rule is proved (C48_exact)."
  },
  {
   "property": "C49",
   "status": "partial",
   "theorems": [
    "C49_peer_header_roundtrip_partial",
    "C49_low_v6_refuted",
    "C49_peer_header_reencode",
    "C49_peer_header_accepts"
   ],
   "note": "Proved for all headers except those with an IPv6 address in ::/96, which are refuted (they come back as IPv4 peers)."
  },
  {
   "property": "C50",
   "status": "partial",
   "theorems": [
    "C50_termination_roundtrip",
    "C50_termination_tlvs",
    "C50_termination_long_refuted",
    "C50_initiation_roundtrip_partial",
    "C50_initiation_decode",
    "C50_initiation_sent",
    "C50_initiation_refuted",
    "C50_initiation_room_refuted"
   ],
   "note": "Termination proved in full for strings below 65536 octets (longer ones refuted); Initiation proved when only the string is present and refuted for every message with sysDescr or sysName, which are written under TLV type 0. Encoding into a buffer with room for a TLV header only panics."
  },
  {
   "property": "C51",
   "status": "partial",
   "theorems": [
    "C51_peer_up_roundtrip_partial",
    "C51_peer_down_roundtrip_partial",
    "C51_peer_up_refuted",
    "C51_peer_down_refuted"
   ],
   "note": "Proved for all PeerUp/PeerDown messages except IPv6 addresses in ::/96 (refuted) and OPENs with FQDN capabilities (see C22); AS numbers come back as C31 describes."
  },
  {
   "property": "C52",
   "status": "proved",
   "theorems": [
    "C52_session_history",
    "C52_history_determines",
    "C52_table_ascending",
    "C52_session_answers"
   ],
   "note": "For every starting table, every history and every key; failing and other messages leave the table unchanged."
  },
  {
   "property": "C53",
   "status": "partial",
   "theorems": [
    "C53_panics_exactly",
    "C53_session_panics_exactly",
    "C53_empty_refuted",
    "C53_peer_down_refuted",
    "C53_peer_up_refuted",
    "C53_route_monitoring_refuted",
    "C53_termination_exactly",
    "C53_initiation_partial"
   ],
   "note": "False: the exact set of octet strings on which the decoder panics is characterised (with and without session), with families of refuting inputs. Initiation proved free of panics."
  },
  {
   "property": "C54",
   "status": "proved",
   "theorems": [
    "C54_addrs_terminates",
    "C54_attr_terminates",
    "C54_bmp_terminates",
    "C54_bmp_session_terminates",
    "C54_nlri_terminates",
    "C54_update_terminates"
   ],
   "note": ""
  },
  {
   "property": "C55",
   "status": "partial",
   "theorems": [
    "C55_v4_panic_exact",
    "C55_v6_panic_exact",
    "C55_addpath_release",
    "C55_v4_addpath_exact",
    "C55_v6_addpath_exact",
    "C55_total_refuted"
   ],
   "note": "Refuted with overflow checks (length octet 249..255 overflows bits+7), for every list of prefixes followed by such an octet; exact panic condition proved with and without ADD-PATH, never panics in release builds."
  },
  {
   "property": "C56",
   "status": "partial",
   "theorems": [
    "C56_total_refuted",
    "C56_labeled_exact",
    "C56_vpn_exact",
    "C56_release_complete",
    "C56_release_exact"
   ],
   "note": "Refuted: any label stack cut short by the end of the buffer panics in both build modes. Exact no-panic condition proved in both build modes."
  },
  {
   "property": "C57",
   "status": "proved",
   "theorems": [
    "C57_community_roundtrip",
    "C57_community_display",
    "C57_community_accepts",
    "C57_list_accepts",
    "C57_list_roundtrip",
    "C57_large_injective"
   ],
   "note": "Round trip, displayed form, exact set of accepted texts, lists. Display/FromStr of integers, trim and split are modelled after the standard library."
  },
  {
   "property": "C58",
   "status": "proved",
   "theorems": [
    "C58_mac_roundtrip",
    "C58_mac_display",
    "C58_mac_accepts",
    "C58_mac_total",
    "C58_mac_conversions",
    "C58_mac_from_u64",
    "C58_mac_from_network"
   ],
   "note": "Round trip, displayed form, exact set of accepted texts (any text with a hexadecimal digit), conversions."
  },
  {
   "property": "C59",
   "status": "partial",
   "theorems": [
    "C59_rd_roundtrip_partial",
    "C59_rd_type1_refuted",
    "C59_rd_accepts"
   ],
   "note": "Proved for all route distinguishers except type 1; refuted for every one of type 1, whose text a.b.c.d:n the parser always rejects."
  },
  {
   "property": "C60",
   "status": "partial",
   "theorems": [
    "C60_address_roundtrip_partial",
    "C60_low_v6_refuted",
    "C60_frame_refuted"
   ],
   "note": "Round trip proved except for IPv6 addresses in ::/96 (refuted); an IPv4 address zeroes the rest of the buffer (refuted)."
  },
  {
   "property": "C61",
   "status": "proved",
   "theorems": [
    "C61_contains_total",
    "C61_contains_refl",
    "C61_contains_trans",
    "C61_contains_antisym",
    "C61_contains_kind"
   ],
   "note": ""
  },
  {
   "property": "C62",
   "status": "partial",
   "theorems": [
    "C62_prefix_framing",
    "C62_labeled_framing",
    "C62_release_exact",
    "C62_release_refuted"
   ],
   "note": "Proved for plain prefixes in both modes and labeled/VPN with overflow checks; refuted in release builds whenever labels and route distinguisher exceed the announced bits (u8 counter wraps): exactly 32 octets too many per wrap."
  },
  {
   "property": "C63",
   "status": "partial",
   "theorems": [
    "C63_addrs_roundtrip_partial",
    "C63_trunc_len"
   ],
   "note": "Proved for all 30 variants restricted to items that can be carried: VPLS lists only when empty (C17), MVPN types 1 and 2 (C18), EVPN type 5 limits (C20), FlowSpec operator rules with consistent length (C21). Fuzzy path-id detection off."
  },
  {
   "property": "C64",
   "status": "proved",
   "theorems": [
    "C64_route_target_ip",
    "C64_route_target_as",
    "C64_from_u64"
   ],
   "note": ""
  },
  {
   "property": "C65",
   "status": "proved",
   "theorems": [
    "C65_getters"
   ],
   "note": ""
  },
  {
   "property": "C66",
   "status": "partial",
   "theorems": [
    "C66_addrs_laws",
    "C66_addrs_partial_cmp",
    "C66_evpn_partial_cmp",
    "C66_vpls_partial_cmp",
    "C66_self_partial_cmp_refuted",
    "C66_evpn_list_refuted",
    "C66_pmsi_refuted",
    "C66_pmsi_laws",
    "C66_others"
   ],
   "note": "Equality, cmp and hash are lawful for all lists; partial_cmp agrees with cmp except on VPLS, EVPN types 1, 2, 5 and PMSI tunnels, where it answers None (C66_self_partial_cmp_refuted, C66_evpn_list_refuted, C66_pmsi_refuted)."
  },
  {
   "property": "C67",
   "status": "partial",
   "theorems": [
    "C67_message_roundtrip_partial",
    "C67_message_decode",
    "C67_encode_refuted",
    "C67_common_header_roundtrip",
    "C67_common_header_accepts"
   ],
   "note": "Proved for Route Monitoring, PeerUp, PeerDown, Termination, and Initiation with string only; Statistics Report and Route Mirroring cannot be encoded (proved to panic)."
  },
  {
   "property": "C68",
   "status": "partial",
   "theorems": [
    "C68_route_monitoring_after_up_partial",
    "C68_without_peer_up",
    "C68_unknown_peer",
    "C68_negotiation_refuted"
   ],
   "note": "Proved that the parameters are those of the peer's OPEN alone and the table's effect; refuted as negotiation: four-octet AS numbers are assumed from one OPEN only and the family is always IPv4."
  },
  {
   "property": "C69",
   "status": "proved",
   "theorems": [
    "C69_peer_header_order"
   ],
   "note": "All order laws, relative to everything but the timestamp."
  },
  {
   "property": "C70",
   "status": "proved",
   "theorems": [
    "C70_v4_roundtrip",
    "C70_v6_roundtrip",
    "C70_mac_roundtrip",
    "C70_v4_accepts"
   ],
   "note": "All three kinds; std's address parser and formatter are modelled."
  },
  {
   "property": "C71",
   "status": "proved",
   "theorems": [
    "C71_net_roundtrip"
   ],
   "note": ""
  },
  {
   "property": "C72",
   "status": "proved",
   "theorems": [
    "C72_mdt_v4_roundtrip",
    "C72_mdt_v6_roundtrip"
   ],
   "note": ""
  },
  {
   "property": "C73",
   "status": "partial",
   "theorems": [
    "C73_as_display_partial",
    "C73_as_display_refuted"
   ],
   "note": "Proved for AS numbers that are not multiples of 65536; refuted for every multiple k*65536 (0<k<65536), displayed as k."
  },
  {
   "property": "C74",
   "status": "partial",
   "theorems": [
    "C74_v4_length_refuted",
    "C74_v6_length_refuted",
    "C74_any_length_refuted",
    "C74_net_refuted"
   ],
   "note": "Refuted for all inputs: a non-numeric length silently becomes the host length, lengths above 32 are accepted, and any text with a hexadecimal digit before the first slash is a network."
  },
  {
   "property": "C75",
   "status": "partial",
   "theorems": [
    "C75_multicast_complete_partial",
    "C75_multicast_refuted",
    "C75_multicast_exact"
   ],
   "note": "Every multicast address is recognised, but the whole reserved block 240.0.0.0/4 except 255.255.255.255 is too (C75_multicast_refuted, for all its addresses); exact set proved."
  },
  {
   "property": "C76",
   "status": "partial",
   "theorems": [
    "C76_decode_partial",
    "C76_ingress6_refuted",
    "C76_mldp6_refuted",
    "C76_types_refuted",
    "C76_encode_refuted"
   ],
   "note": "Proved: types 0, 1, 2 (IPv4 root) and 6 (IPv4 endpoint) with any identifier, label and low bits. Refuted: IPv6 endpoints are misread as IPv4, IPv6 mLDP roots and types 3, 4, 5, 7 are refused, and the encoder panics (unimplemented!)."
  },
  {
   "property": "C77",
   "status": "partial",
   "theorems": [
    "C77_decode_partial",
    "C77_inner_failure",
    "C77_overrun",
    "C77_short",
    "C77_cut_header_refuted",
    "C77_cases",
    "C77_two_octet_refuted",
    "C77_encode_refuted"
   ],
   "note": "Proved for sessions with four-octet AS numbers: exact value for every well formed set, and a complete case analysis of every payload. Refuted: a set cut inside an inner header panics, sessions with two-octet AS numbers refuse every set, and the encoder panics (unimplemented!)."
  },
  {
   "property": "C78",
   "status": "partial",
   "theorems": [
    "C78_class_partial",
    "C78_aggregator_class_refuted",
    "C78_flag_octet_partial",
    "C78_large_partial_bit_refuted"
   ],
   "note": "Exact flag octet for every attribute that can be sent. Refuted: AGGREGATOR is sent as well-known, and large communities always carry the partial bit."
  },
  {
   "property": "C79",
   "status": "partial",
   "theorems": [
    "C79_exchange",
    "C79_agree",
    "C79_addpath_exact",
    "C79_addpath_partial",
    "C79_addpath_refuted"
   ],
   "note": "Proved: OPEN carries the capabilities exactly, both ends agree on AS width and on every capability other than ADD-PATH, and the exact ADD-PATH outcome. Refuted for ADD-PATH: the ends agree on a direction exactly when the sender's willingness to send equals the receiver's willingness to receive (the local announcement's direction is ignored)."
  },
  {
   "property": "C80",
   "status": "proved",
   "theorems": [
    "C80_message",
    "C80_stream"
   ],
   "note": "For every sequence of sendable messages; message_ok is the well-formedness of C31, C35 and C36 and a body of at most 65516 octets."
  },
  {
   "property": "C81",
   "status": "partial",
   "theorems": [
    "C81_start",
    "C81_start_panic",
    "C81_width_refuted",
    "C81_addpath_refuted",
    "C81_stream",
    "C81_end",
    "C81_update",
    "C81_panic",
    "C81_keepalive_body_refuted",
    "C81_progress"
   ],
   "note": "Proved: opening, reporting in order, survival of undecodable UPDATEs, progress, the exact panics of the opening, and that in release builds the loop panics only where UPDATE decoding does. Refuted: the client takes the peer's capabilities for the negotiated ones (AS width and ADD-PATH directions disagree with the peer), an OPEN over 4115 octets panics, the body of a KEEPALIVE is taken for the next message."
  },
  {
   "property": "C82",
   "status": "partial",
   "theorems": [
    "C82_injective",
    "C82_code",
    "C82_subcode",
    "C82_cease_refuted",
    "C82_cease"
   ],
   "note": "Injectivity and names proved for all codes and subcodes; the subcodes of Cease (RFC 4486) are shown as numbers only (C82_cease_refuted, for every one of them). Names are compared up to the case of letters. Deprecated subcodes are shown as such and not claimed."
  },
  {
   "property": "C83",
   "status": "partial",
   "theorems": [
    "C83_exact",
    "C83_encapsulation_refuted",
    "C83_l2_refuted",
    "C83_import_refuted"
   ],
   "note": "C83_exact: two communities print alike exactly when they are equal or differ only in what three branches leave out (octets before the tunnel type of an encapsulation community, octets after the MTU of an EVPN layer 2 community, transitive bit of an import route target); the three refutations are for all values of the missing octets."
  },
  {
   "property": "C84",
   "status": "partial",
   "theorems": [
    "C84_evpn",
    "C84_rd",
    "C84_labels",
    "C84_v4",
    "C84_v6",
    "C84_mac",
    "C84_mdt4",
    "C84_mdt6",
    "C84_vpls",
    "C84_mvpn_partial",
    "C84_mvpn_refuted",
    "C84_nexthop",
    "C84_pmsi",
    "C84_flowspec_value",
    "C84_flowspec_mask"
   ],
   "note": "Injective for EVPN, RD, labels, IPv4/IPv6/MAC/MDT prefixes with any of path id, labels and RD, FlowSpec operators, MVPN types 1, 2 and types 3-7 over IPv4. Refuted for MVPN types 3-7 with IPv6 addresses (C84_mvpn_refuted, a family with five free parameters). Exact characterisation with what is left out: VPLS (labels), next hops (RD 0:0), PMSI (opaque value of mLDP). The Debug based texts (lists, FlowSpec rules) are the subject of C90 and C91."
  },
  {
   "property": "C85",
   "status": "partial",
   "theorems": [
    "C85_attributes_partial",
    "C85_attributes_refuted",
    "C85_routes_partial",
    "C85_routes_refuted",
    "C85_net",
    "C85_numbered_partial",
    "C85_numbered_refuted",
    "C85_attributes_injective",
    "C85_routes_injective"
   ],
   "note": "Proved for every attribute without FlowSpec rules in every faithful format keyed by name or position, and for every BgpNet. False otherwise: an attribute with a non-empty FlowSpec list never comes back (C85_*_refuted: always an error), and a format that numbers fields never gets back routes with labels, a route distinguisher or a path identifier (C85_numbered_refuted)."
  },
  {
   "property": "C86",
   "status": "partial",
   "theorems": [
    "C86_accepts",
    "C86_ipv4_refuted",
    "C86_ipv6_refuted",
    "C86_vpn_refuted"
   ],
   "note": "False for every component in every faithful format (C86_*_refuted): written as an enum variant, while the visitor defines visit_map only. C86_accepts says exactly which documents are accepted."
  },
  {
   "property": "C87",
   "status": "partial",
   "theorems": [
    "C87_with_rd",
    "C87_labeled",
    "C87_with_pathid",
    "C87_with_rd_missing",
    "C87_labeled_missing",
    "C87_with_pathid_missing_refuted"
   ],
   "note": "Acceptance is exact for all three. WithRd and Labeled name the missing field; WithPathId names \"rd\" or \"prefix\" instead of \"pathid\" or \"nlri\" (C87_with_pathid_missing_refuted)."
  },
  {
   "property": "C88",
   "status": "partial",
   "theorems": [
    "C88_derived",
    "C88_wrappers_refuted",
    "C88_wrappers_error"
   ],
   "note": "True of every derived struct; false of WithRd, Labeled and WithPathId, which refuse any document with an additional field (C88_wrappers_refuted)."
  },
  {
   "property": "C89",
   "status": "partial",
   "theorems": [
    "C89_attributes",
    "C89_routes",
    "C89_depth",
    "C89_ipv4_length_refuted",
    "C89_ipv6_length_refuted",
    "C89_bad_length_range",
    "C89_bad_length_encode"
   ],
   "note": "Ranges, array lengths and set order are proved for every document. Prefix lengths are not checked (C89_*_length_refuted), and using such a prefix panics (C89_bad_length_*)."
  },
  {
   "property": "C90",
   "status": "proved",
   "theorems": [
    "C90_attributes",
    "C90_routes",
    "C90_nexthops",
    "C90_update",
    "C90_notification",
    "C90_equal_differs"
   ],
   "note": "All kinds of attributes, all 31 list variants, next hops, UPDATE and NOTIFICATION."
  },
  {
   "property": "C91",
   "status": "partial",
   "theorems": [
    "C91_attributes_partial",
    "C91_attributes_refuted",
    "C91_routes",
    "C91_notification",
    "C91_notification_plain"
   ],
   "note": "True of everything but the opaque value of an mLDP tunnel in a PMSI attribute, which is never printed (C91_attributes_refuted)."
  },
  {
   "property": "C92",
   "status": "proved",
   "theorems": [
    "C92_payload"
   ],
   "note": "Full statement, as an equivalence with a relation that does not mention the decoder. For AS_PATH the relation says what the library reads: the last whole AS numbers of the payload, whatever the segment headers say (compare C43)."
  },
  {
   "property": "C93",
   "status": "partial",
   "theorems": [
    "C93_length_refuted",
    "C93_trailing_refuted",
    "C93_length_strict",
    "C93_length_accepted"
   ],
   "note": "Refuted: every payload whose length is in a wider set than the RFCs' is accepted (trailing octets after ORIGIN, NEXT_HOP, MED, LOCAL_PREF, ORIGINATOR_ID, CONNECTOR and after the last whole cluster or extended community; ATOMIC_AGGREGATE of 4 or 16 octets; AGGREGATOR of the other AS width). Proved: nothing outside that wider set is accepted, everything the RFCs allow is, and what trails is ignored."
  },
  {
   "property": "C94",
   "status": "proved",
   "theorems": [
    "C94_nlri"
   ],
   "note": "Full statement, as an equivalence with relations on octets that mention no decoder. The relations record what the library accepts, also where that is more than the RFCs allow: trailing octets in EVPN and MCAST-VPN bodies, up to four octets left over in lists with path identifiers, bit counts modulo 256 in builds without overflow checks, one component per FlowSpec rule."
  },
  {
   "property": "C95",
   "status": "proved",
   "theorems": [
    "C95_attribute"
   ],
   "note": "Full statement, as an equivalence with an inductive relation that mentions no decoder. The relation records what the library accepts, also where the RFCs differ: with a route distinguisher the announced next-hop length is not looked at; in AFI 25 four octets are read whatever length is announced."
  },
  {
   "property": "C96",
   "status": "proved",
   "theorems": [
    "C96_update"
   ],
   "note": "Full statement, as an equivalence. Failed decodes are C37."
  },
  {
   "property": "C97",
   "status": "proved",
   "theorems": [
    "C97_capability",
    "C97_text"
   ],
   "note": "Equivalence with a relation written without a decoder; UTF-8 is defined from scalar values."
  },
  {
   "property": "C98",
   "status": "proved",
   "theorems": [
    "C98_open",
    "C98_notification"
   ],
   "note": "Equivalence. The octet with the parameters' length is not looked at by the code, which the relation says."
  },
  {
   "property": "C99",
   "status": "proved",
   "theorems": [
    "C99_header"
   ],
   "note": "Equivalence in both build modes."
  },
  {
   "property": "C100",
   "status": "proved",
   "theorems": [
    "C100_bmp",
    "C100_session"
   ],
   "note": "Equivalence, without and with a session. The relation says where the library departs from RFC 7854: ::/96 addresses, the reason octets of a Termination."
  },
  {
   "property": "C101",
   "status": "partial",
   "theorems": [
    "C101_forward",
    "C101_aggregator_refuted"
   ],
   "note": "False for every message holding an AGGREGATOR: it is received, and sent on with its payload unwritten, which decoding refuses (C101_aggregator_refuted). Proved for messages holding only what the encoders support, as `forwardable` says: no AGGREGATOR, PMSI tunnel or attribute set, four-octet AS numbers, at least one label per labelled route, MVPN types 1 and 2, operator flow rules with their announced length (C101_forward)."
  },
  {
   "property": "C102",
   "status": "proved",
   "theorems": [
    "C102_nlri_panics"
   ],
   "note": "The set is given by `nlri_crash` (S_Panic), family by family; C102_nlri_panics is an equivalence."
  },
  {
   "property": "C103",
   "status": "proved",
   "theorems": [
    "C103_attribute_panics",
    "C103_update_panics"
   ],
   "note": "`attr_crash` and `update_crash` (S_Panic); both theorems are equivalences, for every attribute type and every UPDATE."
  },
  {
   "property": "C104",
   "status": "partial",
   "theorems": [
    "C104_routes_partial",
    "C104_attribute_partial",
    "C104_message_partial",
    "C104_send_partial",
    "C104_bmp_partial",
    "C104_aggregator_stale",
    "C104_aggregator_refuted",
    "C104_fqdn_refuted",
    "C104_vpls_refuted",
    "C104_evpn_refuted",
    "C104_flowspec_refuted"
   ],
   "note": "Proved for every value outside five classes, and for each of those classes refuted for all members that can be encoded: AGGREGATOR (its value is never written, C104_aggregator_stale), OPEN with an FQDN capability (two octets never written), lists of VPLS routes (two more octets needed than returned), EVPN IP prefix routes with IPv6 addresses and fewer than six labels, FlowSpec components without a short value (C104_*_refuted). FlowSpec prefixes above 248 bits are not covered either way. For BMP the octets behind the message may be zeroed, so there only the front is claimed; embedded messages must fit in 16 bits."
  },
  {
   "property": "C105",
   "status": "proved",
   "theorems": [
    "C105_routes",
    "C105_attribute",
    "C105_message",
    "C105_send",
    "C105_bmp",
    "C105_fits"
   ],
   "note": "Both directions, for routes, attributes, message bodies, whole messages and BMP messages; hypotheses are what the Rust types say (prefix lengths are octets, an ESI has nine, a MAC address six). C105_fits: without overflow checks, messages with prefixes within their addresses and without PMSI tunnel and ATTR_SET never panic. That the buffer must be large enough is part of the claim; buffers too small are outside it."
  },
  {
   "property": "C106",
   "status": "proved",
   "theorems": [
    "C106_routes",
    "C106_attribute",
    "C106_update",
    "C106_open",
    "C106_bmp",
    "C106_session"
   ],
   "note": "Counted with addrs_size, attr_size, update_size, open_size and bmp_size of S_Size; the examples show the bound met with equality (one octet per default route)."
  },
  {
   "property": "C107",
   "status": "partial",
   "theorems": [
    "C107_depth",
    "C107_shallow_refuted"
   ],
   "note": "False: the peer chooses the depth. C107_shallow_refuted: for every n up to 8190, an UPDATE of 12 + 8n octets decodes to n + 1 attribute sets one inside the other in every session with four-octet AS numbers. What holds is C107_depth: the depth is at most a seventh of the octets received. How much stack one level takes is not modelled."
  },
  {
   "property": "C108",
   "status": "partial",
   "theorems": [
    "C108_entries",
    "C108_refused",
    "C108_codes_partial",
    "C108_codes_refuted"
   ],
   "note": "Proved for every capability: entries carry the codes of the multiprotocol capability (mp_code) and what was given; anything else is Err EOther, never a panic. The codes are the registered ones except for IPv4 multicast and labelled IPv4, which are swapped: C108_codes_refuted shows what a session then expects. Flow specifications are refused."
  },
  {
   "property": "C109",
   "status": "partial",
   "theorems": [
    "C109_vpnv4u_arrives",
    "C109_vpnv4m_arrives",
    "C109_ip4lu_arrives",
    "C109_ip6lu_refuted",
    "C109_vpnv6u_refuted",
    "C109_vpnv6m_refuted",
    "C109_new_nl_same",
    "C109_new_nl_refuted",
    "C109_community_from",
    "C109_community_display",
    "C109_community_vec",
    "C109_extended_vec",
    "C109_community_vec_arrives"
   ],
   "note": "Proved for the IPv4 announcements (s4vpnv4u, s4vpnv4m, s4ip4lu), communities from halves and community lists from vectors. Refuted for all inputs: s4ip6lu is sent but every receiver refuses it, s4vpnv6u/s4vpnv6m never arrive with their next hop, Labeled::new_nl is sent as the unlabelled route and arrives with labels."
  },
  {
   "property": "C110",
   "status": "partial",
   "theorems": [
    "C110_attribute_partial",
    "C110_attribute_exact",
    "C110_header_refuted",
    "C110_unknown_refuted",
    "C110_withdrawal_refuted",
    "C110_announcement_refuted",
    "C110_routes_refuted",
    "C110_notification",
    "C110_open_partial",
    "C110_open_refuted",
    "C110_update_refuted",
    "C110_update_partial",
    "C110_withdrawn_refuted",
    "C110_announced_refuted",
    "C110_send_refuted"
   ],
   "note": "True of NOTIFICATION, of attributes whose encoders look at the buffer (from their header on), of an UPDATE that says nothing, and of an OPEN unless cut where a capability begins or one octet further. Refuted for all inputs elsewhere: prefix lists, unknown attributes, withdrawals and announcements of prefixes, attribute headers, UPDATE (in some too short buffer exactly when it says something; in all that end within the withdrawn or announced routes), sending from less than 19 octets. Not characterised: announcements cut within the next hop, routes other than prefixes, BMP."
  },
  {
   "property": "C111",
   "status": "partial",
   "theorems": [
    "C111_same_update",
    "C111_same_open",
    "C111_same_notification",
    "C111_notification",
    "C111_open_partial",
    "C111_open_refuted",
    "C111_update_partial",
    "C111_update_refuted",
    "C111_leak_refuted"
   ],
   "note": "Proved for NOTIFICATION and for an OPEN without a complete fixed part of version 4. Refuted for all inputs: any other OPEN overwrites the header and drops the old capabilities whether it fails or not; an UPDATE with a bad attribute behind good ones leaves its withdrawn routes and attributes, which then appear in the next UPDATE decoded into the object. C111_update_partial says exactly what stays for any failing UPDATE. C111_same_*: the model with the object agrees with the others."
  },
  {
   "property": "C112",
   "status": "partial",
   "theorems": [
    "C112_run_partial",
    "C112_v4_run",
    "C112_v6_run",
    "C112_mac_run_refuted",
    "C112_mac_run_ends"
   ],
   "note": "Proved for IPv4, IPv6 and BgpNet of these kinds. Refuted for every MAC prefix of length 1 to 47 (it holds of lengths 0 and 48, C112_mac_run_ends): MAC octets are stored, and hence compared, least significant first."
  },
  {
   "property": "C113",
   "status": "proved",
   "theorems": [
    "C113_prefixes",
    "C113_vpn",
    "C113_vpls",
    "C113_mvpn",
    "C113_evpn",
    "C113_flowspec",
    "C113_addrs"
   ],
   "note": "MAC addresses count by their stored octets, least significant first; sizes of fixed arrays (ESI, MAC) are assumed as in the Rust types."
  },
  {
   "property": "C114",
   "status": "partial",
   "theorems": [
    "C114_sent_whole_partial",
    "C114_sent_cut_refuted",
    "C114_garbled_refuted",
    "C114_routes_lost_refuted"
   ],
   "note": "Proved for bodies of at most 65516 octets (also above the 4096 of RFC 4271, which nothing enforces). Refuted for every longer body: the length is cast to u16, so a body of r + 65536 k octets is sent as its first r octets under a consistent header; for r above 65516 it panics or sends at most 18 octets. C114_routes_lost_refuted: IPv4 routes filling a multiple of 65536 octets vanish while the peer receives a good UPDATE with the rest."
  },
  {
   "property": "C115",
   "status": "partial",
   "theorems": [
    "C115_open_partial",
    "C115_open_refuted",
    "C115_update_partial",
    "C115_update_refuted",
    "C115_prefix_refuted",
    "C115_routes_refuted",
    "C115_update_cases",
    "C115_notification_refuted",
    "C115_header_refuted",
    "C115_bmp_header",
    "C115_bmp_partial",
    "C115_initiation_partial",
    "C115_termination_partial",
    "C115_termination_refuted",
    "C115_told"
   ],
   "note": "Proved: OPEN cut anywhere but behind a parameter (or one octet further), UPDATE cut before its attributes, BMP header and per-peer messages without their fixed part, Initiation cut within a TLV, Termination cut within a value. Refuted, for every message: an OPEN cut behind a parameter is accepted with fewer capabilities; an UPDATE cut within its attributes gives ProtocolError, within a prefix a static error, and behind a route or within a path identifier it is accepted with fewer routes (C115_update_cases: these are all the cuts; `told` is the condition that the path-id guess is right on what is left, always met without fuzzy_pathid); a NOTIFICATION loses its data or half of it; message headers give a static error; a Termination loses its last TLV. BMP messages cut inside an embedded BGP message panic (C53)."
  },
  {
   "property": "C116",
   "status": "partial",
   "theorems": [
    "C116_protocol",
    "C116_messages",
    "C116_bmp",
    "C116_routes",
    "C116_attributes",
    "C116_capabilities",
    "C116_site",
    "C116_missing_refuted",
    "C116_no_protocol",
    "C116_too_many_partial",
    "C116_too_many_only",
    "C116_never_too_many",
    "C116_entries",
    "C116_larger_buffer_refuted"
   ],
   "note": "Proved: ProtocolError from an UPDATE iff its attributes overrun (C116_protocol), from no other decoder but BMP type 0 and the session decoder on it, from no encoder; TooManyData from no decoder; for UPDATE iff more than 65535 octets are withdrawn and fit the buffer, when no EVPN route is over 255 octets (C116_too_many_partial), and otherwise only because of such a route; OPEN, NOTIFICATION, capabilities and the other BMP messages never. Route lists report InsufficientBufferSize only in SAFIs 66/128/129, attributes only for types 14/15/128 or an empty ORIGIN, capabilities exactly when cut. Refuted for all: an empty ORIGIN gives InsufficientBufferSize whatever octets follow; a FlowSpec rule of 4093 tests or more gives it whatever the buffer. TooManyData is not given for overlong attributes, announced routes, capabilities (C41, C114: those panic or wrap). Text parsers only give message texts (C117_answers)."
  },
  {
   "property": "C117",
   "status": "proved",
   "theorems": [
    "C117_ipv6",
    "C117_v6_prefix",
    "C117_v4_prefix",
    "C117_mac_prefix",
    "C117_net",
    "C117_families",
    "C117_mdt_v4",
    "C117_mdt_v6",
    "C117_answers"
   ],
   "note": "Exact grammar of what is accepted (S_Parse), including the leniencies refuted in C74 (an unusable length means the host length, text behind a second slash is ignored, MAC text is any text with a hexadecimal digit). The address parsers are std's, modelled after core/src/net/parser.rs."
  },
  {
   "property": "C118",
   "status": "partial",
   "theorems": [
    "C118_equality",
    "C118_order",
    "C118_lawful",
    "C118_aspath_refuted",
    "C118_sort_order",
    "C118_communities",
    "C118_partial_cmp",
    "C118_partial_cmp_refuted",
    "C118_pmsi_refuted",
    "C118_next_hops"
   ],
   "note": "Proved: exact equality, total order, sort keys, hash for all attributes at any nesting. Refuted: attributes with an AS path holding a 16-bit AS number in the upper half are equal but ordered and hashed apart from those holding it in the lower half; partial_cmp of an attribute with itself is None exactly when a label-bearing VPLS or EVPN route or a PMSI tunnel is inside. The hash is the sequence of numbers fed to the Hasher."
  },
  {
   "property": "C119",
   "status": "proved",
   "theorems": [
    "C119_laws",
    "C119_sort_order",
    "C119_negotiation"
   ],
   "note": "The hash is the sequence of numbers fed to the Hasher; String is the list of its octets."
  },
  {
   "property": "C120",
   "status": "proved",
   "theorems": [
    "C120_strings",
    "C120_strings_end",
    "C120_capability",
    "C120_open",
    "C120_params",
    "C120_msgtype",
    "C120_peer",
    "C120_key",
    "C120_header",
    "C120_bmp",
    "C120_received_open",
    "C120_received_initiation",
    "C120_received_termination"
   ],
   "note": "Strings are UTF-8 (the invariant of String) and addresses have 32 or 128 bits (update_any for UPDATE messages); these conditions are shown to hold of everything decoded (C125)."
  },
  {
   "property": "C121",
   "status": "proved",
   "theorems": [
    "C121_strings",
    "C121_attribute",
    "C121_routes",
    "C121_update",
    "C121_open",
    "C121_params",
    "C121_bmp"
   ],
   "note": "ASCII control characters: octets below 32 and 127. Which characters beyond ASCII are escaped is a parameter. {:#?} is not modelled."
  },
  {
   "property": "C122",
   "status": "partial",
   "theorems": [
    "C122_v4_written",
    "C122_v6_written",
    "C122_labeled_written",
    "C122_withrd_written",
    "C122_read",
    "C122_read_exact",
    "C122_families",
    "C122_mdt_refuted",
    "C122_mdt"
   ],
   "note": "False for MDT routes (C122_mdt_refuted): prefixlen leaves out the group address, so the octet written differs from it by 32 or 128 for every route (C122_mdt). For all other types proved; in a release build lengths of 256 bits and more wrap, so the octet is the number modulo 256 there."
  },
  {
   "property": "C123",
   "status": "proved",
   "theorems": [
    "C123_multicast"
   ],
   "note": ""
  },
  {
   "property": "C124",
   "status": "proved",
   "theorems": [
    "C124_slice",
    "C124_fails"
   ],
   "note": "slice_mut is the same function on a mutable slice and is not modelled separately."
  },
  {
   "property": "C125",
   "status": "partial",
   "theorems": [
    "C125_routes",
    "C125_attribute",
    "C125_update",
    "C125_bmp",
    "C125_session",
    "C125_update_logged",
    "C125_bmp_logged",
    "C125_attribute_stored",
    "C125_routes_stored",
    "C125_evpn_refuted"
   ],
   "note": "Proved in full but for two exceptions that are refuted: an EVPN type 5 route keeps any length octet with its IPv4 address (C125_evpn_refuted), and FlowSpec lists do not come back from serde (C85, C86). An UPDATE decoded into a message that already holds attributes keeps those (C38)."
  },
  {
   "property": "C126",
   "status": "partial",
   "theorems": [
    "C126_read",
    "C126_written",
    "C126_unwritten",
    "C126_announced",
    "C126_withdrawn",
    "C126_flowspec_refuted",
    "C126_guess_refuted"
   ],
   "note": "Proved for all families and for UPDATE. Two exceptions are refuted: FlowSpec prefixes, which lose the first octet of what follows (C126_flowspec_refuted), and lists in which path identifiers are guessed, as they are by default (C126_guess_refuted: two default routes in a row). Where path identifiers are expected, up to four octets left over at the end of a list are the start of the next entry once something follows; the hypothesis length b1 <= n1 rules that out. Writing assumes that the length returned for the first list is not beyond the buffer."
  },
  {
   "property": "C127",
   "status": "proved",
   "theorems": [
    "C127_reordered",
    "C127_getters"
   ],
   "note": ""
  },
  {
   "property": "C128",
   "status": "partial",
   "theorems": [
    "C128_routes",
    "C128_attribute",
    "C128_message",
    "C128_sent",
    "C128_header",
    "C128_capability",
    "C128_capability_refuted",
    "C128_bmp"
   ],
   "note": "Proved for all encoders of BGP and BMP messages. False of `fill_buffer` called directly for the capabilities that are copied from a literal: it panics on every buffer which is longer than the capability (C128_capability_refuted). In an OPEN it is given a slice of the exact length."
  },
  {
   "property": "C129",
   "status": "proved",
   "theorems": [
    "C129_heard",
    "C129_messages",
    "C129_attributes",
    "C129_routes",
    "C129_stream",
    "C129_spoken",
    "C129_sent",
    "C129_addpath_ignored"
   ],
   "note": ""
  },
  {
   "property": "C130",
   "status": "proved",
   "theorems": [
    "C130_stream",
    "C130_parts",
    "C130_survives"
   ],
   "note": "The loop that reads the header, takes the octets and calls the session is the user's; it is written in S_Station (`station`), the calls are the modelled ones. IPv6 addresses in ::/96 are excluded as in C49."
  },
  {
   "property": "C131",
   "status": "partial",
   "theorems": [
    "C131_isolation",
    "C131_header",
    "C131_legacy_refuted",
    "C131_type_refuted"
   ],
   "note": "Proved for peers as RD and address (C131_isolation), and that nothing else of the per-peer header has an influence (C131_header). Hence false of flags and type: a path of two-octet AS numbers under the A flag is read as another path, for every path (C131_legacy_refuted); a peer of another type with the same RD and address going down takes the session away (C131_type_refuted)."
  },
  {
   "property": "C132",
   "status": "partial",
   "theorems": [
    "C132_octets",
    "C132_alive_partial",
    "C132_expires_refuted",
    "C132_pace_partial",
    "C132_flood_refuted",
    "C132_main"
   ],
   "note": "Kept up exactly when a third of the peer's hold time is at most one's own (C132_alive_partial; for the program as it is run: at most 542 seconds, C132_main); false otherwise, for all such pairs, because the client takes the peer's hold time for the agreed one (C132_expires_refuted). Paced exactly from a hold time of 3 on (C132_pace_partial); for 0, 1 and 2 any number of keepalives leaves without a pause (C132_flood_refuted). Writing to the stream is taken to need no time."
  },
  {
   "property": "C133",
   "status": "partial",
   "theorems": [
    "C133_display",
    "C133_kind_refuted",
    "C133_debug",
    "C133_debug_line",
    "C133_family",
    "C133_attributes",
    "C133_names",
    "C133_afi",
    "C133_safi_refuted",
    "C133_one_way_refuted"
   ],
   "note": "Texts proved (C133_display, C133_debug, C133_debug_line) with the kind not told by Display, for every error (C133_kind_refuted). Families proved (C133_family, C133_attributes, C133_names) except that the SAFI is not named when the AFI is unknown (C133_safi_refuted, C133_afi) and that IPv6 FlowSpec, and nothing else, is read in withdrawals but refused in announcements (C133_one_way_refuted). The texts of the other errors of the decoders are not modelled."
  },
  {
   "property": "C134",
   "status": "partial",
   "theorems": [
    "C134_read",
    "C134_read_plain",
    "C134_family",
    "C134_unknown",
    "C134_exact",
    "C134_exact_plain",
    "C134_only_partial",
    "C134_only_plain_partial",
    "C134_cut_refuted",
    "C134_sent",
    "C134_sent_plain"
   ],
   "note": "Reading, telling the family, refusing and sending proved (C134_read, C134_read_plain, C134_family, C134_unknown, C134_sent, C134_sent_plain); the octets read as markers are characterised exactly (C134_exact, C134_exact_plain). Nothing else is read as a marker only where path identifiers are not received (C134_only_partial, C134_only_plain_partial): where they are, up to four octets of a route cut off within its identifier are taken for the end of the table (C134_cut_refuted, every such octets)."
  },
  {
   "property": "C135",
   "status": "partial",
   "theorems": [
    "C135_answers",
    "C135_prefixes",
    "C135_routes",
    "C135_routes_sent",
    "C135_attributes",
    "C135_attributes_sent",
    "C135_header",
    "C135_messages",
    "C135_update_left",
    "C135_messages_sent",
    "C135_exchange",
    "C135_stream",
    "C135_client",
    "C135_bmp",
    "C135_bmp_sent",
    "C135_bmp_session",
    "C135_same_refuted"
   ],
   "note": "Agreement unless the checked build panics proved for every modelled entry point (C135_prefixes .. C135_bmp_session; C135_answers says what follows for a caller). That the builds agree everywhere is false: on every header announcing a message shorter than the header the checked one stops and the other announces a body of more than 65500 octets (C135_same_refuted); C102-C105 say where the checked one stops."
  },
  {
   "property": "C136",
   "status": "proved",
   "theorems": [
    "C136_read",
    "C136_sent"
   ],
   "note": "Reading from any place to any other with room for the octets (C136_read, which also says that nothing appears elsewhere), sending from every place (C136_sent)."
  },
  {
   "property": "C137",
   "status": "partial",
   "theorems": [
    "C137_alone_partial",
    "C137_prefix4_refuted",
    "C137_prefix6_refuted",
    "C137_oper_refuted",
    "C137_accepted_refuted",
    "C137_list4_refuted",
    "C137_list6_refuted"
   ],
   "note": "False, and characterised for every rule. A rule that begins with a prefix is always reported as the prefix alone, with the count ending inside the rule (C137_prefix4_refuted, C137_prefix6_refuted). A rule that begins with another component is never reported as sent: if accepted, the octets of the other components have become alternatives of the first (C137_oper_refuted), and this happens to every such component (C137_accepted_refuted). A rule of one operator component is read as sent (C137_alone_partial); for one prefix see C21. A list of routes that ends with a prefix and one test of one octet is never accepted: with a value from 1 to 13 (TCP, ICMP) the program panics, else it is refused (C137_list4_refuted, C137_list6_refuted)."
  },
  {
   "property": "C138",
   "status": "partial",
   "theorems": [
    "C138_known_partial",
    "C138_ipv6_refuted",
    "C138_vpn_ipv6_refuted",
    "C138_vpn_local_refuted",
    "C138_flow_refuted",
    "C138_reserved_refuted",
    "C138_reserved_stops",
    "C138_flow_vpn_refuted"
   ],
   "note": "Holds for the forms the code knows, all families and all octets of routes (C138_known_partial). Otherwise false: an IPv6 next hop of IPv4, VPLS and EVPN routes is always reported as the IPv4 address in its first four octets (C138_ipv6_refuted), likewise behind a route distinguisher when accepted (C138_vpn_ipv6_refuted); the link-local half of a VPN-IPv6 next hop is read as routes (C138_vpn_local_refuted); flow specifications without next hop, and all IPv6 flow specifications, are refused (C138_flow_refuted). The reserved octet is not ignored: for every value of it as many SNPAs are dropped from the routes, and the program stops if there are too few octets (C138_reserved_refuted, C138_reserved_stops). VPN flow specifications without a next hop, if accepted, are reported with one made of their octets (C138_flow_vpn_refuted)."
  },
  {
   "property": "C139",
   "status": "partial",
   "theorems": [
    "C139_grouping",
    "C139_one_by_one",
    "C139_other",
    "C139_extended_refuted",
    "C139_stray_refuted"
   ],
   "note": "Regrouping never changes the answer, be it a message or an error (C139_grouping); the capabilities are those of the parts read alone (C139_one_by_one); a parameter of another type behind accepted ones is refused (C139_other). False: every OPEN with parameters in the extended form of RFC 9072 is refused (C139_extended_refuted), and one stray octet behind the last parameter is not noticed (C139_stray_refuted)."
  },
  {
   "property": "C140",
   "status": "partial",
   "theorems": [
    "C140_parts",
    "C140_seen",
    "C140_first_partial",
    "C140_missing_refuted",
    "C140_repeated_refuted"
   ],
   "note": "Proved: attributes are read independently (C140_parts), absence is visible through the getters (C140_seen), and a repetition does not change any getter (C140_first_partial). False for all inputs: no attribute is required (C140_missing_refuted), and a repeated attribute, also MP_REACH_NLRI and MP_UNREACH_NLRI, is accepted and kept in the list (C140_repeated_refuted)."
  },
  {
   "property": "C141",
   "status": "partial",
   "theorems": [
    "C141_flags_refuted",
    "C141_attribute",
    "C141_unknown_refuted"
   ],
   "note": "Proved: the form of the length does not matter, and an unknown attribute is kept as it came. False for all inputs: the flags of known attributes have no influence whatever (C141_flags_refuted for UPDATE, C141_attribute for one attribute and every outcome), so contradictions are accepted and the partial bit is lost; unknown attributes are kept also if their flags say well-known or non-transitive (C141_unknown_refuted)."
  },
  {
   "property": "C142",
   "status": "partial",
   "theorems": [
    "C142_version",
    "C142_values_refuted",
    "C142_errors",
    "C142_as4"
   ],
   "note": "Proved: other versions are refused (C142_version), a four-octet AS number becomes that of the session parameters whatever the other field says (C142_as4). False for all inputs: whether an OPEN of version 4 is accepted, and with which error it is refused, does not depend on its AS number, hold time and router id (C142_values_refuted, C142_errors), and a contradiction between the AS numbers is not an error (C142_as4)."
  },
  {
   "property": "C143",
   "status": "partial",
   "theorems": [
    "C143_v4_refuted",
    "C143_v6_refuted"
   ],
   "note": "Proved for all lengths and octets: encodings that differ only in the padding hold the same member addresses (as in_subnet answers). False for all inputs: they are received as different values (C143_v4_refuted, C143_v6_refuted)."
  },
  {
   "property": "C144",
   "status": "partial",
   "theorems": [
    "C144_label",
    "C144_label_path_id",
    "C144_bottom_refuted",
    "C144_more_labels_v4_refuted",
    "C144_more_labels_v6_refuted"
   ],
   "note": "Proved for entries that end the label stack, by the bottom bit or a special value (C144_label, C144_label_path_id). False for all others: the bit is not ignored, octets of the prefix are taken as another label; IPv4 prefixes of 1 to 23 bits stop a program with overflow checks (C144_bottom_refuted) and what is accepted has at least two labels (C144_more_labels_v4_refuted, C144_more_labels_v6_refuted). The refutations are for sessions without path identifiers for the family."
  }
 ]
}