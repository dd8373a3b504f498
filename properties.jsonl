{"id": "C01", "title": "Network-order integers and IP addresses survive the buffer", "statement": "Storing any u16/u32/u64 or IPv4/IPv6 address into a buffer that is large enough writes exactly its big-endian bytes at the start, leaves every later byte untouched and reports the number of bytes written; reading those bytes back returns the original value. Address codecs answer Err (never panic) on a buffer that is too short.", "quantifier": "every value of each integer/address type, every buffer content and length", "why_tests_cant": "The input space is unbounded (or at least 2^32 large) and the claim is about every element of it; a test suite samples a handful of points and misses boundary values and list-length interactions.", "anchors": ["src/util.rs: setn_u16,getn_u16,setn_u32,getn_u32,setn_u64,getn_u64,getn_u128,encode_addrv4_to,decode_addrv4_from,encode_addrv6_to,decode_addrv6_from,encode_addr_to,decode_addr_from"]}
{"id": "C02", "title": "IPv4 prefix membership is exact", "statement": "BgpAddrV4::in_subnet answers true exactly when the address agrees with the prefix on its first prefixlen bits, and never panics, for every prefix length 0..=32.", "quantifier": "every IPv4 prefix (host bits set or not) and every IPv4 address", "why_tests_cant": "The input space is unbounded (or at least 2^32 large) and the claim is about every element of it; a test suite samples a handful of points and misses boundary values and list-length interactions.", "anchors": ["src/afi/ipv4.rs: BgpAddrV4::in_subnet, norm_subnet_u32"]}
{"id": "C03", "title": "IPv6 prefix membership is exact", "statement": "BgpAddrV6::in_subnet answers true exactly when the address agrees with the prefix on its first prefixlen bits.", "quantifier": "every IPv6 prefix and every IPv6 address", "why_tests_cant": "The input space is unbounded (or at least 2^32 large) and the claim is about every element of it; a test suite samples a handful of points and misses boundary values and list-length interactions.", "anchors": ["src/afi/ipv6.rs: BgpAddrV6::in_subnet, norm_subnet_u128"]}
{"id": "C04", "title": "MAC prefix membership is exact", "statement": "BgpAddrMac::in_subnet answers true exactly when the MAC agrees with the prefix on its first prefixlen bits (0..=48), without panicking.", "quantifier": "every MAC prefix and every MAC address", "why_tests_cant": "The input space is unbounded (or at least 2^32 large) and the claim is about every element of it; a test suite samples a handful of points and misses boundary values and list-length interactions.", "anchors": ["src/afi/mac.rs: BgpAddrMac::in_subnet, norm_subnet_u48, MacAddress::to_u64"]}
{"id": "C05", "title": "First/last address of a subnet", "statement": "range_first/range_last of an IPv4, IPv6 or MAC prefix are the least and the greatest address that belong to the prefix, for every legal prefix length including 0.", "quantifier": "every prefix of each kind", "why_tests_cant": "The input space is unbounded (or at least 2^32 large) and the claim is about every element of it; a test suite samples a handful of points and misses boundary values and list-length interactions.", "anchors": ["src/afi/ipv4.rs: range_first, range_last", "src/afi/ipv6.rs: range_first, range_last", "src/afi/mac.rs: range_first, range_last"]}
{"id": "C06", "title": "IPv4 prefix containment is subset of address sets", "statement": "BgpAddrV4::contains(b) is true exactly when every address of b is an address of self.", "quantifier": "every pair of IPv4 prefixes with lengths 0..=32", "why_tests_cant": "The input space is unbounded (or at least 2^32 large) and the claim is about every element of it; a test suite samples a handful of points and misses boundary values and list-length interactions.", "anchors": ["src/afi/ipv4.rs: BgpAddrV4::contains"]}
{"id": "C07", "title": "IPv6 and MAC prefix containment is subset of address sets", "statement": "BgpAddrV6::contains and BgpAddrMac::contains are true exactly when every address of the argument is an address of self.", "quantifier": "every pair of prefixes", "why_tests_cant": "The input space is unbounded (or at least 2^32 large) and the claim is about every element of it; a test suite samples a handful of points and misses boundary values and list-length interactions.", "anchors": ["src/afi/ipv6.rs: BgpAddrV6::contains", "src/afi/mac.rs: BgpAddrMac::contains"]}
{"id": "C08", "title": "IPv4 NLRI lists round trip on the wire", "statement": "Encoding any list of IPv4 prefixes writes, for each, the length octet and the minimal number of prefix octets (RFC 4271 4.3), reports the total, touches nothing after it, and decoding those bytes yields the same prefixes truncated to whole octets, in order, consuming everything. Prefixes without bits beyond the last transmitted octet come back unchanged.", "quantifier": "every list (any length) of IPv4 prefixes with prefixlen 0..=32, every sufficiently large buffer", "why_tests_cant": "The input space is unbounded (or at least 2^32 large) and the claim is about every element of it; a test suite samples a handful of points and misses boundary values and list-length interactions.", "anchors": ["src/afi/ipv4.rs: BgpAddrV4 (BgpItem)", "src/afi/mod.rs: encode_bgpitems_to, decode_bgpitems_from, decode_bgpitem_from, encode_bgpitem_to"]}
{"id": "C09", "title": "IPv6 NLRI lists round trip on the wire", "statement": "As C08 for IPv6 prefixes 0..=128.", "quantifier": "every list of IPv6 prefixes, every sufficiently large buffer", "why_tests_cant": "The input space is unbounded (or at least 2^32 large) and the claim is about every element of it; a test suite samples a handful of points and misses boundary values and list-length interactions.", "anchors": ["src/afi/ipv6.rs: BgpAddrV6 (BgpItem)", "src/afi/mod.rs: encode_bgpitems_to, decode_bgpitems_from"]}
{"id": "C10", "title": "Decoded NLRI re-encodes to the very same bytes", "statement": "If a byte string decodes successfully as a list of IPv4 or IPv6 prefixes, then encoding the decoded list reproduces the byte string exactly (the decoder is injective and loses nothing, even host bits).", "quantifier": "every byte string accepted by the decoder", "why_tests_cant": "The bytes come from an untrusted peer; the property must hold for every byte string of every length, and the failing strings are exactly the ones nobody thinks to write as a test.", "anchors": ["src/afi/mod.rs: decode_bgpitems_from, encode_bgpitems_to", "src/afi/ipv4.rs", "src/afi/ipv6.rs"]}
{"id": "C11", "title": "ADD-PATH NLRI lists round trip", "statement": "Encoding any list of (path-id, prefix) pairs writes the 4-octet big-endian path id before each prefix and decoding gives the list back.", "quantifier": "every list of path-id/IPv4 or IPv6 prefix pairs", "why_tests_cant": "The input space is unbounded (or at least 2^32 large) and the claim is about every element of it; a test suite samples a handful of points and misses boundary values and list-length interactions.", "anchors": ["src/afi/mod.rs: encode_pathid_bgpitems_to, decode_pathid_bgpitems_from, WithPathId"]}
{"id": "C12", "title": "NLRI decoders account for every byte", "statement": "When an NLRI list decoder returns Ok, every input byte has been consumed by some decoded item; trailing garbage is an error, never silently dropped.", "quantifier": "every byte string, plain and ADD-PATH forms", "why_tests_cant": "The bytes come from an untrusted peer; the property must hold for every byte string of every length, and the failing strings are exactly the ones nobody thinks to write as a test.", "anchors": ["src/afi/mod.rs: decode_bgpitems_from, decode_pathid_bgpitems_from"]}
{"id": "C13", "title": "MPLS label stacks round trip", "statement": "Encoding a label stack (20-bit labels) and decoding it with the reported bit length yields the same stack.", "quantifier": "every stack whose non-final labels are not one of the reserved stack-ending values and whose size fits the length octet", "why_tests_cant": "The input space is unbounded (or at least 2^32 large) and the claim is about every element of it; a test suite samples a handful of points and misses boundary values and list-length interactions.", "anchors": ["src/afi/mod.rs: MplsLabels::extract_bits_from, MplsLabels::set_bits_to"]}
{"id": "C14", "title": "Labeled unicast NLRI round trip", "statement": "Lists of labeled IPv4/IPv6 prefixes round trip, labels included, when every stack is non-empty and well formed and the total bit length fits one octet.", "quantifier": "every such list", "why_tests_cant": "The input space is unbounded (or at least 2^32 large) and the claim is about every element of it; a test suite samples a handful of points and misses boundary values and list-length interactions.", "anchors": ["src/afi/mod.rs: Labeled::extract_bits_from, Labeled::set_bits_to"]}
{"id": "C15", "title": "VPN NLRI round trip", "statement": "Lists of labeled, route-distinguished IPv4/IPv6 prefixes (VPNv4/VPNv6) round trip.", "quantifier": "every list with well-formed stacks whose bit length fits one octet", "why_tests_cant": "The input space is unbounded (or at least 2^32 large) and the claim is about every element of it; a test suite samples a handful of points and misses boundary values and list-length interactions.", "anchors": ["src/afi/mod.rs: WithRd, Labeled, BgpRD"]}
{"id": "C16", "title": "Route distinguishers round trip in binary", "statement": "BgpRD encode/decode are mutually inverse on 8-byte strings and all RD values.", "quantifier": "every RD (2^64) and every 8-byte string", "why_tests_cant": "The input space is unbounded (or at least 2^32 large) and the claim is about every element of it; a test suite samples a handful of points and misses boundary values and list-length interactions.", "anchors": ["src/afi/mod.rs: BgpRD::decode_from, BgpRD::encode_to"]}
{"id": "C17", "title": "Length-prefixed NLRI (VPLS) round trip", "statement": "Encoding a list of VPLS NLRI and decoding the reported number of bytes gives the list back.", "quantifier": "every list of VPLS items", "why_tests_cant": "The input space is unbounded (or at least 2^32 large) and the claim is about every element of it; a test suite samples a handful of points and misses boundary values and list-length interactions.", "anchors": ["src/afi/mod.rs: encode_long_bgpitems_to, decode_long_bgpitems_from", "src/afi/vpls.rs"]}
{"id": "C18", "title": "MVPN routes round trip", "statement": "Every MCAST-VPN route (types 1-7) encodes to bytes that decode to the same route.", "quantifier": "every route of every type, IPv4 and IPv6 addresses", "why_tests_cant": "The input space is unbounded (or at least 2^32 large) and the claim is about every element of it; a test suite samples a handful of points and misses boundary values and list-length interactions.", "anchors": ["src/afi/mvpn.rs"]}
{"id": "C19", "title": "MDT NLRI round trip", "statement": "Every MDT-SAFI item (with and without RD) encodes to bytes that decode to the same item.", "quantifier": "every prefix, prefix length and group", "why_tests_cant": "The input space is unbounded (or at least 2^32 large) and the claim is about every element of it; a test suite samples a handful of points and misses boundary values and list-length interactions.", "anchors": ["src/afi/mdt.rs"]}
{"id": "C20", "title": "EVPN routes round trip", "statement": "Every EVPN route (types 1-5) encodes to bytes that decode to the same route, consuming exactly the encoded bytes.", "quantifier": "every EVPN route, every well-formed label stack, all address kinds", "why_tests_cant": "The input space is unbounded (or at least 2^32 large) and the claim is about every element of it; a test suite samples a handful of points and misses boundary values and list-length interactions.", "anchors": ["src/afi/evpn.rs"]}
{"id": "C21", "title": "FlowSpec NLRI round trip", "statement": "Every FlowSpec rule encodes to bytes that decode to the same rule, and every individual operator/value item round trips.", "quantifier": "every rule: any number of components, any values", "why_tests_cant": "The input space is unbounded (or at least 2^32 large) and the claim is about every element of it; a test suite samples a handful of points and misses boundary values and list-length interactions.", "anchors": ["src/afi/flowspec.rs"]}
{"id": "C22", "title": "Capabilities round trip", "statement": "Every BGP capability value whose payload fits a one-octet length encodes to bytes that decode to the same capability, consuming exactly the announced length.", "quantifier": "every capability constructor and payload", "why_tests_cant": "The input space is unbounded (or at least 2^32 large) and the claim is about every element of it; a test suite samples a handful of points and misses boundary values and list-length interactions.", "anchors": ["src/lib.rs: BgpCapability::fill_buffer, bytes_len, from_buffer, from_type_and_data, BgpCapGR, BgpCapLLGR, BgpCapAddPath"]}
{"id": "C23", "title": "Capability parsing is total", "statement": "Parsing a capability from arbitrary bytes never panics; on success it consumes 2+length bytes, between 2 and the buffer size; capabilities with unknown codes are returned verbatim with their code and data.", "quantifier": "every byte string", "why_tests_cant": "The bytes come from an untrusted peer; the property must hold for every byte string of every length, and the failing strings are exactly the ones nobody thinks to write as a test.", "anchors": ["src/lib.rs: BgpCapability::from_buffer"]}
{"id": "C24", "title": "Multiprotocol capability code points agree with the NLRI code points", "statement": "The AFI/SAFI announced for an address-family capability is the AFI/SAFI under which the library encodes and decodes routes of that family.", "quantifier": "every address-family capability", "why_tests_cant": "The disagreement is between two tables maintained in different files; each table is self-consistent under its own round-trip tests.", "anchors": ["src/lib.rs: BgpCapability::fill_buffer, afisafi_from_cap", "src/afi/mod.rs: BgpAddrs::get_afi_safi"]}
{"id": "C25", "title": "Negotiated capability set is an intersection", "statement": "After match_caps every plain capability left was in the local and in the remote set, every plain capability in both is left, 32-bit-AS survives iff both sides sent it, and has_as32bit reflects the result.", "quantifier": "every local and remote capability list", "why_tests_cant": "The input space is unbounded (or at least 2^32 large) and the claim is about every element of it; a test suite samples a handful of points and misses boundary values and list-length interactions.", "anchors": ["src/lib.rs: BgpSessionParams::match_caps, check_caps"]}
{"id": "C26", "title": "ADD-PATH is used only in directions both sides agreed to", "statement": "After match_caps the session sends (receives) path ids for an address family only if the local side announced send (receive) and the remote announced receive (send).", "quantifier": "every pair of local and remote ADD-PATH announcements", "why_tests_cant": "The input space is unbounded (or at least 2^32 large) and the claim is about every element of it; a test suite samples a handful of points and misses boundary values and list-length interactions.", "anchors": ["src/lib.rs: match_addpath_caps, match_caps, check_addpath_send, check_addpath_receive"]}
{"id": "C27", "title": "remove_capability removes that capability and nothing else", "statement": "After remove_capability(c) the capability is no longer present and all others are retained in order; removing twice equals removing once.", "quantifier": "every capability list and capability", "why_tests_cant": "The input space is unbounded (or at least 2^32 large) and the claim is about every element of it; a test suite samples a handful of points and misses boundary values and list-length interactions.", "anchors": ["src/lib.rs: remove_capability, remove_capability_addpath"]}
{"id": "C28", "title": "Message header round trip", "statement": "For every message type and body length <= 65516, prepare_message_buf writes a 19-byte header that decode_message_head decodes to the same type and length, the body bytes are untouched, and the returned size is body+19.", "quantifier": "every type, length, buffer", "why_tests_cant": "The input space is unbounded (or at least 2^32 large) and the claim is about every element of it; a test suite samples a handful of points and misses boundary values and list-length interactions.", "anchors": ["src/lib.rs: prepare_message_buf, decode_message_head", "src/message/mod.rs: BgpMessageType"]}
{"id": "C29", "title": "Header decoding rejects every malformed header", "statement": "decode_message_head never panics, and answers Err on a short buffer, a bad marker, an unknown type or a length below 19.", "quantifier": "every byte string, overflow checks on or off", "why_tests_cant": "The bytes come from an untrusted peer; the property must hold for every byte string of every length, and the failing strings are exactly the ones nobody thinks to write as a test.", "anchors": ["src/lib.rs: decode_message_head"]}
{"id": "C30", "title": "A byte stream of messages is reframed exactly", "statement": "Concatenating any sequence of framed messages and repeatedly reading a header and then the announced number of bytes recovers the same sequence of (type, body).", "quantifier": "every finite sequence of messages with bodies <= 65516 bytes", "why_tests_cant": "The input space is unbounded (or at least 2^32 large) and the claim is about every element of it; a test suite samples a handful of points and misses boundary values and list-length interactions.", "anchors": ["src/lib.rs: prepare_message_buf, decode_message_head, recv_message_head, send_message_buf", "examples/bgpdumper.rs: lifecycle"]}
{"id": "C31", "title": "OPEN messages round trip", "statement": "Encoding an OPEN and decoding it yields the same hold time, router id and capability list, and the AS number if below 65536, otherwise AS_TRANS 23456.", "quantifier": "every OPEN message whose capabilities are encodable", "why_tests_cant": "The input space is unbounded (or at least 2^32 large) and the claim is about every element of it; a test suite samples a handful of points and misses boundary values and list-length interactions.", "anchors": ["src/message/open.rs"]}
{"id": "C32", "title": "OPEN decoding is total", "statement": "Decoding an OPEN body never panics and always terminates.", "quantifier": "every byte string, every previous content of the message object", "why_tests_cant": "The bytes come from an untrusted peer; the property must hold for every byte string of every length, and the failing strings are exactly the ones nobody thinks to write as a test.", "anchors": ["src/message/open.rs: decode_from"]}
{"id": "C33", "title": "OPEN encoding is total", "statement": "Encoding an OPEN into any buffer gives Ok or Err, never a panic.", "quantifier": "every OPEN message and every buffer length", "why_tests_cant": "The input space is unbounded (or at least 2^32 large) and the claim is about every element of it; a test suite samples a handful of points and misses boundary values and list-length interactions.", "anchors": ["src/message/open.rs: encode_to"]}
{"id": "C34", "title": "OPEN optional-parameter length is right", "statement": "The optional parameter length octet of an encoded OPEN equals the number of bytes that follow it.", "quantifier": "every capability list", "why_tests_cant": "The input space is unbounded (or at least 2^32 large) and the claim is about every element of it; a test suite samples a handful of points and misses boundary values and list-length interactions.", "anchors": ["src/message/open.rs: encode_to"]}
{"id": "C35", "title": "NOTIFICATION round trip and independence of previous contents", "statement": "Encoding any notification and decoding it yields the same code, subcode and data; decoding does not depend on what the message object held before.", "quantifier": "every notification and byte string", "why_tests_cant": "The input space is unbounded (or at least 2^32 large) and the claim is about every element of it; a test suite samples a handful of points and misses boundary values and list-length interactions.", "anchors": ["src/message/notification.rs"]}
{"id": "C36", "title": "UPDATE messages round trip", "statement": "Encoding an UPDATE (withdrawn routes, path attributes, NLRI) and decoding the reported bytes with the same session parameters yields the same message.", "quantifier": "every UPDATE with any number of routes and attributes of the supported kinds", "why_tests_cant": "The input space is unbounded (or at least 2^32 large) and the claim is about every element of it; a test suite samples a handful of points and misses boundary values and list-length interactions.", "anchors": ["src/message/update/mod.rs", "src/message/attributes/mod.rs"]}
{"id": "C37", "title": "UPDATE decoding is total", "statement": "Decoding an UPDATE body received from a peer never panics.", "quantifier": "every byte string and all session parameters", "why_tests_cant": "The bytes come from an untrusted peer; the property must hold for every byte string of every length, and the failing strings are exactly the ones nobody thinks to write as a test.", "anchors": ["src/message/update/mod.rs: decode_from", "src/message/attributes"]}
{"id": "C38", "title": "UPDATE decoding into a reused message object", "statement": "Decoding does not depend on the previous contents of the message object.", "quantifier": "every previous message value and byte string", "why_tests_cant": "The input space is unbounded (or at least 2^32 large) and the claim is about every element of it; a test suite samples a handful of points and misses boundary values and list-length interactions.", "anchors": ["src/message/update/mod.rs: decode_from"]}
{"id": "C39", "title": "Path attribute framing", "statement": "For every attribute, the encoded header carries its flags, type code and exact payload length (one or two octets according to the extended-length flag); payloads too long for the length field are refused.", "quantifier": "every attribute value, every session", "why_tests_cant": "The input space is unbounded (or at least 2^32 large) and the claim is about every element of it; a test suite samples a handful of points and misses boundary values and list-length interactions.", "anchors": ["src/message/attributes/mod.rs: encode_bgpattr"]}
{"id": "C40", "title": "Unknown attributes are forwarded verbatim", "statement": "An attribute whose type code the library does not know decodes to its flags, type code and raw bytes, and re-encodes to exactly the bytes received.", "quantifier": "every unknown type code, flags and payload", "why_tests_cant": "The input space is unbounded (or at least 2^32 large) and the claim is about every element of it; a test suite samples a handful of points and misses boundary values and list-length interactions.", "anchors": ["src/message/attributes/unknown.rs", "src/message/attributes/mod.rs"]}
{"id": "C41", "title": "Scalar and address attributes round trip", "statement": "ORIGIN, NEXT_HOP, MED, LOCAL_PREF, ATOMIC_AGGREGATE, ORIGINATOR_ID, CLUSTER_LIST, CONNECTOR round trip (address attributes in the session's address mode).", "quantifier": "every value", "why_tests_cant": "The input space is unbounded (or at least 2^32 large) and the claim is about every element of it; a test suite samples a handful of points and misses boundary values and list-length interactions.", "anchors": ["src/message/attributes/{origin,nexthop,med,localpref,atomicaggregate,originatorid,clusterlist,connector}.rs"]}
{"id": "C42", "title": "Community attributes round trip as sets", "statement": "Standard, extended and large community sets round trip: decoding what was encoded gives the same set; on the wire each community appears once, in ascending order.", "quantifier": "every set of communities", "why_tests_cant": "The input space is unbounded (or at least 2^32 large) and the claim is about every element of it; a test suite samples a handful of points and misses boundary values and list-length interactions.", "anchors": ["src/message/attributes/community.rs", "src/message/attributes/extcommunity.rs"]}
{"id": "C43", "title": "AS_PATH round trips", "statement": "Encoding an AS path and decoding it in the same session gives the same AS numbers.", "quantifier": "every AS path, 2-octet and 4-octet sessions", "why_tests_cant": "The input space is unbounded (or at least 2^32 large) and the claim is about every element of it; a test suite samples a handful of points and misses boundary values and list-length interactions.", "anchors": ["src/message/attributes/aspath.rs"]}
{"id": "C44", "title": "AGGREGATOR round trips", "statement": "Encoding an AGGREGATOR attribute and decoding it gives the same AS and router id.", "quantifier": "every value, 2- and 4-octet sessions", "why_tests_cant": "The input space is unbounded (or at least 2^32 large) and the claim is about every element of it; a test suite samples a handful of points and misses boundary values and list-length interactions.", "anchors": ["src/message/attributes/aggregatoras.rs"]}
{"id": "C45", "title": "BgpAS equality, hash and order agree", "statement": "Equal AS values compare as Ordering::Equal and hash alike (required by BTreeSet/HashMap keys).", "quantifier": "every pair of AS values", "why_tests_cant": "The input space is unbounded (or at least 2^32 large) and the claim is about every element of it; a test suite samples a handful of points and misses boundary values and list-length interactions.", "anchors": ["src/message/attributes/aspath.rs: BgpAS"]}
{"id": "C46", "title": "NLRI equality and ordering laws", "statement": "Equality is an equivalence and cmp is a total order consistent with equality for Labeled, WithRd, WithPathId prefixes; partial_cmp agrees with cmp.", "quantifier": "every pair/triple of values", "why_tests_cant": "The input space is unbounded (or at least 2^32 large) and the claim is about every element of it; a test suite samples a handful of points and misses boundary values and list-length interactions.", "anchors": ["src/afi/mod.rs: Labeled, WithRd, WithPathId, MplsLabels"]}
{"id": "C47", "title": "MP_REACH / MP_UNREACH round trip", "statement": "Multiprotocol announcements and withdrawals round trip (next hop, AFI/SAFI and NLRI) for the families whose NLRI round trip.", "quantifier": "every next hop and NLRI list of the covered families", "why_tests_cant": "The input space is unbounded (or at least 2^32 large) and the claim is about every element of it; a test suite samples a handful of points and misses boundary values and list-length interactions.", "anchors": ["src/message/attributes/multiproto.rs", "src/afi/mod.rs: BgpAddrs::encode_to, decode_from, get_afi_safi"]}
{"id": "C48", "title": "Path ids are interpreted as negotiated", "statement": "Whether NLRI is parsed with path ids depends only on the negotiated capabilities, never on the bytes received.", "quantifier": "every session and NLRI byte string", "why_tests_cant": "The bytes come from an untrusted peer; the property must hold for every byte string of every length, and the failing strings are exactly the ones nobody thinks to write as a test.", "anchors": ["src/afi/mod.rs: BgpAddrs::decode_from", "src/util.rs: is_addpath_nlri", "src/message/update/mod.rs"]}
{"id": "C49", "title": "BMP per-peer header round trips", "statement": "Encoding a BMP per-peer header and decoding it yields the same header.", "quantifier": "every header", "why_tests_cant": "The input space is unbounded (or at least 2^32 large) and the claim is about every element of it; a test suite samples a handful of points and misses boundary values and list-length interactions.", "anchors": ["src/bmp/bmputl.rs"]}
{"id": "C50", "title": "BMP initiation and termination round trip", "statement": "BMP Initiation and Termination messages decode to what was encoded.", "quantifier": "every combination of optional strings/reason", "why_tests_cant": "The input space is unbounded (or at least 2^32 large) and the claim is about every element of it; a test suite samples a handful of points and misses boundary values and list-length interactions.", "anchors": ["src/bmp/msginit.rs", "src/bmp/msgterm.rs"]}
{"id": "C51", "title": "BMP peer up/down round trip", "statement": "PeerUp and PeerDown notifications decode to what was encoded.", "quantifier": "every header, OPEN pair and reason", "why_tests_cant": "The input space is unbounded (or at least 2^32 large) and the claim is about every element of it; a test suite samples a handful of points and misses boundary values and list-length interactions.", "anchors": ["src/bmp/msgpeer.rs"]}
{"id": "C52", "title": "BMP session table tracks peer up/down history", "statement": "After any sequence of BMP messages the session table contains a peer exactly when the latest successfully decoded up/down message for that (RD, address) was a PeerUp, and then holds that PeerUp; messages that fail to decode and all other message kinds leave the table unchanged.", "quantifier": "every finite history of BMP byte strings", "why_tests_cant": "The claim quantifies over all message histories; tests exercise a few fixed sequences.", "anchors": ["src/bmp/mod.rs: BMPSession::decode_from"]}
{"id": "C53", "title": "BMP decoding is total", "statement": "Decoding a BMP message never panics.", "quantifier": "every byte string and session table", "why_tests_cant": "The bytes come from an untrusted peer; the property must hold for every byte string of every length, and the failing strings are exactly the ones nobody thinks to write as a test.", "anchors": ["src/bmp/mod.rs", "src/bmp/msgpeer.rs", "src/bmp/msgrmon.rs", "src/bmp/msgterm.rs", "src/bmp/msginit.rs", "src/bmp/bmputl.rs"]}
{"id": "C54", "title": "List decoders terminate and make progress", "statement": "Every NLRI/attribute/capability decoding loop terminates on every input: each iteration consumes at least one byte, and the reported consumption never exceeds what was available (where the code promises it).", "quantifier": "every byte string", "why_tests_cant": "The bytes come from an untrusted peer; the property must hold for every byte string of every length, and the failing strings are exactly the ones nobody thinks to write as a test.", "anchors": ["src/afi/mod.rs: decode_bgpitems_from, decode_long_bgpitems_from, decode_pathid_bgpitems_from, decode_bgpaddritems_from", "src/message/update/mod.rs", "src/message/open.rs"]}
{"id": "C55", "title": "Prefix NLRI decoding is total", "statement": "Decoding IPv4/IPv6 unicast NLRI from arbitrary bytes never panics.", "quantifier": "every byte string; with and without overflow checks", "why_tests_cant": "The bytes come from an untrusted peer; the property must hold for every byte string of every length, and the failing strings are exactly the ones nobody thinks to write as a test.", "anchors": ["src/afi/ipv4.rs: from_bits", "src/afi/ipv6.rs: from_bits", "src/afi/mod.rs: decode_bgpitem_from"]}
{"id": "C56", "title": "Labeled and VPN NLRI decoding is total", "statement": "Decoding labeled-unicast and VPN NLRI from arbitrary bytes never panics.", "quantifier": "every byte string; with and without overflow checks", "why_tests_cant": "The bytes come from an untrusted peer; the property must hold for every byte string of every length, and the failing strings are exactly the ones nobody thinks to write as a test.", "anchors": ["src/afi/mod.rs: MplsLabels, Labeled, WithRd"]}
{"id": "C57", "title": "Community text form round trips", "statement": "Formatting any community with Display and parsing the text gives the same community.", "quantifier": "every u32 value", "why_tests_cant": "The input space is unbounded (or at least 2^32 large) and the claim is about every element of it; a test suite samples a handful of points and misses boundary values and list-length interactions.", "anchors": ["src/message/attributes/community.rs: Display, FromStr"]}
{"id": "C58", "title": "MAC address text form round trips", "statement": "Formatting any MAC address and parsing the text gives the same address; to_u64/from_u64 and network-byte conversions agree.", "quantifier": "every MAC address", "why_tests_cant": "The input space is unbounded (or at least 2^32 large) and the claim is about every element of it; a test suite samples a handful of points and misses boundary values and list-length interactions.", "anchors": ["src/afi/mac.rs: MacAddress"]}
{"id": "C59", "title": "Route distinguisher text form round trips", "statement": "Formatting any route distinguisher and parsing the text gives the same RD.", "quantifier": "every RD", "why_tests_cant": "The input space is unbounded (or at least 2^32 large) and the claim is about every element of it; a test suite samples a handful of points and misses boundary values and list-length interactions.", "anchors": ["src/afi/mod.rs: BgpRD Display, FromStr"]}
{"id": "C60", "title": "BMP address fields round trip", "statement": "An IP address stored in a BMP 16-byte address field and read back is the same address, and only those 16 bytes change.", "quantifier": "every IPv4/IPv6 address and buffer", "why_tests_cant": "The input space is unbounded (or at least 2^32 large) and the claim is about every element of it; a test suite samples a handful of points and misses boundary values and list-length interactions.", "anchors": ["src/bmp/bmputl.rs: encode_bmp_addr_to, decode_bmp_addr_from"]}
{"id": "C61", "title": "Prefix containment is an order", "statement": "BgpNet::contains never panics on legal prefixes, is reflexive and transitive, is antisymmetric for prefix lengths >= 1, and never relates prefixes of different address kinds.", "quantifier": "every pair/triple of IPv4, IPv6 and MAC prefixes", "why_tests_cant": "Transitivity and antisymmetry range over all triples/pairs of a 2^40+ element set.", "anchors": ["src/afi/mod.rs: BgpNet::contains", "src/afi/ipv4.rs: contains", "src/afi/ipv6.rs: contains", "src/afi/mac.rs: contains"]}
{"id": "C62", "title": "An NLRI item occupies exactly the octets its length octet announces", "statement": "When a length-prefixed NLRI item (plain, labeled or VPN, IPv4 or IPv6) is accepted, the decoder has consumed the length octet plus ceil(length/8) octets, no more and no less, so the next item starts where the sender put it.", "quantifier": "every byte string, with and without overflow checks", "why_tests_cant": "Desynchronisation needs unusual label stacks whose bit counter wraps around modulo 256; the space of byte strings is unbounded.", "anchors": ["src/afi/mod.rs: decode_bgpitem_from, MplsLabels::extract_bits_from, Labeled::extract_bits_from, WithRd::extract_bits_from", "src/afi/ipv4.rs: from_bits", "src/afi/ipv6.rs: from_bits"]}
{"id": "C63", "title": "NLRI lists round trip through BgpAddrs", "statement": "Encoding a BgpAddrs list and decoding the bytes under the AFI/SAFI the list reports, in a session that negotiated the list's path-id form, gives the same list and consumes all the bytes.", "quantifier": "every list of every address family whose items round trip, every session", "why_tests_cant": "31 variants times unbounded lists times session parameters; a test can only sample a few lists per variant", "anchors": ["src/afi/mod.rs: BgpAddrs::decode_from, encode_to, get_afi_safi"]}
{"id": "C64", "title": "Route target constructors", "statement": "A route target built from an IPv4 address and a number, or from an AS and a number, has the RFC 4360 octets on the wire, and get_ipv4/get_num give back the address and the number; an extended community built from a 64-bit number has that number's octets.", "quantifier": "every address, AS, number and 64-bit value", "why_tests_cant": "2^48 and 2^64 inputs; shifts and masks that are right for small octets can lose bits for others", "anchors": ["src/message/attributes/extcommunity.rs: new, rt_asn, rt_ipn, get_ipv4, get_num, From<u64>"]}
{"id": "C65", "title": "UPDATE attribute getters", "statement": "Each attribute getter of an UPDATE returns the content of the first attribute of its kind in the message, and None exactly when there is none.", "quantifier": "every UPDATE message, any number and order of attributes", "why_tests_cant": "holds for every list of attributes, including repeated ones and any number of others in between", "anchors": ["src/message/update/mod.rs: get_attr_origin, get_attr_aspath, get_attr_communitylist, get_attr_largecommunitylist, get_attr_extcommunitylist, get_attr_nexthop, get_mpupdates, get_mpwithdraws"]}
{"id": "C66", "title": "Ordering of NLRI lists and label-bearing routes", "statement": "For every NLRI list and every route type (VPLS, EVPN, MVPN, FlowSpec, PMSI tunnel) equality, cmp, partial_cmp and hash fulfil the contract of Rust's traits: equality is an equivalence, cmp is a total order whose Equal is that equality, equal values hash alike and partial_cmp agrees with cmp.", "quantifier": "every pair/triple of NLRI lists or routes, any length", "why_tests_cant": "the laws range over all pairs and triples of lists of any length, over 31 list variants whose derived comparisons stop at the first incomparable field", "anchors": ["src/afi/mod.rs: BgpAddrs, MplsLabels", "src/afi/evpn.rs: BgpEVPN", "src/afi/vpls.rs: BgpAddrL2", "src/message/attributes/pmsitunnelattr.rs: BgpPMSITunnel"]}
{"id": "C67", "title": "BMP messages round trip", "statement": "Encoding a BMP message of any kind and decoding the result yields the same message, and the common header (version 3, length) round trips likewise; every 5 octets with version 3 are a common header.", "quantifier": "For every BMP message of every kind that BmpMessage represents, and every buffer large enough.", "why_tests_cant": "A message embeds addresses, capabilities and a whole UPDATE of unbounded size; two message kinds have no encoder at all, and the encoder zeroes buffer contents depending on address family.", "anchors": ["src/bmp/mod.rs: BmpMessage", "src/bmp/mod.rs: BmpMessageHeader"]}
{"id": "C68", "title": "Route Monitoring is read with the session's parameters", "statement": "After a PeerUp, the UPDATEs in Route Monitoring messages of that peer are decoded under the session parameters its two OPENs negotiated; for a peer that is not up, under those the per-peer header implies. Route Monitoring never changes the session table.", "quantifier": "For every session table, PeerUp message, Route Monitoring message and history.", "why_tests_cant": "The parameters depend on which OPEN is the peer's, on the capabilities of both, and on the history of the session.", "anchors": ["src/bmp/mod.rs: BMPSession::decode_rm", "src/bmp/msgrmon.rs"]}
{"id": "C69", "title": "Per-peer headers are lawfully ordered", "statement": "Equality, Ord and PartialOrd of BmpMessagePeerHeader are an equivalence and a total order that agree with one another; two headers are equal exactly when they describe the same peer (everything but the timestamp).", "quantifier": "For all triples of per-peer headers.", "why_tests_cant": "Transitivity and totality range over all triples.", "anchors": ["src/bmp/bmputl.rs: BmpMessagePeerHeader"]}
{"id": "C70", "title": "Prefix text round trips", "statement": "Formatting an IPv4, IPv6 or MAC prefix and parsing the text gives the same prefix; the texts accepted for an IPv4 prefix are an address in dotted decimal, optionally followed by a slash and a length.", "quantifier": "For every prefix of each of the three kinds, with any length the octet can hold, and every text.", "why_tests_cant": "The texts and values are unbounded in number and the failing ones are rare: boundary lengths, runs of zero groups, digits of another family's notation.", "anchors": ["src/afi/ipv4.rs: FromStr, Display", "src/afi/ipv6.rs: FromStr, Display", "src/afi/mac.rs: FromStr, Display"]}
{"id": "C71", "title": "Network text identifies its family", "statement": "Formatting a BgpNet (also its serialised form) and parsing the text gives the same network of the same family.", "quantifier": "For every network of each of the three families.", "why_tests_cant": "The texts and values are unbounded in number and the failing ones are rare: boundary lengths, runs of zero groups, digits of another family's notation.", "anchors": ["src/afi/mod.rs: BgpNet FromStr, Display, Serialize, Deserialize"]}
{"id": "C72", "title": "MDT text round trips", "statement": "Formatting a multicast distribution tree NLRI and parsing the text gives the same NLRI.", "quantifier": "For every IPv4 and IPv6 MDT NLRI.", "why_tests_cant": "The texts and values are unbounded in number and the failing ones are rare: boundary lengths, runs of zero groups, digits of another family's notation.", "anchors": ["src/afi/mdt.rs: FromStr, Display"]}
{"id": "C73", "title": "AS numbers are displayed unambiguously", "statement": "The text of an AS number is that number; different AS numbers have different texts.", "quantifier": "For every AS number.", "why_tests_cant": "The texts and values are unbounded in number and the failing ones are rare: boundary lengths, runs of zero groups, digits of another family's notation.", "anchors": ["src/message/attributes/aspath.rs: BgpAS Display"]}
{"id": "C74", "title": "Prefix text with an invalid length is refused", "statement": "Parsing a prefix whose length is not a number, or is greater than the address length, fails, and so does parsing as a network any text that is not one.", "quantifier": "For every text.", "why_tests_cant": "The texts and values are unbounded in number and the failing ones are rare: boundary lengths, runs of zero groups, digits of another family's notation.", "anchors": ["src/afi/ipv4.rs: FromStr", "src/afi/ipv6.rs: FromStr", "src/afi/mac.rs: FromStr", "src/afi/mod.rs: BgpNet FromStr"]}
{"id": "C75", "title": "Multicast test is exact", "statement": "is_multicast on an IPv4 prefix answers true exactly when the prefix's address lies in the multicast block 224.0.0.0/4.", "quantifier": "every IPv4 address and prefix length", "why_tests_cant": "2^32 addresses; the wrong answers lie in blocks nobody samples (the reserved block above the multicast one).", "anchors": ["src/afi/ipv4.rs: is_multicast"]}
{"id": "C76", "title": "PMSI tunnel attribute", "statement": "A PMSI tunnel attribute of any RFC 6514 tunnel type the library names is decoded to exactly its flags, label and tunnel identifier, and can be sent.", "quantifier": "every flags octet, label, tunnel identifier and opaque value", "why_tests_cant": "The identifiers are addresses and opaque octet strings of any length; a wrong offset, or an IPv6 endpoint read with the IPv4 layout, gives a plausible wrong tunnel rather than a failure.", "anchors": ["src/message/attributes/pmsitunnelattr.rs"]}
{"id": "C77", "title": "Attribute sets", "statement": "An attribute set (RFC 6368) is decoded to its origin AS and, in order, the attributes it holds, each decoded as it would be on its own; malformed sets are refused.", "quantifier": "every list of inner attributes, nested to any depth, and every malformed payload", "why_tests_cant": "The sets nest without bound and their malformed forms are unlimited; tests fix the depth and the shapes.", "anchors": ["src/message/attributes/attrset.rs", "src/message/attributes/mod.rs: decode_from"]}
{"id": "C78", "title": "Attribute flags", "statement": "The flag octet of every attribute that is sent has the optional and transitive bits its RFC prescribes, no partial bit unless the value was received with one, and zero unused bits.", "quantifier": "every attribute value", "why_tests_cant": "A peer treats a wrong class as a session-ending error; the claim is about every attribute whatever its value, also those no test builds.", "anchors": ["src/message/attributes/mod.rs: BgpAttrParams", "src/message/attributes"]}
{"id": "C79", "title": "Both ends of a session agree on it", "statement": "After each end has matched its capabilities against the OPEN it received from the other, both ends agree on the width of AS numbers, on every capability in use, and, per address family and direction, on whether path identifiers are sent and expected.", "quantifier": "every pair of session parameters", "why_tests_cant": "Agreement relates two independent runs of the negotiation for every pair of capability lists; a test fixes one pair, and a disagreement shows only later as garbled routes.", "anchors": ["src/lib.rs: BgpSessionParams::match_caps, check_caps, match_addpath_caps, check_addpath_send, check_addpath_receive", "src/message/open.rs"]}
{"id": "C80", "title": "What one end sends the other end receives", "statement": "Any sequence of OPEN, UPDATE, NOTIFICATION and KEEPALIVE messages that one end encodes and frames, each from a buffer that is large enough, is split and decoded by the other end into the same messages in the same order.", "quantifier": "every sequence of sendable messages, every pair of sessions with the same family and AS width, both build modes", "why_tests_cant": "Sequences are unbounded and each message ranges over all its values; errors in framing show only for particular neighbours and lengths.", "anchors": ["src/lib.rs: prepare_message_buf, decode_message_head", "src/message/open.rs", "src/message/update/mod.rs", "src/message/notification.rs", "src/message/keepalive.rs"]}
{"id": "C81", "title": "The example client", "statement": "The BgpDumper client opens a session with any peer whose OPEN is valid, adopts the negotiated parameters, reports every UPDATE in order until a NOTIFICATION or the end of the stream, and never panics on what a peer sends.", "quantifier": "every peer: every octet stream", "why_tests_cant": "The peer is an adversary choosing an unbounded stream of octets; a test plays finitely many peers.", "anchors": ["examples/bgpdumper.rs: start_active, lifecycle, recv_message_head"]}
{"id": "C82", "title": "Error texts", "statement": "BgpNotificationMessage::error_text tells which error occurred: the text begins with the RFC name of the code, ends in the RFC name of the subcode where there is one, and different (code, subcode) pairs never have the same text.", "quantifier": "every code and subcode", "why_tests_cant": "Distinctness is about all pairs of the 65536 errors; a test compares a few texts.", "anchors": ["src/message/notification.rs: error_text"]}
{"id": "C83", "title": "Extended communities in text", "statement": "The Display text of an extended community identifies it: two communities print alike only if they are the same eight octets.", "quantifier": "every pair of extended communities", "why_tests_cant": "2^128 pairs and sixteen overlapping branches; a collision hides in a field that one branch leaves out.", "anchors": ["src/message/attributes/extcommunity.rs: Display for BgpExtCommunity"]}
{"id": "C84", "title": "Routes in text", "statement": "The Display text of a route, route distinguisher, label stack, next hop, PMSI tunnel or FlowSpec operator identifies it: two values of the same type print alike only if they are equal (labels included), so logs and keys built from the text do not confuse routes.", "quantifier": "every pair of values of each type", "why_tests_cant": "Ambiguity arises from the concatenation of variable length parts with separators that may occur inside the parts; a test would have to guess the colliding pair.", "anchors": ["src/afi/evpn.rs: Display", "src/afi/mvpn.rs: Display", "src/afi/vpls.rs: Display", "src/afi/mod.rs: Display for BgpRD, MplsLabels, Labeled, WithRd, WithPathId, BgpAddr", "src/afi/flowspec.rs: Display for FSOperValItem, FSOperMaskItem", "src/message/attributes/pmsitunnelattr.rs: Display"]}
{"id": "C85", "title": "Serialization round trip", "statement": "Any path attribute (BgpAttrItem), list of routes (BgpAddrs) or prefix (BgpNet) that is serialized with serde and deserialized from a format that hands back what it was given is the same value.", "quantifier": "every attribute (attribute sets nested to any depth), every list of routes of every family, every faithful format: human-readable or binary, structs as sequences or as maps in any field order, fields and variants by name or by number", "why_tests_cant": "serde implementations are generic over the format; a test uses one format and a few values, and the hand-written visitors of a variant fail only if that variant is present.", "anchors": ["src/afi/mod.rs: mod ser, Serialize/Deserialize for BgpNet", "src/afi/flowspec.rs: Serialize/Deserialize for BgpFlowSpec, FSOperVec", "src/message/attributes/mod.rs: BgpAttrItem"]}
{"id": "C86", "title": "FlowSpec rules can be deserialized", "statement": "A BgpFlowSpec component that is serialized with serde can be deserialized from the same format.", "quantifier": "every component of every kind and address family, every faithful format", "why_tests_cant": "That no format works is a statement about all formats and all components; a test that fails says nothing about other formats.", "anchors": ["src/afi/flowspec.rs: BgpFlowSpecVisitor, Deserialize for BgpFlowSpec"]}
{"id": "C87", "title": "Hand-written visitors accept exactly their two fields", "statement": "WithRd, Labeled and WithPathId are deserialized from exactly: a sequence of their two fields, or a map with these two names in either order. If a field is missing, the error names that field.", "quantifier": "every document, every inner type", "why_tests_cant": "Exactness is about all documents: orders, duplicates, missing and additional fields at any place.", "anchors": ["src/afi/mod.rs: WithRdVisitor, LabeledVisitor, WithPathIdVisitor"]}
{"id": "C88", "title": "Unknown fields are tolerated", "statement": "A document written by a newer version, with additional fields, is read as if the additional fields were absent.", "quantifier": "every struct, every document, every additional field at any place", "why_tests_cant": "The position and content of additional fields are arbitrary.", "anchors": ["src/afi/mod.rs: FieldVisitor of WithRdField, LabeledField, WithPathIdField", "derived Deserialize implementations"]}
{"id": "C89", "title": "Deserialized values are valid", "statement": "Whatever document is deserialized, the resulting attribute or route list, if any, is one that the rest of the crate can use: integers fit their fields, arrays have their length, community sets are ordered and without duplicates, and prefix lengths do not exceed 32 or 128 bits.", "quantifier": "every document of every shape and depth", "why_tests_cant": "Documents are an unbounded, adversarial input; a test feeds a few.", "anchors": ["src/afi/ipv4.rs: BgpAddrV4 (derived Deserialize)", "src/afi/ipv6.rs: BgpAddrV6", "src/message/attributes/mod.rs: BgpAttrItem"]}
{"id": "C90", "title": "Debug output identifies the value", "statement": "Two path attributes (attribute sets nested to any depth), route lists, next hops, UPDATE or NOTIFICATION messages print the same with {:?} only if they are the same value; route lists that compare equal print differently exactly when they differ in MPLS labels.", "quantifier": "every pair of attributes, of route lists of any family and length, of next hops, of UPDATE and NOTIFICATION messages", "why_tests_cant": "the claim is about every pair of values; a collision between two texts (a missing separator, an omitted field, two variants with one name) is found by a test only if both values happen to be sampled", "anchors": ["src/message/attributes: Debug of every attribute", "src/afi/mod.rs: Debug of BgpAddrs, BgpAddr, WithRd, Labeled, WithPathId", "src/message/update/mod.rs: BgpUpdateMessage", "src/message/notification.rs: BgpNotificationMessage"]}
{"id": "C91", "title": "Display output identifies attributes, route lists and notifications", "statement": "Two attributes print the same with {} only if they are of the same kind and hold the same value; likewise route lists and NOTIFICATION messages.", "quantifier": "every pair of attribute values, of route lists of any family and length, of notifications", "why_tests_cant": "the claim is about every pair of values across all attribute kinds, including lists of any length", "anchors": ["src/message/attributes: Display of every attribute", "src/afi/mod.rs: Display of BgpAddrs", "src/message/notification.rs: Display of BgpNotificationMessage"]}
{"id": "C92", "title": "A path attribute's payload decides the decoded value, exactly", "statement": "For every path attribute other than MP_REACH_NLRI, MP_UNREACH_NLRI, PMSI tunnel and ATTR_SET, decoding a payload succeeds with a value if and only if the payload denotes that value: the ORIGIN code, the AS numbers in order, the next hop, metric, preference, originator or aggregator fields, the clusters in order, the set of communities of each kind, the connector fields. Flags, nesting depth and build mode make no difference, and no other value or payload is accepted.", "quantifier": "all attribute types 1-10, 16, 20 and 32, all flags, session parameters, payloads of octets and values", "why_tests_cant": "An if-and-only-if over all payloads of every length and both address modes covers rejected as well as accepted inputs; a test suite sees a handful of accepted ones.", "anchors": ["src/message/attributes/mod.rs:87-158", "src/message/attributes/origin.rs", "src/message/attributes/aspath.rs", "src/message/attributes/community.rs", "src/message/attributes/aggregatoras.rs"]}
{"id": "C93", "title": "Attributes of a length the RFCs forbid are not accepted", "statement": "A path attribute whose payload has a length that its RFC does not allow is never accepted, and every allowed length is.", "quantifier": "all attribute types 1-10, 16, 20 and 32, all session parameters and payloads of octets", "why_tests_cant": "Lengths are unbounded, and which wrong lengths slip through depends on the type and on the address and AS-number width of the session.", "anchors": ["src/message/attributes/mod.rs:87-158", "src/message/attributes/med.rs", "src/message/attributes/atomicaggregate.rs", "src/message/attributes/aggregatoras.rs", "src/message/attributes/originatorid.rs"]}
{"id": "C94", "title": "A list of routes decodes exactly as its octets say, in every family", "statement": "For every address family the library knows, decoding an NLRI field succeeds with a list of routes and a number of octets used if and only if the octets denote that list: each prefix with its length and zero-filled address, each label stack ending at its bottom-of-stack or withdrawn mark, each route distinguisher, path identifier, VPLS block, MCAST-VPN, EVPN and FlowSpec route, in order. No other octets are accepted, no route is dropped or invented, and unknown families are never accepted.", "quantifier": "all pairs of AFI and SAFI, session parameters, build modes, octet strings, route lists and lengths", "why_tests_cant": "The claim is an equivalence over all octet strings and eighteen families, each with and without path identifiers; it also covers every rejected input. Tests can only sample accepted ones.", "anchors": ["src/afi/mod.rs:828-1000", "src/afi/ipv4.rs", "src/afi/ipv6.rs", "src/afi/mdt.rs", "src/afi/evpn.rs", "src/afi/mvpn.rs", "src/afi/flowspec.rs", "src/afi/vpls.rs"]}
{"id": "C95", "title": "Every path attribute decodes exactly as its payload says", "statement": "For an attribute of any type code, decoding succeeds with a value if and only if the payload denotes that value. This covers MP_REACH_NLRI (address family, next hop, SNPA blocks passed over, routes), MP_UNREACH_NLRI, PMSI tunnels, attribute sets nested to any depth whose inner attributes fill the set exactly, and unknown types, whose octets are kept as they are, besides the types of C92.", "quantifier": "all type codes, flags, announced lengths, session parameters, build modes, payloads of octets and values, any nesting depth", "why_tests_cant": "The claim is an equivalence over all payloads, with unbounded lists and unbounded nesting. Tests cannot show that nothing else is accepted.", "anchors": ["src/message/attributes/mod.rs:87-156", "src/message/attributes/multiproto.rs:67-208", "src/message/attributes/pmsitunnelattr.rs:101-186", "src/message/attributes/attrset.rs:26-63", "src/message/attributes/unknown.rs:35-46"]}
{"id": "C96", "title": "An UPDATE decodes exactly as its octets say", "statement": "Decoding an UPDATE succeeds if and only if the octets are a withdrawn-routes field with its length, an attribute area with its length that whole attributes fill exactly, and an NLRI field filling the rest, each denoting a value. The message then holds exactly those routes, and those attributes after the ones it held before.", "quantifier": "all octet strings, session parameters, build modes, messages decoded into, and results", "why_tests_cant": "The claim is an equivalence over all octet strings of any length: tests cannot show that no malformed UPDATE is accepted, nor that every well-formed one is.", "anchors": ["src/message/update/mod.rs:112-204", "src/message/attributes/mod.rs:87-156", "src/afi/mod.rs:828-1000"]}
{"id": "C97", "title": "A capability is read exactly as its octets say", "statement": "Reading one capability from a buffer succeeds if and only if the buffer starts with a code, a length and that many octets which denote the result: a capability of a known code with its fields, or, for an unknown code or a multiprotocol capability of a family without a name, the code and octets themselves. The number of octets used is the length plus two. A text field is accepted if and only if it is the UTF-8 encoding of Unicode scalar values. A host name is accepted only when the domain name beside it is empty.", "quantifier": "all octet strings and all results", "why_tests_cant": "The claim is an equivalence over all octet strings: no other octets are accepted and no accepted octets are read differently. Tests can only sample them.", "anchors": ["src/lib.rs:519-666"]}
{"id": "C98", "title": "OPEN and NOTIFICATION decode exactly as their octets say", "statement": "Decoding an OPEN body succeeds if and only if it is version 4, the AS number, hold time and router identifier, one octet which is not looked at, and optional parameters of type 2 to the end of the body filled exactly by capabilities; the message then holds exactly those values and the capabilities not passed over, in order, whatever it held before. Decoding a NOTIFICATION succeeds if and only if it has two octets, and keeps the error code, the subcode and the first one or two octets of data.", "quantifier": "all octet strings, messages decoded into, and results", "why_tests_cant": "The claim is an equivalence over all octet strings with any number of parameters and capabilities; tests cannot show that no malformed OPEN is accepted.", "anchors": ["src/message/open.rs:33-77", "src/message/notification.rs:137-150"]}
{"id": "C99", "title": "A message header is accepted exactly when it is one", "statement": "Decoding a message header gives a type and a body length if and only if the octets start with the sixteen-octet marker, a length and the code of that type, and the body length is the length less nineteen. A length below nineteen is never accepted when overflow is checked; otherwise it stands for that length plus 65536.", "quantifier": "all octet strings, build modes, types and lengths", "why_tests_cant": "The claim is an equivalence over all octet strings, so it also says that nothing else is accepted.", "anchors": ["src/lib.rs:847-863"]}
{"id": "C100", "title": "Every BMP message decodes exactly as its octets say", "statement": "Decoding a BMP message succeeds with a value if and only if the octets denote it: the message type, the per-peer header, and for each type the reason, addresses, ports, embedded OPEN, NOTIFICATION and UPDATE messages or information TLVs. On a session, an embedded UPDATE is read with the parameters remembered for its peer, and all else as without a session.", "quantifier": "all octet strings, build modes, tables of remembered peers, and results", "why_tests_cant": "The claim is an equivalence over all octet strings and covers nested messages with unbounded lists; tests cannot show that nothing else is accepted.", "anchors": ["src/bmp/mod.rs:51-79", "src/bmp/mod.rs:161-183", "src/bmp/bmputl.rs:75-91", "src/bmp/msgpeer.rs:44-74", "src/bmp/msgpeer.rs:106-152", "src/bmp/msginit.rs:22-88", "src/bmp/msgterm.rs:29-47", "src/bmp/msgrmon.rs:26-50"]}
{"id": "C101", "title": "A received UPDATE sent on is received alike", "statement": "Decoding an UPDATE from any octets and encoding the message again gives octets that, under the same session parameters, decode to the very same message, as long as it holds only attributes and routes the encoders support and it fits; that its fields are in range, that its next hops suit their families and that path identifiers are recognised again need not be assumed, they follow from having been decoded.", "quantifier": "every octet string, session parameters, build mode and output buffer", "why_tests_cant": "The input is any octet string a peer may send, with non-canonical lengths, spare octets, host bits and every family; a sample cannot show that no decoded value falls outside what the encoder writes faithfully.", "anchors": ["src/message/update/mod.rs:112-289", "src/message/attributes/mod.rs", "src/afi/mod.rs:836-1256"]}
{"id": "C102", "title": "Which routes stop the program", "statement": "For every address family, decoding a list of routes panics on exactly these octets and on no others: after routes that are read, one whose labels, route distinguisher bits, inner addresses or component values are cut or announced inconsistently, as written out per family (for plain prefixes only: a length of 249 or more in a build that checks arithmetic). Everything else a peer may send is either read or refused with an error.", "quantifier": "every octet string, address family, session parameters and build mode", "why_tests_cant": "A fuzzer finds some crashing inputs; it cannot show that the list is complete, and completeness is what a deployment that filters or isolates the decoder needs.", "anchors": ["src/afi/mod.rs:836-1256", "src/afi/ipv4.rs", "src/afi/ipv6.rs", "src/afi/vpls.rs", "src/afi/mvpn.rs", "src/afi/evpn.rs", "src/afi/flowspec.rs"]}
{"id": "C103", "title": "Which attributes and UPDATEs stop the program", "statement": "Decoding a path attribute panics on exactly these payloads: communities and large communities of a ragged length, an originator id under four octets, a multiprotocol attribute whose header, next hop, SNPAs or routes are cut as written out, a PMSI tunnel with a cut identifier, an attribute set whose attributes panic or end within a header, an unknown type shorter than announced. Decoding an UPDATE panics exactly when, after what is read, its withdrawn routes, one of its attributes or its routes panic so, or the message itself ends within the header of an attribute.", "quantifier": "every octet string, attribute type, session parameters, build mode and message decoded into", "why_tests_cant": "The claim is that no other input panics, through nested attribute sets and every family of routes; no finite sample shows that.", "anchors": ["src/message/update/mod.rs:112-204", "src/message/attributes/mod.rs:87-156", "src/message/attributes/multiproto.rs:67-226", "src/message/attributes/attrset.rs:26-63", "src/message/attributes/pmsitunnelattr.rs:100-184"]}
{"id": "C104", "title": "What is encoded depends on the value alone", "statement": "Encoding routes, an attribute, a message body, a whole message or a BMP message writes octets that are a function of the value (and session parameters): the same octets in every buffer large enough to hold them, whatever the buffer held before, with nothing else in the buffer changed; a buffer of exactly the returned length is large enough, and in a smaller one the encoding does not succeed.", "quantifier": "every value, every buffer (contents and length), session parameters and build mode", "why_tests_cant": "A leak of earlier buffer contents, or a demand for more room than the result needs, shows only for particular pairs of value, buffer contents and buffer length; the claim compares all pairs of runs.", "anchors": ["src/afi/mod.rs:1044-1256", "src/message/attributes/mod.rs:185-206", "src/message/attributes/aggregatoras.rs:56-65", "src/message/update/mod.rs:205-300", "src/message/open.rs:78-108", "src/lib.rs:393-560", "src/bmp/mod.rs:184-223"]}
{"id": "C105", "title": "Which values stop the program when they are encoded", "statement": "Given enough room, encoding ends the program with a panic for exactly these values: routes with a prefix longer than its address (in a build without overflow checks not 249 to 255 bits, which wrap around), with overflow checks also labelled or VPN routes whose labels, route distinguisher and prefix announce more than 255 bits and IPv6 MDT routes of more than 63 bits, unless an earlier FlowSpec rule is refused; the PMSI tunnel and ATTR_SET attributes, and the multiprotocol attributes carrying such routes to a next hop that can be sent; an UPDATE that reaches such routes or attributes before an error; with overflow checks a message whose length modulo 65536 leaves no room for the header; BMP statistics reports, route mirroring, and BMP messages embedding such a message. Every other value gives octets or an error.", "quantifier": "every value of the Rust types, session parameters and build mode", "why_tests_cant": "Whether a value crashes the sender depends on combinations of prefix lengths, label counts, positions in lists and total sizes; a test visits a few of them and cannot show that no other value panics.", "anchors": ["src/afi/mod.rs:211-298", "src/afi/mod.rs:481-625", "src/afi/ipv4.rs:158-167", "src/afi/mdt.rs:95-208", "src/afi/flowspec.rs:492-584", "src/message/attributes/mod.rs:157-206", "src/message/update/mod.rs:205-289", "src/lib.rs:874-910", "src/bmp/mod.rs:184-223"]}
{"id": "C106", "title": "What is received bounds what is built", "statement": "No amplification: whatever octets arrive, the routes, labels, FlowSpec conditions, attributes, list elements and kept octets in the decoded value together are at most as many as the octets decoded (for an UPDATE decoded into a reused message: plus what the message held before). The same holds for routes of every address family, single attributes (plus one), OPEN, and BMP messages.", "quantifier": "every octet string, session parameters, build mode, and every value the decoder returns", "why_tests_cant": "A decoder that re-reads octets (lengths that overlap, positions that go backwards, counters that wrap) can build far more than it received, from octets no test contains.", "anchors": ["src/afi/mod.rs:186-298", "src/afi/mod.rs:420-480", "src/afi/evpn.rs", "src/afi/mvpn.rs", "src/afi/flowspec.rs:492-584", "src/message/attributes/mod.rs:87-156", "src/message/update/mod.rs:112-204", "src/message/open.rs:51-88", "src/bmp/mod.rs:112-183"]}
{"id": "C107", "title": "How deep received attributes are nested", "statement": "The decoder, which calls itself for every attribute set inside an attribute set, does so to a depth that a peer cannot choose. (RFC 6368 gives no meaning to an attribute set inside another.)", "quantifier": "every UPDATE, session parameters and build mode", "why_tests_cant": "The depth grows with the message; a test with one or two levels passes at any stack size.", "anchors": ["src/message/attributes/attrset.rs:26-63", "src/message/attributes/mod.rs:87-156", "src/message/update/mod.rs:112-204"]}
{"id": "C108", "title": "Per-family entries built from a multiprotocol capability", "statement": "An entry for graceful restart, long-lived graceful restart or ADD-PATH built from a multiprotocol capability names the same address family as that capability (so it carries the family's registered AFI and SAFI) and carries the given flags and times; a stale time beyond 24 bits, and capabilities that name no such family, give an error and never a panic.", "quantifier": "every capability, flags, times and directions", "why_tests_cant": "A table of twenty-odd families; a wrong row only shows when the peer and the local decoder disagree about path identifiers or restart state of that one family.", "anchors": ["src/lib.rs:141-160", "src/lib.rs:162-173", "src/lib.rs:204-222", "src/lib.rs:262-275"]}
{"id": "C109", "title": "Announcements and values built with the constructors arrive as given", "statement": "The ready-made multiprotocol announcements (labelled and VPN routes with an IPv4 next hop), labelled routes built with or without labels, communities built from two halves and community lists built from vectors, when encoded into any buffer with room and decoded by the receiver, give what they were built from.", "quantifier": "every next hop, route distinguisher, route list, label stack, community and vector; every buffer with room; every session without path identifiers for the family", "why_tests_cant": "The constructors fix combinations of next hop and family; whether a receiver can take each combination depends on both ends for all values.", "anchors": ["src/message/attributes/multiproto.rs:26-66", "src/message/attributes/community.rs:156-160", "src/message/attributes/community.rs:233-237", "src/message/attributes/extcommunity.rs:183-189", "src/afi/mod.rs:509-521"]}
{"id": "C110", "title": "A buffer that is too small is an error, not a panic", "statement": "Encoding a value, which can be encoded in a large enough buffer, into a buffer that is too small for it returns an error; it never panics.", "quantifier": "every route list, path attribute, message body and sent message; every buffer shorter than needed", "why_tests_cant": "There is a failing buffer length for each position at which an encoder writes; which of them are checked depends on the value and on the length together.", "anchors": ["src/afi/mod.rs:211-219", "src/message/attributes/mod.rs:185-290", "src/message/attributes/multiproto.rs:171-245", "src/message/open.rs:78-108", "src/message/update/mod.rs:205-289", "src/message/notification.rs:151-160", "examples/bgpdumper.rs:39-48"]}
{"id": "C111", "title": "A failed decode leaves the message object as it was", "statement": "When decode_from on an OPEN, UPDATE or NOTIFICATION object returns an error, the object is what it was before the call, so a caller may use it again or for the next message.", "quantifier": "every object, session and octets", "why_tests_cant": "The assignments to the object are spread over the decoder; which of them precede the failing step depends on the octets, and what stays behind shows only in a later message.", "anchors": ["src/message/open.rs:33-77", "src/message/update/mod.rs:112-204", "src/message/notification.rs:137-150"]}
{"id": "C112", "title": "The prefixes a prefix covers form one run of the order", "statement": "For prefixes without host bits, p.contains(q) holds exactly when p <= q and q <= the prefix of full length at p's last address; so a BTreeMap or BTreeSet of prefixes can be searched for more-specific routes with one range query.", "quantifier": "all pairs of prefixes without host bits: IPv4, IPv6, MAC, BgpNet", "why_tests_cant": "Derived Ord, contains and range_last are written independently; their agreement is a statement about all pairs of prefixes.", "anchors": ["src/afi/ipv4.rs:21-26,94-126", "src/afi/ipv6.rs:20-25,55-135", "src/afi/mac.rs:16-22,113-119,163-200", "src/afi/mod.rs:65-98"]}
{"id": "C113", "title": "Routes are sorted by the values of their fields", "statement": "Ord on prefixes, routes and NLRI lists is the dictionary order of their fields: route type or family first; address, then length, then RD, then path identifier for prefixes; labels do not count; a list comes before its continuations.", "quantifier": "all pairs of values of every route type and of BgpAddrs", "why_tests_cant": "The order is produced by nested derives and hand-written comparisons over 31 variants; tests compare single pairs.", "anchors": ["src/afi/mod.rs:65-73,159-194,419-440,523-543,574-605,654-691", "src/afi/evpn.rs:52-477", "src/afi/mvpn.rs:17-322", "src/afi/flowspec.rs:123-132,298-306,405-420", "src/afi/vpls.rs:16-73"]}
{"id": "C114", "title": "A message too long for BGP is refused, not sent cut", "statement": "Encoding a message and preparing it for sending (prepare_message_buf, send_message_buf) either puts the whole message on the wire or returns an error; a message whose length the header cannot express is never sent as a shorter one.", "quantifier": "every well-formed message, of any length, every buffer large enough, both build modes", "why_tests_cant": "It takes messages of more than 65516 octets; which octets are dropped depends on the length modulo 65536.", "anchors": ["src/lib.rs:874-910", "src/message/update/mod.rs:206-290", "examples/bgpdumper.rs:36-48"]}
{"id": "C115", "title": "A message cut short is refused as too short", "statement": "Given only the first octets of an encoded message, the decoder of OPEN, UPDATE, NOTIFICATION, the message headers and the BMP messages returns BgpError::InsufficientBufferSize; it neither accepts the fragment as a smaller message nor reports another kind of error.", "quantifier": "every well-formed message, every cut point, every session", "why_tests_cant": "The outcome depends on where the cut falls relative to parameters, attributes, routes and TLVs; tests try a few lengths of one message.", "anchors": ["src/message/open.rs:33-77", "src/message/update/mod.rs:112-204", "src/message/notification.rs:137-150", "src/lib.rs:847-863", "src/afi/mod.rs:830-870", "src/bmp/msginit.rs:22-88", "src/bmp/msgterm.rs:29-47"]}
{"id": "C116", "title": "The kind of an error says what is wrong", "statement": "BgpError::ProtocolError is returned exactly for UPDATE messages whose attributes overrun the room announced for them (directly or inside a BMP Route Monitoring) and never by an encoder; BgpError::TooManyData is returned only by encoders, exactly for data whose length does not fit its length field; BgpError::InsufficientBufferSize is returned only if more octets (for a decoder) or a larger buffer (for an encoder) would help; every other refusal carries a message text.", "quantifier": "every input, every message value, every buffer, every session, every sequence of attributes and routes", "why_tests_cant": "Error kinds are produced by dozens of leaf functions and propagated through nested decoders; which kinds can come out of a message decoder is a property of all paths. Tests assert is_err() for single inputs.", "anchors": ["src/error.rs:14-66", "src/message/update/mod.rs:112-204", "src/message/update/mod.rs:205-380", "src/afi/evpn.rs:540-560", "src/afi/mod.rs:830-870", "src/message/open.rs:33-130", "src/bmp/mod.rs:60-150", "src/util.rs:20-130"]}
{"id": "C117", "title": "Which texts are read as prefixes, networks and MDT routes", "statement": "FromStr of BgpAddrV4, BgpAddrV6, BgpAddrMac, BgpNet and the MDT routes returns a value exactly for the texts of that notation and that value: for IPv6 the eight groups of RFC 4291 2.2, with :: for one or more groups of zeros and an IPv4 address in place of the last two; a network is an IPv4 prefix, or else an IPv6 prefix, or else a MAC prefix. Every other text, like every text for route distinguishers and communities, is answered with an error message and never with a panic.", "quantifier": "every text (list of code points), every value", "why_tests_cant": "The accepted language is infinite and its edge cases (where :: may stand, how many groups may remain, mixed notations, which family wins) are combinatorial; tests parse a handful of well-formed literals.", "anchors": ["src/afi/ipv4.rs:169-186", "src/afi/ipv6.rs:178-195", "src/afi/mac.rs:94-111", "src/afi/mac.rs:202-219", "src/afi/mod.rs:101-113", "src/afi/mod.rs:339-356", "src/afi/mdt.rs:47-60", "src/afi/mdt.rs:148-161", "src/message/attributes/community.rs:200-224"]}
{"id": "C118", "title": "Equality, order and hash of path attributes", "statement": "For BgpAttrItem (and BgpAddr), Eq is an equivalence that ignores label stacks (and, for AS paths, in which half a 16-bit AS number is stored), Ord is a total order by kind in declaration order and then by fields, consistent with Eq; equal attributes hash alike; partial_cmp agrees with cmp. This holds also for attributes nested in ATTR_SET at any depth.", "quantifier": "all pairs and triples of attributes, including attribute sets nested arbitrarily deep", "why_tests_cant": "Transitivity, antisymmetry and hash consistency quantify over all pairs and triples of values of eighteen kinds with unbounded nesting; tests compare a few literals, and violations only surface as lost or duplicated entries of sorted or hashed collections.", "anchors": ["src/message/attributes/mod.rs:62-84", "src/afi/mod.rs:49-61", "src/message/attributes/aspath.rs:51-71", "src/message/attributes/attrset.rs:16-24", "src/message/attributes/pmsitunnelattr.rs:80-88", "src/afi/mod.rs:419-440"]}
{"id": "C119", "title": "Equality, order and hash of capabilities and OPEN messages", "statement": "For BgpCapability and BgpOpenMessage, Eq is sameness of all fields, Ord is a total order (by kind in declaration order, then by the fields in order, strings octet by octet) consistent with Eq, equal values hash alike, and partial_cmp agrees with cmp. The equality used by capability negotiation is this one.", "quantifier": "all pairs and triples of capabilities and OPEN messages", "why_tests_cant": "Order laws quantify over all pairs and triples of values with unbounded lists and strings; tests compare a few literals.", "anchors": ["src/lib.rs:134-139", "src/lib.rs:198-204", "src/lib.rs:249-255", "src/lib.rs:301-357", "src/message/open.rs:12-22"]}
{"id": "C120", "title": "The Debug text of OPEN messages, session parameters and BMP messages identifies the value", "statement": "Two capabilities, OPEN messages, session parameters, BMP messages, peer headers, session keys, BMP headers or message types printed with {:?} give the same text exactly if they are the same value, whatever strings they carry (host names, system names, free text with quotes, backslashes, control characters or any other Unicode) and whichever characters beyond ASCII Rust prints unescaped. A quoted string ends where its text says, whatever follows it.", "quantifier": "all pairs of values (strings of any length, any tables of printable characters)", "why_tests_cant": "Collisions between texts quantify over pairs of values with unbounded strings and lists; a test prints a few literals and cannot show that no other value prints the same.", "anchors": ["src/lib.rs:134-139", "src/lib.rs:198-204", "src/lib.rs:249-255", "src/lib.rs:301-357", "src/lib.rs:670-686", "src/message/open.rs:12-22", "src/message/mod.rs:29-35", "src/bmp/bmputl.rs:56-72", "src/bmp/msginit.rs:56-64", "src/bmp/msgterm.rs:14-20", "src/bmp/msgpeer.rs:18-41", "src/bmp/msgrmon.rs:17-23", "src/bmp/mod.rs:27-31", "src/bmp/mod.rs:114-132"]}
{"id": "C121", "title": "Debug texts stay on one line", "statement": "Whatever a peer or a monitored router sends, the {:?} text of an attribute, route list, UPDATE, OPEN, session parameters or BMP message contains no line break and no other ASCII control character: strings received from outside cannot forge log lines.", "quantifier": "all values, including strings of any octets", "why_tests_cant": "It is a statement about every character of the text of every value; a fuzzer can only sample strings.", "anchors": ["src/lib.rs:301-357", "src/message/open.rs:12-22", "src/message/attributes/mod.rs:62-84", "src/message/update/mod.rs:15-23", "src/bmp/msginit.rs:56-64", "src/bmp/msgterm.rs:14-20", "src/bmp/mod.rs:114-123"]}
{"id": "C122", "title": "prefixlen() is the length that goes over the wire", "statement": "For every route type (IPv4 and IPv6 prefixes, MPLS-labelled and VPN routes, MDT routes) the number given by prefixlen() is the length octet the encoder writes in front of the route and tells how many octets it occupies, (bits+7)/8; a decoded route reports the length octet it was read with.", "quantifier": "every route with valid prefix lengths, any number of labels, any buffer; every length octet and input", "why_tests_cant": "prefixlen and the encoder compute the length separately for each nesting of labels, distinguishers and prefixes; agreement on sampled routes does not rule out a nesting or a length for which they differ.", "anchors": ["src/afi/ipv4.rs:186-197", "src/afi/ipv6.rs:195-206", "src/afi/mdt.rs:62-110", "src/afi/mdt.rs:160-211", "src/afi/mod.rs:440-497", "src/afi/mod.rs:541-563", "src/afi/mod.rs:604-628"]}
{"id": "C123", "title": "IPv6 multicast test is exact", "statement": "is_multicast on an IPv6 prefix answers true exactly when the prefix's address lies in ff00::/8.", "quantifier": "every IPv6 address and prefix length", "why_tests_cant": "2^128 addresses.", "anchors": ["src/afi/ipv6.rs:136-139"]}
{"id": "C124", "title": "util::slice returns the part asked for or an error", "statement": "slice(buf, start, end) returns exactly the elements at positions start..end when start <= end <= len and InsufficientBufferSize otherwise; no bounds make it panic.", "quantifier": "every buffer, start and end", "why_tests_cant": "Unbounded buffers and bounds.", "anchors": ["src/util.rs:110-125"]}
{"id": "C125", "title": "What arrives is in range, and can be logged and stored without loss", "statement": "Every route list, path attribute, UPDATE and BMP message decoded from any octets holds only values its types and invariants allow: integers in range, sets in order without duplicates, UTF-8 strings, and prefixes no longer than their address family. Hence two received UPDATEs or BMP messages print the same {:?} text exactly if they are the same, and every received attribute or route list comes back from serde unchanged.", "quantifier": "all octet strings, sessions and build modes", "why_tests_cant": "It quantifies over everything a peer can send; a violated invariant would show only later, when such a value is compared, printed, stored or sent on.", "anchors": ["src/message/update/mod.rs:112-210", "src/message/attributes/mod.rs:87-170", "src/afi/mod.rs:196-300", "src/bmp/mod.rs:51-100", "src/bmp/mod.rs:161-200"]}
{"id": "C126", "title": "Lists of routes can be put together and taken apart", "statement": "If the octets of a route list decode to their end, then any octets behind them decode exactly as they do alone: the result is both lists of routes in order, or the same error. Encoding a list is encoding its first part and then the rest behind it. So announcing or withdrawing routes in one UPDATE is the same as in several.", "quantifier": "all address families, sessions, octets, buffers, route lists and build modes", "why_tests_cant": "It relates every pair of inputs to their concatenation; a decoder that carries state over, or steps too far, shows only with the right neighbour.", "anchors": ["src/afi/mod.rs:201-298", "src/afi/mod.rs:828-1072", "src/message/update/mod.rs:108-260"]}
{"id": "C127", "title": "The order of the attributes of an UPDATE does not matter", "statement": "If the attributes of an UPDATE arrive in another order, it decodes to the same routes and the same attributes in that order. If no attribute occurs twice, every getter returns the same.", "quantifier": "all attributes, known or not, all orders of them, sessions, routes and build modes", "why_tests_cant": "There are as many orders as permutations; RFC 4271 asks receivers to accept any, and a decoder that lets one attribute influence the next would depend on it.", "anchors": ["src/message/update/mod.rs:34-104", "src/message/update/mod.rs:144-177"]}
{"id": "C128", "title": "A larger buffer does not change what is encoded", "statement": "If a value can be encoded into a buffer, then it is encoded into every longer buffer which begins alike: the same length is returned, the same octets are written, and what is behind the shorter buffer's end is left alone. This holds for values the library encodes wrongly as well. A BMP message erases what is behind it if it carries an IPv4 address in a BMP address field; else it leaves it alone.", "quantifier": "all routes, attributes, messages, BMP messages, sessions, buffers, contents and lengths of what follows, both build modes", "why_tests_cant": "A test has one buffer; that no length test, slice or fill anywhere depends on the room left needs all of them.", "anchors": ["src/message/update/mod.rs:205-289", "src/message/attributes/mod.rs:157-206", "src/afi/mod.rs:1038-1072", "src/lib.rs:393-518", "src/bmp/bmputl.rs:37-53", "src/bmp/mod.rs:184-223"]}
{"id": "C129", "title": "What of a session has an influence on messages", "statement": "Two sessions read all UPDATE messages alike exactly if they have the same transport, the same size of AS numbers, expect path identifiers in the same address families, and agree on guessing them in the others. They write all UPDATE messages alike exactly if they have the same transport and size of AS numbers. AS number, hold time, router id and all other capabilities have no influence; path identifiers are written whether or not ADD-PATH was agreed.", "quantifier": "all pairs of sessions, all octets, streams, messages and buffers, both build modes", "why_tests_cant": "Independence from a parameter is a statement about all pairs of its values; the converse needs a witness for every difference.", "anchors": ["src/lib.rs:669-686", "src/lib.rs:785-808", "src/afi/mod.rs:828-1037", "src/message/update/mod.rs:112-289", "src/message/attributes/mod.rs:87-206"]}
{"id": "C130", "title": "A BMP stream is received as it was sent", "statement": "A station which cuts the stream of a router by the common header and decodes each message in a BMPSession receives, for every conversation, the messages the router sent, in order, however many peers there are and however their going up and down is interleaved, provided every UPDATE is written as the peer's last OPEN says (or as the default session does if the peer is not up). An incomplete message at the end is left for later; it does not matter in which parts the stream arrives; and a message which cannot be decoded costs that message and nothing else.", "quantifier": "all conversations of any length, all peers, both build modes; all octet strings and all ways to cut them (C130_parts)", "why_tests_cant": "The state after a conversation depends on the whole history; a test has a few peers in one order.", "anchors": ["src/bmp/mod.rs:46-111", "src/bmp/mod.rs:135-183", "src/bmp/msgpeer.rs:44-152", "src/bmp/bmputl.rs:75-91"]}
{"id": "C131", "title": "Peers of a BMP session do not influence each other", "statement": "How the routes of a peer are read depends on the last message that says this peer is up or down and on nothing else that was received. A peer is what RFC 7854 says it is: type, distinguisher and address; and what the flags of the per-peer header say about the UPDATE is honoured.", "quantifier": "all histories of octet strings, all peers, all messages, both build modes", "why_tests_cant": "Non-interference is a statement about all pairs of histories.", "anchors": ["src/bmp/mod.rs:27-111", "src/bmp/bmputl.rs:56-91", "src/bmp/bmputl.rs:184-195", "src/bmp/msgrmon.rs:26-50"]}
{"id": "C132", "title": "The example client keeps its session up", "statement": "The thread the example client starts after the OPENs have been exchanged sends KEEPALIVE messages often enough that the peer's hold timer, which runs for the smaller of the two hold times proposed, never expires; never two within a second; and none when the hold time is 0. The program opens a session to every AS number it is given.", "quantifier": "all session parameters and OPENs, all hold times, all AS numbers, all points in time, both build modes", "why_tests_cant": "A test runs against a peer with one hold time for a few seconds; a hold timer that expires after minutes, for some pairs of hold times only, is not seen.", "anchors": ["examples/bgpdumper.rs:36-64", "examples/bgpdumper.rs:65-86", "examples/bgpdumper.rs:161-187"]}
{"id": "C133", "title": "What errors say", "statement": "The text of an error is what the error says, verbatim after `BgpError `, and Debug tells any two errors apart and stays on one line. An unknown address family is refused whatever the octets, alike in announcements and withdrawals, and the text of the error says which family it was.", "quantifier": "all errors, all AFI and SAFI codes, all octets, both build modes", "why_tests_cant": "Injectivity of texts is a statement about all pairs; 2^24 families with arbitrary octets.", "anchors": ["src/error.rs:16-92", "src/afi/mod.rs:828-1043", "src/message/attributes/multiproto.rs:67-148"]}
{"id": "C134", "title": "End-of-RIB markers", "statement": "An End-of-RIB marker (RFC 4724) of every address family the library knows is read, whatever the attribute flags and the form of the length, as an UPDATE without routes whose only attribute withdraws nothing of that family, and the family can be told from the empty list; the marker of the session's own plain routes is an UPDATE without anything. Nothing but a marker is read as one. An UPDATE built that way is sent as exactly the octets of the marker; the marker of an unknown family is refused.", "quantifier": "all families, flags, sessions and octet strings, both build modes", "why_tests_cant": "That no other octets are taken for a marker is a statement about all messages; families x flags x session parameters are too many to list.", "anchors": ["src/message/update/mod.rs:112-289", "src/message/attributes/multiproto.rs:203-237", "src/afi/mod.rs:271-284", "src/afi/mod.rs:721-755", "src/afi/mod.rs:828-1043"]}
{"id": "C135", "title": "Debug and release builds give the same answers", "statement": "A build with overflow checks and one without give the same answer - the same value with the same octets consumed or written, or the same kind of error - to every call: prefix operations, lists of routes, path attributes, messages, UPDATE decoded into a used object (with what is left in it), the OPEN exchange, reading messages off a stream, BMP messages and sessions; unless the checked build stops with a panic. The example client has done the same until then.", "quantifier": "all arguments, session parameters, octet strings, streams and BMP sessions", "why_tests_cant": "Tests run in one build; the statement compares two on every input, and the builds part only on inputs whose arithmetic leaves its range.", "anchors": ["src/util.rs:1-124", "src/afi/ipv4.rs:21-283", "src/afi/mod.rs:828-1043", "src/message/update/mod.rs:112-289", "src/lib.rs:847-906", "src/bmp/mod.rs:51-111", "examples/bgpdumper.rs:31-134"]}
{"id": "C136", "title": "Routes are the same wherever an UPDATE carries them", "statement": "Octets that describe routes of the session's own family are accepted in the withdrawn routes, behind the attributes, in MP_REACH_NLRI and in MP_UNREACH_NLRI alike, as the same list, with nothing appearing elsewhere; a list of that family is sent as the same octets from each of these places.", "quantifier": "all sessions, octet strings, lists, attribute flags, next hops and pairs of places, both build modes", "why_tests_cant": "Four code paths must agree on every octet string, including path identifiers that are negotiated or guessed.", "anchors": ["src/message/update/mod.rs:112-289", "src/message/attributes/multiproto.rs:60-237", "src/afi/mod.rs:828-1043"]}
{"id": "C137", "title": "A flow specification rule of several components is reported whole or refused", "statement": "A received flow specification whose rule has several components (RFC 8955: all must match) is either reported with all of them or refused; a rule of one component is reported as that component whatever follows it.", "quantifier": "all rules of any number and kind of components up to 4095 octets, all octets behind the rule, IPv4 and IPv6, both build modes", "why_tests_cant": "The outcome depends on the octets of the later components, which are read as prefix tail, as operators or as a new rule; a test with one pair of components says nothing about the others.", "anchors": ["src/afi/flowspec.rs:427-491", "src/afi/flowspec.rs:266-275", "src/afi/flowspec.rs:198-229"]}
{"id": "C138", "title": "The next hop of a multiprotocol announcement is the one that was sent", "statement": "For every family, the next hop of a received MP_REACH_NLRI, in each form the RFCs allow for the family (an IPv4 address, an IPv6 address with or without a link-local address, either behind a route distinguisher, none for flow specifications), is reported as sent, with the routes behind it; a form that is not supported is refused; the reserved octet behind the next hop is ignored (RFC 4760).", "quantifier": "all families, forms, addresses, route distinguishers, octets of routes, sessions, both build modes", "why_tests_cant": "Whether the routes and the address are taken from the right octets depends on the form of the next hop and on the values of its octets; tests cover the common form of a few families.", "anchors": ["src/message/attributes/multiproto.rs:67-148", "src/afi/ipv4.rs:224-245", "src/afi/ipv6.rs:230-251"]}
{"id": "C139", "title": "The grouping of capabilities in OPEN does not matter", "statement": "The capabilities of a received OPEN are the same, in the same order, however the peer spread them over optional parameters (RFC 5492: one parameter with all of them, one for each, or anything between), and each is read as if it came alone; an OPEN with a parameter of another type is refused; parameters in the extended form of RFC 9072 are read too; octets that are no parameter are noticed.", "quantifier": "all lists of groups of capabilities (known, unknown and malformed ones) with fewer than 256 octets in each group, all AS numbers, hold times, router ids, length octets, previous contents of the object", "why_tests_cant": "The ways to group capabilities and the capabilities themselves are unbounded in number; a test has the one grouping its author recorded.", "anchors": ["src/message/open.rs:33-77", "src/lib.rs:520-675"]}
{"id": "C140", "title": "Missing and repeated attributes of an UPDATE", "statement": "The attributes of an UPDATE are read independently of each other; an UPDATE with routes that lacks a mandatory attribute, or has MP_REACH_NLRI or MP_UNREACH_NLRI twice, is refused, of other repeated attributes only the first is kept (RFC 4271 6.3, RFC 7606 3), and a getter says None exactly when no attribute of its type was received.", "quantifier": "all lists of attributes (flags, types and payloads), all routes, sessions and both build modes", "why_tests_cant": "Which attributes are missing or repeated, where, and with which other attributes in between is unbounded; tests have complete messages without repetition.", "anchors": ["src/message/update/mod.rs:34-104", "src/message/update/mod.rs:144-177"]}
{"id": "C141", "title": "The flags of received attributes", "statement": "Whether the length of a received attribute takes one octet or two does not change its meaning; flags that contradict the type of a known attribute are an error, the partial bit is kept, an unknown well-known attribute is an error, an unknown optional non-transitive one is ignored and an unknown transitive one is kept (RFC 4271 4.3, 6.3 and 9).", "quantifier": "all attributes, all flags, payloads, other attributes, routes, sessions and both build modes", "why_tests_cant": "There are 256 flag octets for every attribute type, two forms of the length and any number of attributes around; tests use the flags that real routers send.", "anchors": ["src/message/update/mod.rs:152-177", "src/message/attributes/mod.rs:87-158", "src/message/attributes/unknown.rs"]}
{"id": "C142", "title": "Which OPENs are acceptable", "statement": "A received OPEN is refused if its version is not 4, its hold time is one or two seconds, its router id is zero (RFC 4271 6.2) or its AS number is zero (RFC 7607); a four-octet AS number (RFC 6793) is the AS number of the session made from it, and one that contradicts the two-octet field is an error.", "quantifier": "all versions, AS numbers, hold times, router ids, lists of groups of capabilities, previous contents of the object", "why_tests_cant": "Refusals must hold for these values with any capabilities around them; tests hold valid messages of real routers.", "anchors": ["src/message/open.rs:33-77", "src/lib.rs:716-731", "src/lib.rs:912-926"]}
{"id": "C143", "title": "Padding bits of a received prefix are irrelevant", "statement": "Two encodings of an IPv4 or IPv6 prefix that differ only in the bits behind the prefix length are received as the same prefix (RFC 4271 4.3: the value of the trailing bits is irrelevant): equal values, with the same member addresses.", "quantifier": "all prefix lengths, all octets, both build modes, all sessions without path identifiers for the family", "why_tests_cant": "The values of the padding bits are rarely other than zero in recorded traffic, and there are many lengths and values.", "anchors": ["src/afi/ipv4.rs:131-157", "src/afi/ipv6.rs:140-166", "src/afi/ipv4.rs:59-70", "src/afi/ipv6.rs:78-87"]}
{"id": "C144", "title": "The label of a route does not identify it", "statement": "A labelled or VPN route received with another label in its one label entry is the same route: accepted alike, equal, and with the same hash, so that a withdrawal (RFC 8277 2.4: any value in the field, to be ignored) matches the announcement; the bottom-of-stack bit is ignored on receipt (RFC 8277 2.2).", "quantifier": "all six label-bearing families, all lengths, all octets of both entries, all octets behind (further routes included), both build modes, all sessions, with and without path identifiers for the family", "why_tests_cant": "The statement is about all pairs of label fields and all routes behind; recorded traffic holds well-formed entries with the bottom bit.", "anchors": ["src/afi/mod.rs:456-494", "src/afi/mod.rs:501-560"]}
