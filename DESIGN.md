# Design

A formal model, in Rocq (Coq 8.16.1), of the `zettabgp` crate (/repo/src), and proofs of the
properties listed in `properties.jsonl`. `MANIFEST.json` maps each property to its theorems.

## Layout

| files | content |
| --- | --- |
| `Base.v`, `BaseFacts.v` | result type, byte strings, slices, machine integers; their lemmas |
| `M_*.v` | the model, definition by definition, each with the file and lines it transcribes; no proofs |
| `S_*.v` | specifications, written from the RFCs and the API's documentation, not from the model's helpers |
| `F_*.v` | proofs |
| `P_*.v` | the property theorems only: each closed by `exact`, `Print Assumptions` beneath it, and Examples showing concrete values that meet the hypotheses |

The specifications use the *data types* of the model (a message, a prefix, an attribute) but not its
functions; wire forms are given as plain concatenations of octet lists (`S_Wire.be_bytes` and friends).

## Conventions of the model

* A byte is an `N`; well-formed byte strings are `Forall (fun b => b < 256)`. Integers of the Rust code are
  `N` with range predicates; lengths, indices and fuel are `nat`.
* `res A := Ok a | Err e | Panic | OutOfFuel`. `Err` is Rust's `Err(BgpError)`; the message strings are
  dropped, only the variant is kept (`EInsufficient`, `EProtocol`, `ETooMany`, `EOther`). `Panic` is
  any Rust panic (index or slice out of range, `copy_from_slice` length mismatch, arithmetic overflow with
  overflow checks on, `unimplemented!()`). `OutOfFuel` is an artefact of fuelled loops and is proved
  unreachable (C54).
* `oc : bool` is the build mode: `true` = overflow checks on (debug profile), `false` = wrapping (release
  profile). Theorems that quantify over `oc` hold for both.
* Encoders (`fn(.., buf: &mut [u8]) -> Result<..>`) are `Enc A := list N -> res (A * list N)`: they return
  the new contents of the buffer. The contents after an `Err` or a panic are not tracked.
* A function taking `&mut self` returns the new value.
* `usize` arithmetic is assumed not to overflow (buffers are far shorter than 2^63).
* Loops `while curpos < buf.len()` become recursion on fuel `S (length buf)`.

## Trusted base

* Coq's kernel, including the `vm_compute` machine.
* The transcription of the Rust code into Gallina. The code is not run here; every model definition cites the
  file and lines it was read from.
* `Print Assumptions`: it stands under every property theorem in `P_*.v` and prints "Closed under the global
  context" for **all** of them. No axiom, not even of the standard library, is used.
* `coqchk -o` lists `Coq.ssr.ssrunder.*` among the axioms of the *loaded libraries*; that module belongs to
  Coq's ssreflect and is not used by any theorem here.

## What is modelled

| source | model |
| --- | --- |
| `util.rs` | `M_Util`: all functions |
| `afi/ipv4.rs`, `afi/ipv6.rs`, `afi/mac.rs` | `M_Prefix` (membership, ranges, containment), `M_Nlri` (binary form), `M_Text` (`FromStr`, `Display`) |
| `afi/mod.rs` | `M_Nlri` (path ids, labels, route distinguishers, generic list codecs), `M_Vpls` (other list codecs), `M_Addrs` (`BgpAddrs` dispatch), `M_Order`, `M_Traits` (equality, order, hash), `M_Text`, `M_Text2` (text of `BgpNet`, RD, MAC, labels, `Labeled`, `WithRd`, `WithPathId`, next hops) |
| `afi/vpls.rs`, `afi/mdt.rs` | `M_Vpls`, `M_Text` (MDT text), `M_Text2` (VPLS text) |
| `afi/mvpn.rs`, `afi/evpn.rs`, `afi/flowspec.rs` | `M_Mvpn`, `M_Evpn`, `M_Flowspec`; `M_Text2` (text of MVPN and EVPN routes and FlowSpec operators) |
| `lib.rs` | `M_Cap` (capabilities), `M_Session` (`BgpSessionParams`, header, negotiation) |
| `message/mod.rs`, `open.rs`, `notification.rs`, `keepalive.rs` | `M_Session`, `M_Open`, `M_Peer`, `M_State` (with the object decoded into), `M_Text2` (`error_text`) |
| `message/update/mod.rs`, `message/attributes/*.rs` | `M_Update`, `M_Attr`; text of communities and AS numbers in `M_Text`, of extended communities and PMSI tunnels in `M_Text2` |
| `bmp/*.rs` | `M_Bmp` |
| `Serialize`, `Deserialize` (hand-written: `afi/mod.rs`, `afi/flowspec.rs`; derived: all types below `BgpAttrItem`) | `M_Serde` |
| `Debug` (derived and hand-written) of attributes, routes, next hops, UPDATE, NOTIFICATION; `Display` of attributes, route lists, NOTIFICATION | `M_Debug` |
| `Debug` (derived) of capabilities, OPEN, session parameters, message types, BMP messages, headers and session keys; of strings | `M_Debug2` |
| `error.rs`, error texts for unknown families (`afi/mod.rs`, `multiproto.rs`) | `M_Error` |
| `examples/bgpdumper.rs` | `M_Session.recv_loop` (receive loop alone), `M_Peer` (`start_active`, `lifecycle`), `M_Client` (keepalive thread, parameters of `main`; not `new`, `close` and the parsing of the arguments) |

## What is not modelled, and simplifications

* serde: `Serialize`/`Deserialize` of everything reachable from `BgpAttrItem`, `BgpAddrs` and `BgpNet` is modelled (`M_Serde`). A format is
  abstracted by what it is told (`sval`) and what it answers (`doc`); `presents` says that it is faithful. The code generated by
  serde_derive and serde's implementations for standard types are modelled after serde 1.0. A format is taken to refuse trailing elements;
  the kinds of errors are coarse (`InvalidType` covers type, value and variant errors). Not modelled: types outside those (messages, BMP).
* `Debug` is modelled as printed by `{:?}` (not the indented `{:#?}`), with the standard library's table of printable characters beyond
  ASCII as a parameter; log output and the texts handed to `BgpError` by the decoders, other than those for unknown families, are not
  modelled (an error is its kind elsewhere).
* Constructors that only fill fields.
* OPEN: the packed struct overlaid on the buffer (open.rs:24-30) is modelled for little-endian hosts.
* The contents of `self` after an `Err` are tracked in `M_State` only (OPEN, UPDATE, NOTIFICATION); those of the output buffer are not.
* Recursion depth: `attrset.rs` calls the attribute decoder recursively; the model bounds the nesting by the
  payload length (it shrinks at every level). Stack exhaustion cannot be exhibited.
* `BTreeSet` and `BTreeMap` are strictly ascending lists; `HashMap`/`Hasher`: a hash is the sequence of numbers fed
  to the hasher.
* The standard library's `FromStr`/`Display` of integers and addresses, `trim`, `split` and `to_digit` are modelled
  after its sources (`M_Text`, first section), being part of what the text properties talk about.
* Many types carry `#[cfg(feature = "serialization")]` in the middle of their attribute lists, so that without that
  feature (it is on by default) they do not exist; the model is of the crate built with the feature.

## Findings

Properties that turned out false of the code are kept as stated, with status `partial`; a theorem named
`..._refuted` shows the failure (for all inputs of the failing kind wherever possible, not for one witness) and the
others prove what remains true. The most consequential:

1. UPDATE decoding panics on every message cut inside an attribute header, and the decoders of attribute types 8, 9, 14,
   15, 22, 32 and 128 panic on short or ragged payloads (C37); truncated label stacks panic (C56); BMP decoding panics on
   truncated embedded messages and on an empty buffer (C53); a header length below 19 panics or yields a huge
   body length (C29).
2. AS_PATH is wrong in every two-octet session: the segment header is read as an AS number and AS numbers above 65535
   are truncated instead of replaced by AS_TRANS; several segments are merged with their headers read as AS numbers (C43).
3. AGGREGATOR is announced with a payload that is never written (C44).
4. `BgpAS`: equality is numeric up to the "high half" form, ordering and hash are not (C45); `Display` is ambiguous (C73).
5. IPv6 prefix membership excludes the last address of every prefix and fails for length 0 (C03).
6. VPLS lists, MVPN routes of types 3-7, most EVPN type 5 routes, FlowSpec rules with prefixes and FQDN
   capabilities are encoded into something the decoder does not accept (C17, C18, C20, C21, C22).
7. IPv4 multicast and IPv4 labeled unicast are announced under each other's SAFI (C24).
8. ADD-PATH negotiation ignores the local announcement (C26) and, with `fuzzy_pathid` (the default), the bytes of the message
   override the negotiation (C48).
9. Decoding an UPDATE into a used message object keeps the old attributes (C38).
10. BMP: an IPv4 address zeroes the rest of the buffer, IPv6 peers in ::/96 come back as IPv4 (C60, C49); all Initiation
    TLVs are sent as type 0 (C50); Statistics and Route Mirroring messages cannot be encoded (C67); Route Monitoring uses the
    parameters of one OPEN only (C68).
11. Text: type 1 route distinguishers are printed in a form the parser always rejects (C59); any text with a hexadecimal digit is a
    MAC address; an invalid prefix length silently becomes the host length (C74).
12. `partial_cmp` of label stacks answers `None` while `cmp` answers `Equal` (C66).
13. The example client takes the peer's capabilities for the negotiated ones, so that AS width and ADD-PATH directions can disagree with the
    peer, and panics on an OPEN of more than 4115 octets (C81).
14. Text: MVPN routes with several IPv6 addresses print ambiguously (C84); three kinds of extended communities leave out octets (C83);
    Cease subcodes are not named (C82).
15. serde: FlowSpec rules are never deserialized in any format (C86), `WithPathId` reports missing fields under the wrong names (C87), prefix
    lengths are not validated, and using such a prefix panics (C89).

## Properties: what is proved, and how

### C01 Network-order integers and IP addresses survive the buffer — proved

*Claim.* Storing any u16/u32/u64 or IPv4/IPv6 address into a buffer that is large enough writes exactly its big-endian bytes at the start, leaves every later byte untouched and reports the number of bytes written; reading those bytes back returns the original value. Address codecs answer Err (never panic) on a buffer that is too short.

*Model and method.* M_Util. Spec: big-endian digit lists (`be_bytes`). Writers characterised exactly (bytes, frame, count), readers inverse. Induction-free arithmetic plus finite byte sweep. (P_Util.v)

*Outcome.* Proved in full.

*Theorems.* `C01_u16`, `C01_u32`, `C01_u64`, `C01_readers`, `C01_addr_encode`, `C01_addr_decode`, `C01_addrv4_decode`, `C01_addrv6_decode`

### C02 IPv4 prefix membership is exact — proved

*Claim.* BgpAddrV4::in_subnet answers true exactly when the address agrees with the prefix on its first prefixlen bits, and never panics, for every prefix length 0..=32.

*Model and method.* M_Prefix. Spec: `a / 2^(32-p) = n / 2^(32-p)` (agreement on the top p bits). (P_Prefix.v)

*Outcome.* Proved in full.

*Theorems.* `C02_v4_membership`

### C03 IPv6 prefix membership is exact — partial

*Claim.* BgpAddrV6::in_subnet answers true exactly when the address agrees with the prefix on its first prefixlen bits.

*Model and method.* M_Prefix. Spec: agreement on the top p bits; exact characterisation of the code's answer for every prefix and address. (P_Prefix.v)

*Outcome.* As stated the property is false: the last address of every prefix shorter than 128 is not a member (C03_v6_membership_refuted, for all of them); length 0 panics or answers false. Exact behaviour proved for all lengths.

*Theorems.* `C03_v6_membership_refuted`, `C03_v6_membership_exact`, `C03_v6_membership_len0`

### C04 MAC prefix membership is exact — proved

*Claim.* BgpAddrMac::in_subnet answers true exactly when the MAC agrees with the prefix on its first prefixlen bits (0..=48), without panicking.

*Model and method.* M_Prefix, as C02 with 48 bits. (P_Prefix.v)

*Outcome.* Proved in full.

*Theorems.* `C04_mac_membership`

### C05 First/last address of a subnet — partial

*Claim.* range_first/range_last of an IPv4, IPv6 or MAC prefix are the least and the greatest address that belong to the prefix, for every legal prefix length including 0.

*Model and method.* M_Prefix. Spec: membership by top bits, least and greatest element of the set. (P_Prefix.v)

*Outcome.* False for prefix length 0 of IPv4/IPv6 range_first, refuted for every non-zero address (C05_*_range_first_refuted); proved for everything else, exact behaviour at length 0 proved.

*Theorems.* `C05_v4_range_first`, `C05_v4_range_last`, `C05_v6_range_first`, `C05_v6_range_last`, `C05_mac_range`, `C05_v4_range_first_len0`, `C05_v6_range_first_len0`, `C05_v4_range_first_refuted`, `C05_v6_range_first_refuted`

### C06 IPv4 prefix containment is subset of address sets — partial

*Claim.* BgpAddrV4::contains(b) is true exactly when every address of b is an address of self.

*Model and method.* M_Prefix. Spec: set inclusion of top-bit classes. (P_Prefix.v)

*Outcome.* False exactly for equal lengths with different host bits (C06_v4_contains_refuted, for all such pairs); the answer is characterised for all prefixes (C06_v4_contains_exact).

*Theorems.* `C06_v4_contains_partial`, `C06_v4_contains_refuted`, `C06_v4_contains_exact`, `C06_v4_contains_equal_len`

### C07 IPv6 and MAC prefix containment is subset of address sets — partial

*Claim.* BgpAddrV6::contains and BgpAddrMac::contains are true exactly when every address of the argument is an address of self.

*Model and method.* As C06. (P_Prefix.v)

*Outcome.* As C06 for IPv6 and MAC.

*Theorems.* `C07_v6_contains_partial`, `C07_mac_contains_partial`, `C07_v6_contains_refuted`, `C07_mac_contains_refuted`, `C07_v6_contains_exact`, `C07_mac_contains_exact`

### C08 IPv4 NLRI lists round trip on the wire — proved

*Claim.* Encoding any list of IPv4 prefixes writes, for each, the length octet and the minimal number of prefix octets (RFC 4271 4.3), reports the total, touches nothing after it, and decoding those bytes yields the same prefixes truncated to whole octets, in order, consuming everything. Prefixes without bits beyond the last transmitted octet come back unchanged.

*Model and method.* M_Nlri. Wire spec `[plen] ++ firstn (ceil plen/8) octets`; induction over the list. (P_Nlri.v)

*Outcome.* Proved in full.

*Theorems.* `C08_v4_nlri`

### C09 IPv6 NLRI lists round trip on the wire — proved

*Claim.* As C08 for IPv6 prefixes 0..=128.

*Model and method.* As C08 with 128 bits. (P_Nlri.v)

*Outcome.* Proved in full.

*Theorems.* `C09_v6_nlri`

### C10 Decoded NLRI re-encodes to the very same bytes — proved

*Claim.* If a byte string decodes successfully as a list of IPv4 or IPv6 prefixes, then encoding the decoded list reproduces the byte string exactly (the decoder is injective and loses nothing, even host bits).

*Model and method.* M_Nlri. Induction on the decoding loop (fuel excluded). (P_Nlri.v)

*Outcome.* Proved in full.

*Theorems.* `C10_v4_lossless`, `C10_v6_lossless`

### C11 ADD-PATH NLRI lists round trip — proved

*Claim.* Encoding any list of (path-id, prefix) pairs writes the 4-octet big-endian path id before each prefix and decoding gives the list back.

*Model and method.* M_Nlri. (P_Nlri.v)

*Outcome.* Proved in full.

*Theorems.* `C11_v4_addpath`, `C11_v6_addpath`

### C12 NLRI decoders account for every byte — partial

*Claim.* When an NLRI list decoder returns Ok, every input byte has been consumed by some decoded item; trailing garbage is an error, never silently dropped.

*Model and method.* M_Nlri. The decoded items' wire forms concatenate to the consumed bytes. (P_Nlri.v)

*Outcome.* Plain lists proved. ADD-PATH lists refuted for every list of well-formed items followed by 1 to 4 octets (C12_addpath_refuted): the loop condition curpos+4 < len drops them; exact characterisation proved.

*Theorems.* `C12_v4_all_bytes`, `C12_v6_all_bytes`, `C12_labeled_all_bytes`, `C12_addpath_refuted`, `C12_v4_addpath_exact`, `C12_v6_addpath_exact`, `C12_addpath_dropped`

### C13 MPLS label stacks round trip — proved

*Claim.* Encoding a label stack (20-bit labels) and decoding it with the reported bit length yields the same stack.

*Model and method.* M_Nlri. Spec: 3-byte label encoding, bottom-of-stack bit. (P_Nlri.v)

*Outcome.* Proved in full.

*Theorems.* `C13_labels`

### C14 Labeled unicast NLRI round trip — proved

*Claim.* Lists of labeled IPv4/IPv6 prefixes round trip, labels included, when every stack is non-empty and well formed and the total bit length fits one octet.

*Model and method.* M_Nlri (generic in the inner item codec). (P_Nlri.v)

*Outcome.* Proved in full.

*Theorems.* `C14_labeled_v4`, `C14_labeled_v6`

### C15 VPN NLRI round trip — proved

*Claim.* Lists of labeled, route-distinguished IPv4/IPv6 prefixes (VPNv4/VPNv6) round trip.

*Model and method.* M_Nlri. (P_Nlri.v)

*Outcome.* Proved in full.

*Theorems.* `C15_vpnv4`, `C15_vpnv6`

### C16 Route distinguishers round trip in binary — proved

*Claim.* BgpRD encode/decode are mutually inverse on 8-byte strings and all RD values.

*Model and method.* M_Nlri. (P_Nlri.v)

*Outcome.* Proved in full.

*Theorems.* `C16_rd_encode`, `C16_rd_decode`

### C17 Length-prefixed NLRI (VPLS) round trip — partial

*Claim.* Encoding a list of VPLS NLRI and decoding the reported number of bytes gives the list back.

*Model and method.* M_Vpls. RFC 4761 wire form. (P_Vpls.v)

*Outcome.* False of the code for every non-empty list (C17_vpls_refuted): encode_long_bgpitems_to does not count the two length octets of each item, so the reported byte count never decodes back. Proved instead: decoding of the wire form of any list, the exact bytes for one item, and the BgpL2 round trip.

*Theorems.* `C17_vpls_refuted`, `C17_vpls_decode`, `C17_vpls_single_partial`, `C17_l2_roundtrip`

### C18 MVPN routes round trip — partial

*Claim.* Every MCAST-VPN route (types 1-7) encodes to bytes that decode to the same route.

*Model and method.* M_Mvpn. RFC 6514 wire forms per route type. (P_Mvpn.v)

*Outcome.* Holds for types 1 and 2. False for every route of types 3-7 (C18_mvpn_refuted): the encoder omits the prefix length octets and the inner route header. Also proved: the decoder accepts the RFC 6514 form of every type, except types 4 and 5 over IPv6 (type 5 over IPv6 is never decoded). C18_mvpn_written gives the octets written for every type exactly.

*Theorems.* `C18_mvpn12_partial`, `C18_mvpn_refuted`, `C18_mvpn_written`, `C18_mvpn_decode`, `C18_mvpn5_v6_refuted`

### C19 MDT NLRI round trip — partial

*Claim.* Every MDT-SAFI item (with and without RD) encodes to bytes that decode to the same item.

*Model and method.* M_Vpls. (P_Vpls.v)

*Outcome.* IPv4 holds for all lists. IPv6 is false for prefix lengths 127-128 without RD and from 64 with RD (bit length overflows u8); both refuted for all such items, and the round trip is proved below those bounds.

*Theorems.* `C19_mdt4`, `C19_mdt4_rd`, `C19_mdt4_clean`, `C19_mdt6_partial`, `C19_mdt6_rd_partial`, `C19_mdt6_clean`, `C19_mdt6_refuted`, `C19_mdt6_rd_refuted`

### C20 EVPN routes round trip — partial

*Claim.* Every EVPN route (types 1-5) encodes to bytes that decode to the same route, consuming exactly the encoded bytes.

*Model and method.* M_Evpn. RFC 7432/9136 wire forms per route type. (P_Evpn.v)

*Outcome.* Holds for types 1-4 with at most ten labels and for type 5 with IPv4 addresses and exactly one label (also for lists). False for every other type 5 route (C20_evpn5_refuted): the decoder reads IPv4 addresses in both branches and accepts only body lengths 34 and 58, the encoder advances 16 instead of 32. More than ten labels are never decoded when overflow checks are on (bit count truncated to u8).

*Theorems.* `C20_evpn_partial`, `C20_evpn_list_partial`, `C20_evpn5_refuted`, `C20_evpn5_v6_refuted`, `C20_evpn_labels_refuted`

### C21 FlowSpec NLRI round trip — partial

*Claim.* Every FlowSpec rule encodes to bytes that decode to the same rule, and every individual operator/value item round trips.

*Model and method.* M_Flowspec. RFC 8955 component wire forms. (P_Flowspec.v)

*Outcome.* Items and item lists round trip (all 32-bit values, any length). Rules: the announced length is computed from per-item sizes that disagree with what is written, so an operator rule round trips only when the discrepancy is exactly 1 octet (C21_rule_partial) and never otherwise (C21_rule_refuted). Prefix rules decode to themselves but report one octet too many (C21_prefix*_partial), so lists of them never decode back (C21_prefix_list_refuted); VPN prefix rules never decode (C21_fsv4_refuted). IPv6 prefixes are checked against the library's own form (offset octet, all prefix octets).

*Theorems.* `C21_val_item`, `C21_mask_item`, `C21_val_list`, `C21_mask_list`, `C21_rule_decode`, `C21_rule_partial`, `C21_rule_refuted`, `C21_prefix4_partial`, `C21_prefix6_partial`, `C21_prefix_list_refuted`, `C21_fsv4_refuted`

### C22 Capabilities round trip — partial

*Claim.* Every BGP capability value whose payload fits a one-octet length encodes to bytes that decode to the same capability, consuming exactly the announced length.

*Model and method.* M_Cap. Wire forms per capability code. (P_Cap.v)

*Outcome.* Proved for every capability except FQDN, and every decoded capability is shown encodable. For FQDN the claim is false of the code: the encoder overwrites its own length byte and omits the domain/hostname framing, so decoding never gives the capability back (C22_fqdn_refuted, for all names).

*Theorems.* `C22_capability_roundtrip`, `C22_decoded_encodable`, `C22_fqdn_refuted`

### C23 Capability parsing is total — proved

*Claim.* Parsing a capability from arbitrary bytes never panics; on success it consumes 2+length bytes, between 2 and the buffer size; capabilities with unknown codes are returned verbatim with their code and data.

*Model and method.* M_Cap. (P_Cap.v)

*Outcome.* Proved in full.

*Theorems.* `C23_capability_parse_total`, `C23_unknown_verbatim`

### C24 Multiprotocol capability code points agree with the NLRI code points — partial

*Claim.* The AFI/SAFI announced for an address-family capability is the AFI/SAFI under which the library encodes and decodes routes of that family.

*Model and method.* M_Cap + M_Addrs tables. (P_Addrs.v)

*Outcome.* Proved for every family except IPv4 multicast and IPv4 labeled unicast, which are announced under each other's SAFI (C24_code_points_refuted, lib.rs:398-450, 141-160). afisafi_from_cap refuses the FlowSpec families.

*Theorems.* `C24_code_points_partial`, `C24_nlri_code_points`, `C24_decoded_family`, `C24_code_points_refuted`

### C25 Negotiated capability set is an intersection — proved

*Claim.* After match_caps every plain capability left was in the local and in the remote set, every plain capability in both is left, 32-bit-AS survives iff both sides sent it, and has_as32bit reflects the result.

*Model and method.* M_Session. (P_Session.v)

*Outcome.* Proved in full.

*Theorems.* `C25_match_caps`, `C25_check_caps`

### C26 ADD-PATH is used only in directions both sides agreed to — partial

*Claim.* After match_caps the session sends (receives) path ids for an address family only if the local side announced send (receive) and the remote announced receive (send).

*Model and method.* M_Session. Spec: RFC 7911 direction rule over both announcements. (P_Session.v)

*Outcome.* False of the code for every pair of announcements in which the remote side announces a direction the local side does not answer: match_caps mirrors the remote announcement and ignores the local directions (C26_addpath_refuted). Proved: both sides announced the family and the remote side announced the matching direction; full claim if the local side announces both directions.

*Theorems.* `C26_addpath_refuted`, `C26_addpath_remote_agrees`, `C26_addpath_both`

### C27 remove_capability removes that capability and nothing else — partial

*Claim.* After remove_capability(c) the capability is no longer present and all others are retained in order; removing twice equals removing once.

*Model and method.* M_Session. (P_Session.v)

*Outcome.* Proved for all capabilities except ADD-PATH, and for ADD-PATH when the list holds at most one ADD-PATH capability; exact effect in general. With two of them the claim is false of every such list (C27_remove_refuted).

*Theorems.* `C27_remove`, `C27_remove_addpath`, `C27_remove_addpath_absent`, `C27_remove_all_addpath`, `C27_remove_refuted`, `C27_remove_addpath_exact`

### C28 Message header round trip — proved

*Claim.* For every message type and body length <= 65516, prepare_message_buf writes a 19-byte header that decode_message_head decodes to the same type and length, the body bytes are untouched, and the returned size is body+19.

*Model and method.* M_Session. (P_Session.v)

*Outcome.* Proved in full.

*Theorems.* `C28_header`, `C28_short`, `C28_overlong`

### C29 Header decoding rejects every malformed header — partial

*Claim.* decode_message_head never panics, and answers Err on a short buffer, a bad marker, an unknown type or a length below 19.

*Model and method.* M_Session. Exact outcome for every 19-octet input. (P_Session.v)

*Outcome.* Exact outcome for all inputs proved. The rejection claim is false for every length field below 19 and every message type: panic with overflow checks, a body of len+65517 octets without (C29_header_refuted).

*Theorems.* `C29_header_exact`, `C29_header_refuted`

### C30 A byte stream of messages is reframed exactly — proved

*Claim.* Concatenating any sequence of framed messages and repeatedly reading a header and then the announced number of bytes recovers the same sequence of (type, body).

*Model and method.* M_Session; induction on the message list. (P_Session.v)

*Outcome.* Proved in full.

*Theorems.* `C30_reframing`, `C30_progress`

### C31 OPEN messages round trip — partial

*Claim.* Encoding an OPEN and decoding it yields the same hold time, router id and capability list, and the AS number if below 65536, otherwise AS_TRANS 23456.

*Model and method.* M_Open. (P_Open.v)

*Outcome.* Proved for all messages whose capabilities fit an optional parameter and are not FQDN; with FQDN the claim is false whatever else the message holds (C31_open_refuted).

*Theorems.* `C31_open_roundtrip`, `C31_open_wire`, `C31_open_reencode`, `C31_open_refuted`

### C32 OPEN decoding is total — proved

*Claim.* Decoding an OPEN body never panics and always terminates.

*Model and method.* M_Open. (P_Open.v)

*Outcome.* Proved in full.

*Theorems.* `C32_open_decode_total`, `C32_open_decode_fresh`

### C33 OPEN encoding is total — partial

*Claim.* Encoding an OPEN into any buffer gives Ok or Err, never a panic.

*Model and method.* M_Open. Exact panic condition. (P_Open.v)

*Outcome.* False of the code: every buffer ending within a capability header panics (C33_open_encode_refuted). Proved: no panic when the buffer is shorter than 10 bytes or holds the whole message; exact panic condition otherwise for non-FQDN capabilities.

*Theorems.* `C33_open_encode_refuted`, `C33_open_encode_total_partial`, `C33_open_encode_exact`

### C34 OPEN optional-parameter length is right — partial

*Claim.* The optional parameter length octet of an encoded OPEN equals the number of bytes that follow it.

*Model and method.* M_Open; exact condition. (P_Open.v)

*Outcome.* False of the code whenever capabilities need 256 octets or more: the length octet is truncated (C34_open_optlen_refuted). Proved when they fit, and that the octet is the length modulo 256 in general.

*Theorems.* `C34_open_optlen`, `C34_open_optlen_fits`, `C34_open_optlen_refuted`

### C35 NOTIFICATION round trip and independence of previous contents — partial

*Claim.* Encoding any notification and decoding it yields the same code, subcode and data; decoding does not depend on what the message object held before.

*Model and method.* M_Open; independence. (P_Open.v)

*Outcome.* Round trip and totality proved. Independence of the previous contents is false for a two-byte body (C35_notification_stale_refuted) and proved for every other length.

*Theorems.* `C35_notification`, `C35_notification_total`, `C35_notification_fresh`, `C35_notification_stale_refuted`

### C36 UPDATE messages round trip — partial

*Claim.* Encoding an UPDATE (withdrawn routes, path attributes, NLRI) and decoding the reported bytes with the same session parameters yields the same message.

*Model and method.* M_Update + M_Attr. (P_Update.v)

*Outcome.* Proved for every message with lists of the session's own family and attributes of the supported kinds (attr_ok), up to prefix bits beyond the last octet. Lists of another family are silently dropped (C36_other_family_refuted); attributes beyond 65535 octets get a wrong length (C36_attributes_overflow_refuted).

*Theorems.* `C36_update_roundtrip_partial`, `C36_other_family_refuted`, `C36_attributes_overflow_refuted`

### C37 UPDATE decoding is total — partial

*Claim.* Decoding an UPDATE body received from a peer never panics.

*Model and method.* M_Update + M_Attr. Classification of panicking inputs. (P_Attr.v, P_Attr2.v, P_Update.v)

*Outcome.* False: every sendable message whose attribute area is cut inside an attribute header panics (C37_update_refuted), and the decoders of attribute types 8, 9, 14, 15, 22, 32, 128 panic on short or ragged payloads (C37_attributes_refuted; C102 and C103 say exactly when, for every type and for the whole message). Proved: in release builds, complete attributes of all other types with arbitrary payloads, and arbitrary withdrawn routes and NLRI, never panic.

*Theorems.* `C37_attributes_partial`, `C37_attributes_refuted`, `C37_attributes_exact`, `C37_update_refuted`, `C37_update_partial`

### C38 UPDATE decoding into a reused message object — partial

*Claim.* Decoding does not depend on the previous contents of the message object.

*Model and method.* M_Update. Exact dependence of the result on the previous contents. (P_Update.v)

*Outcome.* False whenever the old message had an attribute (C38_reuse_refuted); exact dependence proved (C38_reuse_exact).

*Theorems.* `C38_reuse_exact`, `C38_reuse_refuted`

### C39 Path attribute framing — proved

*Claim.* For every attribute, the encoded header carries its flags, type code and exact payload length (one or two octets according to the extended-length flag); payloads too long for the length field are refused.

*Model and method.* M_Attr. (P_Attr.v)

*Outcome.* Header exact for every attribute whatever its value; well formed values framed around their wire form; too long refused.

*Theorems.* `C39_header`, `C39_frame`, `C39_too_long`

### C40 Unknown attributes are forwarded verbatim — proved

*Claim.* An attribute whose type code the library does not know decodes to its flags, type code and raw bytes, and re-encodes to exactly the bytes received.

*Model and method.* M_Attr. (P_Attr.v)

*Outcome.* Proved in full.

*Theorems.* `C40_unknown_verbatim`

### C41 Scalar and address attributes round trip — proved

*Claim.* ORIGIN, NEXT_HOP, MED, LOCAL_PREF, ATOMIC_AGGREGATE, ORIGINATOR_ID, CLUSTER_LIST, CONNECTOR round trip (address attributes in the session's address mode).

*Model and method.* M_Attr. (P_Attr.v)

*Outcome.* Hypothesis: payload fits the length field; this only restricts cluster lists (flags without extended length, at most 255 octets), C41_scalar_fits. Longer ones are refused by C39_too_long.

*Theorems.* `C41_scalar_roundtrip`, `C41_scalar_fits`

### C42 Community attributes round trip as sets — partial

*Claim.* Standard, extended and large community sets round trip: decoding what was encoded gives the same set; on the wire each community appears once, in ascending order.

*Model and method.* M_Attr. (P_Attr.v)

*Outcome.* Proved for every set that fits the length field; more than 31 extended communities are refused by the encoder (C42_extended_refuted). Community sets modelled as strictly ascending lists.

*Theorems.* `C42_communities_roundtrip_partial`, `C42_ascending`, `C42_community_set`, `C42_extended_set`, `C42_large_set`, `C42_extended_refuted`

### C43 AS_PATH round trips — partial

*Claim.* Encoding an AS path and decoding it in the same session gives the same AS numbers.

*Model and method.* M_Attr. RFC 4271/6793 segments. (P_Attr.v)

*Outcome.* Holds in 4-octet sessions for every path that fits the attribute. False in 2-octet sessions for every non-empty path (C43_two_octet_refuted, C43_as_trans_refuted), the count octet is wrong beyond 255 numbers (C43_long_refuted), and received multi-segment paths are corrupted (C43_segments_refuted).

*Theorems.* `C43_aspath_roundtrip_partial`, `C43_two_octet_refuted`, `C43_as_trans_refuted`, `C43_long_refuted`, `C43_segments_refuted`

### C44 AGGREGATOR round trips — partial

*Claim.* Encoding an AGGREGATOR attribute and decoding it gives the same AS and router id.

*Model and method.* M_Attr. (P_Attr.v)

*Outcome.* False for every value (C44_aggregator_refuted: the payload is never written). The decoder accepts the RFC form (C44_aggregator_decode_partial).

*Theorems.* `C44_aggregator_refuted`, `C44_aggregator_decode_partial`

### C45 BgpAS equality, hash and order agree — partial

*Claim.* Equal AS values compare as Ordering::Equal and hash alike (required by BTreeSet/HashMap keys).

*Model and method.* M_Order. (P_Order.v)

*Outcome.* Refuted for every 16-bit AS number held in the high half (C45_as_refuted, C45_aspath_refuted); the failing pairs are exactly characterised (C45_as_exact), equality is an equivalence (C45_as_equivalence).

*Theorems.* `C45_as_refuted`, `C45_as_exact`, `C45_as_eq`, `C45_as_equivalence`, `C45_aspath_refuted`

### C46 NLRI equality and ordering laws — proved

*Claim.* Equality is an equivalence and cmp is a total order consistent with equality for Labeled, WithRd, WithPathId prefixes; partial_cmp agrees with cmp.

*Model and method.* M_Order. (P_Order.v)

*Outcome.* Laws of Labeled, WithRd and WithPathId over any lawful type, and of all prefix types. MplsLabels itself and derived types containing it: see C66.

*Theorems.* `C46_labeled`, `C46_withrd`, `C46_withpathid`, `C46_prefixes`, `C46_vpnv4`

### C47 MP_REACH / MP_UNREACH round trip — partial

*Claim.* Multiprotocol announcements and withdrawals round trip (next hop, AFI/SAFI and NLRI) for the families whose NLRI round trip.

*Model and method.* M_Attr/M_Addrs. (P_Attr.v, P_Attr2.v)

*Outcome.* Withdrawals: all families. Announcements: all families with the next hop form the decoder expects (nexthop_ok), with any SNPAs (lengths counted in octets, as the code does; RFC 2858 counts half-octets); IPv6 FlowSpec and FlowSpec without next hop are refuted.

*Theorems.* `C47_mp_reach_roundtrip_partial`, `C47_mp_unreach_roundtrip`, `C47_flowspec6_refuted`, `C47_flowspec4_no_nexthop_refuted`, `C47_vpnv6_nexthop_refuted`, `C47_snpa`

### C48 Path ids are interpreted as negotiated — partial

*Claim.* Whether NLRI is parsed with path ids depends only on the negotiated capabilities, never on the bytes received.

*Model and method.* M_Addrs. Exact rule for every family. (P_Addrs.v)

*Outcome.* Proved when fuzzy_pathid is off; refuted with fuzzy_pathid (the default of BgpSessionParams::new): for every family and session without ADD-PATH the bytes decide. The exact rule is proved (C48_exact).

*Theorems.* `C48_negotiated_partial`, `C48_exact`, `C48_fuzzy_refuted`

### C49 BMP per-peer header round trips — partial

*Claim.* Encoding a BMP per-peer header and decoding it yields the same header.

*Model and method.* M_Bmp. (P_Bmp.v)

*Outcome.* Proved for all headers except those with an IPv6 address in ::/96, which are refuted (they come back as IPv4 peers).

*Theorems.* `C49_peer_header_roundtrip_partial`, `C49_low_v6_refuted`, `C49_peer_header_reencode`, `C49_peer_header_accepts`

### C50 BMP initiation and termination round trip — partial

*Claim.* BMP Initiation and Termination messages decode to what was encoded.

*Model and method.* M_Bmp. (P_Bmp.v)

*Outcome.* Termination proved in full for strings below 65536 octets (longer ones refuted); Initiation proved when only the string is present and refuted for every message with sysDescr or sysName, which are written under TLV type 0. Encoding into a buffer with room for a TLV header only panics.

*Theorems.* `C50_termination_roundtrip`, `C50_termination_tlvs`, `C50_termination_long_refuted`, `C50_initiation_roundtrip_partial`, `C50_initiation_decode`, `C50_initiation_sent`, `C50_initiation_refuted`, `C50_initiation_room_refuted`

### C51 BMP peer up/down round trip — partial

*Claim.* PeerUp and PeerDown notifications decode to what was encoded.

*Model and method.* M_Bmp. (P_Bmp.v)

*Outcome.* Proved for all PeerUp/PeerDown messages except IPv6 addresses in ::/96 (refuted) and OPENs with FQDN capabilities (see C22); AS numbers come back as C31 describes.

*Theorems.* `C51_peer_up_roundtrip_partial`, `C51_peer_down_roundtrip_partial`, `C51_peer_up_refuted`, `C51_peer_down_refuted`

### C52 BMP session table tracks peer up/down history — proved

*Claim.* After any sequence of BMP messages the session table contains a peer exactly when the latest successfully decoded up/down message for that (RD, address) was a PeerUp, and then holds that PeerUp; messages that fail to decode and all other message kinds leave the table unchanged.

*Model and method.* M_Bmp; induction over histories (refinement against a finite map computed from the history). (P_Bmp.v)

*Outcome.* For every starting table, every history and every key; failing and other messages leave the table unchanged.

*Theorems.* `C52_session_history`, `C52_history_determines`, `C52_table_ascending`, `C52_session_answers`

### C53 BMP decoding is total — partial

*Claim.* Decoding a BMP message never panics.

*Model and method.* M_Bmp. Exact set of panicking inputs. (P_Bmp.v)

*Outcome.* False: the exact set of octet strings on which the decoder panics is characterised (with and without session), with families of refuting inputs. Initiation proved free of panics.

*Theorems.* `C53_panics_exactly`, `C53_session_panics_exactly`, `C53_empty_refuted`, `C53_peer_down_refuted`, `C53_peer_up_refuted`, `C53_route_monitoring_refuted`, `C53_termination_exactly`, `C53_initiation_partial`

### C54 List decoders terminate and make progress — proved

*Claim.* Every NLRI/attribute/capability decoding loop terminates on every input: each iteration consumes at least one byte, and the reported consumption never exceeds what was available (where the code promises it).

*Model and method.* all list loops: fuel = S(length) never exhausted. (P_Addrs.v, P_Attr.v, P_Bmp.v, P_Nlri.v, P_Update.v)

*Outcome.* Proved in full.

*Theorems.* `C54_addrs_terminates`, `C54_attr_terminates`, `C54_bmp_terminates`, `C54_bmp_session_terminates`, `C54_nlri_terminates`, `C54_update_terminates`

### C55 Prefix NLRI decoding is total — partial

*Claim.* Decoding IPv4/IPv6 unicast NLRI from arbitrary bytes never panics.

*Model and method.* M_Nlri. Exact panic condition per build mode. (P_Nlri.v)

*Outcome.* Refuted with overflow checks (length octet 249..255 overflows bits+7), for every list of prefixes followed by such an octet; exact panic condition proved with and without ADD-PATH, never panics in release builds.

*Theorems.* `C55_v4_panic_exact`, `C55_v6_panic_exact`, `C55_addpath_release`, `C55_v4_addpath_exact`, `C55_v6_addpath_exact`, `C55_total_refuted`

### C56 Labeled and VPN NLRI decoding is total — partial

*Claim.* Decoding labeled-unicast and VPN NLRI from arbitrary bytes never panics.

*Model and method.* M_Nlri. Exact panic condition. (P_Nlri.v)

*Outcome.* Refuted: any label stack cut short by the end of the buffer panics in both build modes. Exact no-panic condition proved in both build modes.

*Theorems.* `C56_total_refuted`, `C56_labeled_exact`, `C56_vpn_exact`, `C56_release_complete`, `C56_release_exact`

### C57 Community text form round trips — proved

*Claim.* Formatting any community with Display and parsing the text gives the same community.

*Model and method.* M_Text. Spec: numerals (relation between digit strings and values), names, separators. (P_Text.v)

*Outcome.* Round trip, displayed form, exact set of accepted texts, lists. Display/FromStr of integers, trim and split are modelled after the standard library.

*Theorems.* `C57_community_roundtrip`, `C57_community_display`, `C57_community_accepts`, `C57_list_accepts`, `C57_list_roundtrip`, `C57_large_injective`

### C58 MAC address text form round trips — proved

*Claim.* Formatting any MAC address and parsing the text gives the same address; to_u64/from_u64 and network-byte conversions agree.

*Model and method.* M_Text. (P_Text.v)

*Outcome.* Round trip, displayed form, exact set of accepted texts (any text with a hexadecimal digit), conversions.

*Theorems.* `C58_mac_roundtrip`, `C58_mac_display`, `C58_mac_accepts`, `C58_mac_total`, `C58_mac_conversions`, `C58_mac_from_u64`, `C58_mac_from_network`

### C59 Route distinguisher text form round trips — partial

*Claim.* Formatting any route distinguisher and parsing the text gives the same RD.

*Model and method.* M_Text. (P_Text.v)

*Outcome.* Proved for all route distinguishers except type 1; refuted for every one of type 1, whose text a.b.c.d:n the parser always rejects.

*Theorems.* `C59_rd_roundtrip_partial`, `C59_rd_type1_refuted`, `C59_rd_accepts`

### C60 BMP address fields round trip — partial

*Claim.* An IP address stored in a BMP 16-byte address field and read back is the same address, and only those 16 bytes change.

*Model and method.* M_Bmp. (P_Bmp.v)

*Outcome.* Round trip proved except for IPv6 addresses in ::/96 (refuted); an IPv4 address zeroes the rest of the buffer (refuted).

*Theorems.* `C60_address_roundtrip_partial`, `C60_low_v6_refuted`, `C60_frame_refuted`

### C61 Prefix containment is an order — proved

*Claim.* BgpNet::contains never panics on legal prefixes, is reflexive and transitive, is antisymmetric for prefix lengths >= 1, and never relates prefixes of different address kinds.

*Model and method.* M_Prefix. Order laws. (P_Prefix.v)

*Outcome.* Proved in full.

*Theorems.* `C61_contains_total`, `C61_contains_refl`, `C61_contains_trans`, `C61_contains_antisym`, `C61_contains_kind`

### C62 An NLRI item occupies exactly the octets its length octet announces — partial

*Claim.* When a length-prefixed NLRI item (plain, labeled or VPN, IPv4 or IPv6) is accepted, the decoder has consumed the length octet plus ceil(length/8) octets, no more and no less, so the next item starts where the sender put it.

*Model and method.* M_Nlri. Bytes consumed as a function of the length octet. (P_Nlri.v)

*Outcome.* Proved for plain prefixes in both modes and labeled/VPN with overflow checks; refuted in release builds whenever labels and route distinguisher exceed the announced bits (u8 counter wraps): exactly 32 octets too many per wrap.

*Theorems.* `C62_prefix_framing`, `C62_labeled_framing`, `C62_release_exact`, `C62_release_refuted`

### C63 NLRI lists round trip through BgpAddrs — partial

*Claim.* Encoding a BgpAddrs list and decoding the bytes under the AFI/SAFI the list reports, in a session that negotiated the list's path-id form, gives the same list and consumes all the bytes.

*Model and method.* M_Addrs, one generic lemma per list codec, instantiated for all 30 variants. (P_Addrs.v)

*Outcome.* Proved for all 30 variants restricted to items that can be carried: VPLS lists only when empty (C17), MVPN types 1 and 2 (C18), EVPN type 5 limits (C20), FlowSpec operator rules with consistent length (C21). Fuzzy path-id detection off.

*Theorems.* `C63_addrs_roundtrip_partial`, `C63_trunc_len`

### C64 Route target constructors — proved

*Claim.* A route target built from an IPv4 address and a number, or from an AS and a number, has the RFC 4360 octets on the wire, and get_ipv4/get_num give back the address and the number; an extended community built from a 64-bit number has that number's octets.

*Model and method.* M_Attr. Constructors against the RFC 4360 layouts. (P_Attr.v)

*Outcome.* Proved in full.

*Theorems.* `C64_route_target_ip`, `C64_route_target_as`, `C64_from_u64`

### C65 UPDATE attribute getters — proved

*Claim.* Each attribute getter of an UPDATE returns the content of the first attribute of its kind in the message, and None exactly when there is none.

*Model and method.* M_Update. First attribute of the kind in list order. (P_Update.v)

*Outcome.* Proved in full.

*Theorems.* `C65_getters`

### C66 Ordering of NLRI lists and label-bearing routes — partial

*Claim.* For every NLRI list and every route type (VPLS, EVPN, MVPN, FlowSpec, PMSI tunnel) equality, cmp, partial_cmp and hash fulfil the contract of Rust's traits: equality is an equivalence, cmp is a total order whose Equal is that equality, equal values hash alike and partial_cmp agrees with cmp.

*Model and method.* M_Order. Laws proved for each combinator (struct, enum, list, option) and composed. (P_Order.v)

*Outcome.* Equality, cmp and hash are lawful for all lists; partial_cmp agrees with cmp except on VPLS, EVPN types 1, 2, 5 and PMSI tunnels, where it answers None (C66_self_partial_cmp_refuted, C66_evpn_list_refuted, C66_pmsi_refuted).

*Theorems.* `C66_addrs_laws`, `C66_addrs_partial_cmp`, `C66_evpn_partial_cmp`, `C66_vpls_partial_cmp`, `C66_self_partial_cmp_refuted`, `C66_evpn_list_refuted`, `C66_pmsi_refuted`, `C66_pmsi_laws`, `C66_others`

### C67 BMP messages round trip — partial

*Claim.* Encoding a BMP message of any kind and decoding the result yields the same message, and the common header (version 3, length) round trips likewise; every 5 octets with version 3 are a common header.

*Model and method.* M_Bmp. RFC 7854 framing. (P_Bmp.v)

*Outcome.* Proved for Route Monitoring, PeerUp, PeerDown, Termination, and Initiation with string only; Statistics Report and Route Mirroring cannot be encoded (proved to panic).

*Theorems.* `C67_message_roundtrip_partial`, `C67_message_decode`, `C67_encode_refuted`, `C67_common_header_roundtrip`, `C67_common_header_accepts`

### C68 Route Monitoring is read with the session's parameters — partial

*Claim.* After a PeerUp, the UPDATEs in Route Monitoring messages of that peer are decoded under the session parameters its two OPENs negotiated; for a peer that is not up, under those the per-peer header implies. Route Monitoring never changes the session table.

*Model and method.* M_Bmp. Table refinement, parameters as a function of the history. (P_Bmp.v)

*Outcome.* Proved that the parameters are those of the peer's OPEN alone and the table's effect; refuted as negotiation: four-octet AS numbers are assumed from one OPEN only and the family is always IPv4.

*Theorems.* `C68_route_monitoring_after_up_partial`, `C68_without_peer_up`, `C68_unknown_peer`, `C68_negotiation_refuted`

### C69 Per-peer headers are lawfully ordered — proved

*Claim.* Equality, Ord and PartialOrd of BmpMessagePeerHeader are an equivalence and a total order that agree with one another; two headers are equal exactly when they describe the same peer (everything but the timestamp).

*Model and method.* M_Order/M_Bmp. (P_Bmp.v)

*Outcome.* All order laws, relative to everything but the timestamp.

*Theorems.* `C69_peer_header_order`

### C70 Prefix text round trips — proved

*Claim.* Formatting an IPv4, IPv6 or MAC prefix and parsing the text gives the same prefix; the texts accepted for an IPv4 prefix are an address in dotted decimal, optionally followed by a slash and a length.

*Model and method.* M_Text. Std parser/formatter modelled; round trip by structural lemmas. (P_Text.v)

*Outcome.* All three kinds; std's address parser and formatter are modelled.

*Theorems.* `C70_v4_roundtrip`, `C70_v6_roundtrip`, `C70_mac_roundtrip`, `C70_v4_accepts`

### C71 Network text identifies its family — proved

*Claim.* Formatting a BgpNet (also its serialised form) and parsing the text gives the same network of the same family.

*Model and method.* M_Text. (P_Text.v)

*Outcome.* Proved in full.

*Theorems.* `C71_net_roundtrip`

### C72 MDT text round trips — proved

*Claim.* Formatting a multicast distribution tree NLRI and parsing the text gives the same NLRI.

*Model and method.* M_Text. (P_Text.v)

*Outcome.* Proved in full.

*Theorems.* `C72_mdt_v4_roundtrip`, `C72_mdt_v6_roundtrip`

### C73 AS numbers are displayed unambiguously — partial

*Claim.* The text of an AS number is that number; different AS numbers have different texts.

*Model and method.* M_Text. Injectivity of the display, exact collisions. (P_Text.v)

*Outcome.* Proved for AS numbers that are not multiples of 65536; refuted for every multiple k*65536 (0<k<65536), displayed as k.

*Theorems.* `C73_as_display_partial`, `C73_as_display_refuted`

### C74 Prefix text with an invalid length is refused — partial

*Claim.* Parsing a prefix whose length is not a number, or is greater than the address length, fails, and so does parsing as a network any text that is not one.

*Model and method.* M_Text. (P_Text.v)

*Outcome.* Refuted for all inputs: a non-numeric length silently becomes the host length, lengths above 32 are accepted, and any text with a hexadecimal digit before the first slash is a network.

*Theorems.* `C74_v4_length_refuted`, `C74_v6_length_refuted`, `C74_any_length_refuted`, `C74_net_refuted`

### C75 Multicast test is exact — partial

*Claim.* is_multicast on an IPv4 prefix answers true exactly when the prefix's address lies in the multicast block 224.0.0.0/4.

*Model and method.* M_Prefix. Spec: membership in 224.0.0.0/4 by top bits. (P_Prefix.v)

*Outcome.* Every multicast address is recognised, but the whole reserved block 240.0.0.0/4 except 255.255.255.255 is too (C75_multicast_refuted, for all its addresses); exact set proved.

*Theorems.* `C75_multicast_complete_partial`, `C75_multicast_refuted`, `C75_multicast_exact`

### C76 PMSI tunnel attribute — partial

*Claim.* A PMSI tunnel attribute of any RFC 6514 tunnel type the library names is decoded to exactly its flags, label and tunnel identifier, and can be sent.

*Model and method.* M_Attr (pmsi_decode, pmsi_tunnel). Wire form of each tunnel type in S_Attr2. (P_Attr2.v)

*Outcome.* Proved: types 0, 1, 2 (IPv4 root) and 6 (IPv4 endpoint) with any identifier, label and low bits. Refuted: IPv6 endpoints are misread as IPv4, IPv6 mLDP roots and types 3, 4, 5, 7 are refused, and the encoder panics (unimplemented!).

*Theorems.* `C76_decode_partial`, `C76_ingress6_refuted`, `C76_mldp6_refuted`, `C76_types_refuted`, `C76_encode_refuted`

### C77 Attribute sets — partial

*Claim.* An attribute set (RFC 6368) is decoded to its origin AS and, in order, the attributes it holds, each decoded as it would be on its own; malformed sets are refused.

*Model and method.* M_Attr (attrset_decode, attr_decode_n). Independence of the nesting fuel, then induction over the inner attributes; every octet string is decomposed. (P_Attr2.v)

*Outcome.* Proved for sessions with four-octet AS numbers: exact value for every well formed set, and a complete case analysis of every payload. Refuted: a set cut inside an inner header panics, sessions with two-octet AS numbers refuse every set, and the encoder panics (unimplemented!).

*Theorems.* `C77_decode_partial`, `C77_inner_failure`, `C77_overrun`, `C77_short`, `C77_cut_header_refuted`, `C77_cases`, `C77_two_octet_refuted`, `C77_encode_refuted`

### C78 Attribute flags — partial

*Claim.* The flag octet of every attribute that is sent has the optional and transitive bits its RFC prescribes, no partial bit unless the value was received with one, and zero unused bits.

*Model and method.* M_Attr (attr_params, attr_encode). Flag octet built from the RFC classes in S_Attr/S_Attr2. (P_Attr.v, P_Attr2.v)

*Outcome.* Exact flag octet for every attribute that can be sent. Refuted: AGGREGATOR is sent as well-known, and large communities always carry the partial bit.

*Theorems.* `C78_class_partial`, `C78_aggregator_class_refuted`, `C78_flag_octet_partial`, `C78_large_partial_bit_refuted`

### C79 Both ends of a session agree on it — partial

*Claim.* After each end has matched its capabilities against the OPEN it received from the other, both ends agree on the width of AS numbers, on every capability in use, and, per address family and direction, on whether path identifiers are sent and expected.

*Model and method.* M_Session (match_caps, check_addpath_*), M_Open, M_Peer (send_message). The entry of a family in the negotiated list is computed from the remote announcement; agreement follows by symmetry. (P_Peer.v)

*Outcome.* Proved: OPEN carries the capabilities exactly, both ends agree on AS width and on every capability other than ADD-PATH, and the exact ADD-PATH outcome. Refuted for ADD-PATH: the ends agree on a direction exactly when the sender's willingness to send equals the receiver's willingness to receive (the local announcement's direction is ignored).

*Theorems.* `C79_exchange`, `C79_agree`, `C79_addpath_exact`, `C79_addpath_partial`, `C79_addpath_refuted`

### C80 What one end sends the other end receives — proved

*Claim.* Any sequence of OPEN, UPDATE, NOTIFICATION and KEEPALIVE messages that one end encodes and frames, each from a buffer that is large enough, is split and decoded by the other end into the same messages in the same order.

*Model and method.* M_Peer (message_encode, message_decode, send_message), M_Session (recv_loop). Composition of the per-message round trips with the framing lemma; encoding depends on the session only through family and AS width. (P_Peer.v)

*Outcome.* For every sequence of sendable messages; message_ok is the well-formedness of C31, C35 and C36 and a body of at most 65516 octets.

*Theorems.* `C80_message`, `C80_stream`

### C81 The example client — partial

*Claim.* The BgpDumper client opens a session with any peer whose OPEN is valid, adopts the negotiated parameters, reports every UPDATE in order until a NOTIFICATION or the end of the stream, and never panics on what a peer sends.

*Model and method.* M_Peer (start_active, lifecycle) with the input as an octet list and reports as events. Induction over the messages and over the fuel. (P_Peer.v)

*Outcome.* Proved: opening, reporting in order, survival of undecodable UPDATEs, progress, the exact panics of the opening, and that in release builds the loop panics only where UPDATE decoding does. Refuted: the client takes the peer's capabilities for the negotiated ones (AS width and ADD-PATH directions disagree with the peer), an OPEN over 4115 octets panics, the body of a KEEPALIVE is taken for the next message.

*Theorems.* `C81_start`, `C81_start_panic`, `C81_width_refuted`, `C81_addpath_refuted`, `C81_stream`, `C81_end`, `C81_update`, `C81_panic`, `C81_keepalive_body_refuted`, `C81_progress`

### C82 Error texts — partial

*Claim.* BgpNotificationMessage::error_text tells which error occurred: the text begins with the RFC name of the code, ends in the RFC name of the subcode where there is one, and different (code, subcode) pairs never have the same text.

*Model and method.* M_Text2 (error_text). The arms of each match are an association list; names compared with the RFC tables in S_Text2. (P_Text2.v)

*Outcome.* Injectivity and names proved for all codes and subcodes; the subcodes of Cease (RFC 4486) are shown as numbers only (C82_cease_refuted, for every one of them). Names are compared up to the case of letters. Deprecated subcodes are shown as such and not claimed.

*Theorems.* `C82_injective`, `C82_code`, `C82_subcode`, `C82_cease_refuted`, `C82_cease`

### C83 Extended communities in text — partial

*Claim.* The Display text of an extended community identifies it: two communities print alike only if they are the same eight octets.

*Model and method.* M_Text2 (ecomm_fmt). Case analysis of the sixteen branches against each other; separators cut the text into fields. (P_Text2.v)

*Outcome.* C83_exact: two communities print alike exactly when they are equal or differ only in what three branches leave out (octets before the tunnel type of an encapsulation community, octets after the MTU of an EVPN layer 2 community, transitive bit of an import route target); the three refutations are for all values of the missing octets.

*Theorems.* `C83_exact`, `C83_encapsulation_refuted`, `C83_l2_refuted`, `C83_import_refuted`

### C84 Routes in text — partial

*Claim.* The Display text of a route, route distinguisher, label stack, next hop, PMSI tunnel or FlowSpec operator identifies it: two values of the same type print alike only if they are equal (labels included), so logs and keys built from the text do not confuse routes.

*Model and method.* M_Text2. Each text is cut at separators that cannot occur in the preceding field; fields are injective by the round trips of M_Text. (P_Text2.v)

*Outcome.* Injective for EVPN, RD, labels, IPv4/IPv6/MAC/MDT prefixes with any of path id, labels and RD, FlowSpec operators, MVPN types 1, 2 and types 3-7 over IPv4. Refuted for MVPN types 3-7 with IPv6 addresses (C84_mvpn_refuted, a family with five free parameters). Exact characterisation with what is left out: VPLS (labels), next hops (RD 0:0), PMSI (opaque value of mLDP). The Debug based texts (lists, FlowSpec rules) are the subject of C90 and C91.

*Theorems.* `C84_evpn`, `C84_rd`, `C84_labels`, `C84_v4`, `C84_v6`, `C84_mac`, `C84_mdt4`, `C84_mdt6`, `C84_vpls`, `C84_mvpn_partial`, `C84_mvpn_refuted`, `C84_nexthop`, `C84_pmsi`, `C84_flowspec_value`, `C84_flowspec_mask`

### C85 Serialization round trip — partial

*Claim.* Any path attribute (BgpAttrItem), list of routes (BgpAddrs) or prefix (BgpNet) that is serialized with serde and deserialized from a format that hands back what it was given is the same value.

*Model and method.* M_Serde. One induction over type descriptors (F_Serde.roundtrip): `de` after any faithful presentation of `ser` is the value, or an error iff a FlowSpec component occurs. The crate's values are embedded injectively (F_Serde4) and are exactly the typed ones. (P_Serde.v)

*Outcome.* Proved for every attribute without FlowSpec rules in every faithful format keyed by name or position, and for every BgpNet. False otherwise: an attribute with a non-empty FlowSpec list never comes back (C85_*_refuted: always an error), and a format that numbers fields never gets back routes with labels, a route distinguisher or a path identifier (C85_numbered_refuted).

*Theorems.* `C85_attributes_partial`, `C85_attributes_refuted`, `C85_routes_partial`, `C85_routes_refuted`, `C85_net`, `C85_numbered_partial`, `C85_numbered_refuted`, `C85_attributes_injective`, `C85_routes_injective`

### C86 FlowSpec rules can be deserialized — partial

*Claim.* A BgpFlowSpec component that is serialized with serde can be deserialized from the same format.

*Model and method.* M_Serde (de_flow). Inversion of the visitor; the enum presentation meets only visit_map. (P_Serde.v)

*Outcome.* False for every component in every faithful format (C86_*_refuted): written as an enum variant, while the visitor defines visit_map only. C86_accepts says exactly which documents are accepted.

*Theorems.* `C86_accepts`, `C86_ipv4_refuted`, `C86_ipv6_refuted`, `C86_vpn_refuted`

### C87 Hand-written visitors accept exactly their two fields — partial

*Claim.* WithRd, Labeled and WithPathId are deserialized from exactly: a sequence of their two fields, or a map with these two names in either order. If a field is missing, the error names that field.

*Model and method.* M_Serde (de_pair). Case analysis of the loop: two entries at most. (P_Serde.v)

*Outcome.* Acceptance is exact for all three. WithRd and Labeled name the missing field; WithPathId names "rd" or "prefix" instead of "pathid" or "nlri" (C87_with_pathid_missing_refuted).

*Theorems.* `C87_with_rd`, `C87_labeled`, `C87_with_pathid`, `C87_with_rd_missing`, `C87_labeled_missing`, `C87_with_pathid_missing_refuted`

### C88 Unknown fields are tolerated — partial

*Claim.* A document written by a newer version, with additional fields, is read as if the additional fields were absent.

*Model and method.* M_Serde. Induction over the entries before the unknown one. (P_Serde.v)

*Outcome.* True of every derived struct; false of WithRd, Labeled and WithPathId, which refuse any document with an additional field (C88_wrappers_refuted).

*Theorems.* `C88_derived`, `C88_wrappers_refuted`, `C88_wrappers_error`

### C89 Deserialized values are valid — partial

*Claim.* Whatever document is deserialized, the resulting attribute or route list, if any, is one that the rest of the crate can use: integers fit their fields, arrays have their length, community sets are ordered and without duplicates, and prefix lengths do not exceed 32 or 128 bits.

*Model and method.* M_Serde. `well_typed` by induction over descriptors; `rep_attr` turns typed values into the crate's values; fuel by depth. (P_Serde.v)

*Outcome.* Ranges, array lengths and set order are proved for every document. Prefix lengths are not checked (C89_*_length_refuted), and using such a prefix panics (C89_bad_length_*).

*Theorems.* `C89_attributes`, `C89_routes`, `C89_depth`, `C89_ipv4_length_refuted`, `C89_ipv6_length_refuted`, `C89_bad_length_range`, `C89_bad_length_encode`

### C90 Debug output identifies the value — proved

*Claim.* Two path attributes (attribute sets nested to any depth), route lists, next hops, UPDATE or NOTIFICATION messages print the same with {:?} only if they are the same value; route lists that compare equal print differently exactly when they differ in MPLS labels.

*Model and method.* M_Debug describes the layout of every type (`dty`); one induction over layouts (`F_Debug.dbg_told`) shows that a text followed by a delimiter determines both value and rest. Values are tied to layouts through the typing proved for serde (F_Debug2). Attribute sets: the text does not depend on the depth bound (`deep_text`). (P_Debug.v)

*Outcome.* All kinds of attributes, all 31 list variants, next hops, UPDATE and NOTIFICATION.

*Theorems.* `C90_attributes`, `C90_routes`, `C90_nexthops`, `C90_update`, `C90_notification`, `C90_equal_differs`

### C91 Display output identifies attributes, route lists and notifications — partial

*Claim.* Two attributes print the same with {} only if they are of the same kind and hold the same value; likewise route lists and NOTIFICATION messages.

*Model and method.* M_Debug. Kinds are told apart by their literal beginnings (AtomicAggregate, which prints a bare address, by having no space); fields by the tokens of C90 or by cutting at separators. NOTIFICATION is read from its end. (P_Debug.v)

*Outcome.* True of everything but the opaque value of an mLDP tunnel in a PMSI attribute, which is never printed (C91_attributes_refuted).

*Theorems.* `C91_attributes_partial`, `C91_attributes_refuted`, `C91_routes`, `C91_notification`, `C91_notification_plain`

### C92 A path attribute's payload decides the decoded value, exactly — proved

*Claim.* For every path attribute other than MP_REACH_NLRI, MP_UNREACH_NLRI, PMSI tunnel and ATTR_SET, decoding a payload succeeds with a value if and only if the payload denotes that value: the ORIGIN code, the AS numbers in order, the next hop, metric, preference, originator or aggregator fields, the clusters in order, the set of communities of each kind, the connector fields. Flags, nesting depth and build mode make no difference, and no other value or payload is accepted.

*Model and method.* S_Attr3.payload says, type by type, how a payload is built from its value. Soundness: each form decodes to the value (chunk loops by induction). Completeness: a payload of octets either has the form or fails a length or code test; decoding is a function, so the value is the same. (P_Attr3.v)

*Outcome.* Full statement, as an equivalence with a relation that does not mention the decoder. For AS_PATH the relation says what the library reads: the last whole AS numbers of the payload, whatever the segment headers say (compare C43).

*Theorems.* `C92_payload`

### C93 Attributes of a length the RFCs forbid are not accepted — partial

*Claim.* A path attribute whose payload has a length that its RFC does not allow is never accepted, and every allowed length is.

*Model and method.* From C92: the length of every form is in length_taken, and every payload of such a length is cut into the form. (P_Attr3.v)

*Outcome.* Refuted: every payload whose length is in a wider set than the RFCs' is accepted (trailing octets after ORIGIN, NEXT_HOP, MED, LOCAL_PREF, ORIGINATOR_ID, CONNECTOR and after the last whole cluster or extended community; ATOMIC_AGGREGATE of 4 or 16 octets; AGGREGATOR of the other AS width). Proved: nothing outside that wider set is accepted, everything the RFCs allow is, and what trails is ignored.

*Theorems.* `C93_length_refuted`, `C93_trailing_refuted`, `C93_length_strict`, `C93_length_accepted`

### C94 A list of routes decodes exactly as its octets say, in every family — proved

*Claim.* For every address family the library knows, decoding an NLRI field succeeds with a list of routes and a number of octets used if and only if the octets denote that list: each prefix with its length and zero-filled address, each label stack ending at its bottom-of-stack or withdrawn mark, each route distinguisher, path identifier, VPLS block, MCAST-VPN, EVPN and FlowSpec route, in order. No other octets are accepted, no route is dropped or invented, and unknown families are never accepted.

*Model and method.* S_Exact gives, family by family, relations between octets and routes. Each single-route decoder is shown equivalent to its relation (label loop by induction, arithmetic modulo 256 in `less`), then the list loops by induction on the fuel, which the advance of every step bounds. (P_Exact.v)

*Outcome.* Full statement, as an equivalence with relations on octets that mention no decoder. The relations record what the library accepts, also where that is more than the RFCs allow: trailing octets in EVPN and MCAST-VPN bodies, up to four octets left over in lists with path identifiers, bit counts modulo 256 in builds without overflow checks, one component per FlowSpec rule.

*Theorems.* `C94_nlri`

### C95 Every path attribute decodes exactly as its payload says — proved

*Claim.* For an attribute of any type code, decoding succeeds with a value if and only if the payload denotes that value. This covers MP_REACH_NLRI (address family, next hop, SNPA blocks passed over, routes), MP_UNREACH_NLRI, PMSI tunnels, attribute sets nested to any depth whose inner attributes fill the set exactly, and unknown types, whose octets are kept as they are, besides the types of C92.

*Model and method.* S_Exact2 adds relations for next hops, SNPA blocks, PMSI tunnels, attribute areas and the attributes themselves; sets and their inner attributes are one inductive relation. Equivalence by strong induction on the payload's length, and induction on the fuel of the area loop; framing is injective. (P_Exact2.v)

*Outcome.* Full statement, as an equivalence with an inductive relation that mentions no decoder. The relation records what the library accepts, also where the RFCs differ: with a route distinguisher the announced next-hop length is not looked at; in AFI 25 four octets are read whatever length is announced.

*Theorems.* `C95_attribute`

### C96 An UPDATE decodes exactly as its octets say — proved

*Claim.* Decoding an UPDATE succeeds if and only if the octets are a withdrawn-routes field with its length, an attribute area with its length that whole attributes fill exactly, and an NLRI field filling the rest, each denoting a value. The message then holds exactly those routes, and those attributes after the ones it held before.

*Model and method.* The relation names the three fields. The area loop of UPDATE is shown equivalent to the area relation of C95 even though it may look at octets past the area; the NLRI fields are C94. (P_Exact2.v)

*Outcome.* Full statement, as an equivalence. Failed decodes are C37.

*Theorems.* `C96_update`

### C97 A capability is read exactly as its octets say — proved

*Claim.* Reading one capability from a buffer succeeds if and only if the buffer starts with a code, a length and that many octets which denote the result: a capability of a known code with its fields, or, for an unknown code or a multiprotocol capability of a family without a name, the code and octets themselves. The number of octets used is the length plus two. A text field is accepted if and only if it is the UTF-8 encoding of Unicode scalar values. A host name is accepted only when the domain name beside it is empty.

*Model and method.* S_Exact3 gives each capability's payload as a relation, with UTF-8 defined by encoding scalar values. F_Utf8 shows the validator's table is that definition; F_Exact7 shows each decoder loop reads a row of fixed-size entries exactly. (P_Exact3.v)

*Outcome.* Equivalence with a relation written without a decoder; UTF-8 is defined from scalar values.

*Theorems.* `C97_capability`, `C97_text`

### C98 OPEN and NOTIFICATION decode exactly as their octets say — proved

*Claim.* Decoding an OPEN body succeeds if and only if it is version 4, the AS number, hold time and router identifier, one octet which is not looked at, and optional parameters of type 2 to the end of the body filled exactly by capabilities; the message then holds exactly those values and the capabilities not passed over, in order, whatever it held before. Decoding a NOTIFICATION succeeds if and only if it has two octets, and keeps the error code, the subcode and the first one or two octets of data.

*Model and method.* Relations for capabilities in a row and optional parameters in a row, both inductive; the two nested loops are shown equivalent by induction on their fuel, including positions past the parameter. (P_Exact3.v)

*Outcome.* Equivalence. The octet with the parameters' length is not looked at by the code, which the relation says.

*Theorems.* `C98_open`, `C98_notification`

### C99 A message header is accepted exactly when it is one — proved

*Claim.* Decoding a message header gives a type and a body length if and only if the octets start with the sixteen-octet marker, a length and the code of that type, and the body length is the length less nineteen. A length below nineteen is never accepted when overflow is checked; otherwise it stands for that length plus 65536.

*Model and method.* The marker test, length and type octet are rewritten as one concatenation; the wrapped subtraction is the function `wrapped` of the BMP body specification. (P_Exact4.v)

*Outcome.* Equivalence in both build modes.

*Theorems.* `C99_header`

### C100 Every BMP message decodes exactly as its octets say — proved

*Claim.* Decoding a BMP message succeeds with a value if and only if the octets denote it: the message type, the per-peer header, and for each type the reason, addresses, ports, embedded OPEN, NOTIFICATION and UPDATE messages or information TLVs. On a session, an embedded UPDATE is read with the parameters remembered for its peer, and all else as without a session.

*Model and method.* S_Exact4 composes the relations of C96 and C98 under `message_in`. The Termination loop is an induction with an accumulator; the session decoder differs only in the parameters used for an UPDATE. (P_Exact4.v)

*Outcome.* Equivalence, without and with a session. The relation says where the library departs from RFC 7854: ::/96 addresses, the reason octets of a Termination.

*Theorems.* `C100_bmp`, `C100_session`

### C101 A received UPDATE sent on is received alike — partial

*Claim.* Decoding an UPDATE from any octets and encoding the message again gives octets that, under the same session parameters, decode to the very same message, as long as it holds only attributes and routes the encoders support and it fits; that its fields are in range, that its next hops suit their families and that path identifiers are recognised again need not be assumed, they follow from having been decoded.

*Model and method.* By the exactness theorems C94 to C96 a decoded message is what its octets mean; from that F_Forward derives that every field is in range, that truncation to octets changes nothing and that the list is recognised in the same path-identifier form, which are the hypotheses of the UPDATE round trip C36. (P_Forward.v)

*Outcome.* False for every message holding an AGGREGATOR: it is received, and sent on with its payload unwritten, which decoding refuses (C101_aggregator_refuted). Proved for messages holding only what the encoders support, as `forwardable` says: no AGGREGATOR, PMSI tunnel or attribute set, four-octet AS numbers, at least one label per labelled route, MVPN types 1 and 2, operator flow rules with their announced length (C101_forward).

*Theorems.* `C101_forward`, `C101_aggregator_refuted`

### C102 Which routes stop the program — proved

*Claim.* For every address family, decoding a list of routes panics on exactly these octets and on no others: after routes that are read, one whose labels, route distinguisher bits, inner addresses or component values are cut or announced inconsistently, as written out per family (for plain prefixes only: a length of 249 or more in a build that checks arithmetic). Everything else a peer may send is either read or refused with an error.

*Model and method.* For each decoder the octets on which it panics are written as a predicate that uses only the readings of S_Exact; F_Panic to F_Panic3 prove the equivalence extractor by extractor, and a generic lemma lifts it to lists: a list panics when the items before are read and the next one panics. (P_Panic.v)

*Outcome.* The set is given by `nlri_crash` (S_Panic), family by family; C102_nlri_panics is an equivalence.

*Theorems.* `C102_nlri_panics`

### C103 Which attributes and UPDATEs stop the program — proved

*Claim.* Decoding a path attribute panics on exactly these payloads: communities and large communities of a ragged length, an originator id under four octets, a multiprotocol attribute whose header, next hop, SNPAs or routes are cut as written out, a PMSI tunnel with a cut identifier, an attribute set whose attributes panic or end within a header, an unknown type shorter than announced. Decoding an UPDATE panics exactly when, after what is read, its withdrawn routes, one of its attributes or its routes panic so, or the message itself ends within the header of an attribute.

*Model and method.* On top of C102 and C95: the next hop panics only where the announced slice is missing, SNPAs by induction on their count, attribute sets by induction on the length of the payload, the UPDATE area by cases on what stands at its front (a frame, a cut header, a length beyond the end). (P_Panic.v)

*Outcome.* `attr_crash` and `update_crash` (S_Panic); both theorems are equivalences, for every attribute type and every UPDATE.

*Theorems.* `C103_attribute_panics`, `C103_update_panics`

### C104 What is encoded depends on the value alone — partial

*Claim.* Encoding routes, an attribute, a message body, a whole message or a BMP message writes octets that are a function of the value (and session parameters): the same octets in every buffer large enough to hold them, whatever the buffer held before, with nothing else in the buffer changed; a buffer of exactly the returned length is large enough, and in a smaller one the encoding does not succeed.

*Model and method.* One predicate on encoders (`fit a e Q`: whenever `e` succeeds it replaces a block of octets beginning at `a` that depends on nothing but the value, in every buffer long enough) with a rule per primitive (F_Room), then one lemma per encoder up to whole BGP and BMP messages. The refutations show either an octet that keeps its old content (AGGREGATOR, FQDN) or a success that implies a buffer longer than the returned length (VPLS, EVPN, FlowSpec). (P_Room.v)

*Outcome.* Proved for every value outside five classes, and for each of those classes refuted for all members that can be encoded: AGGREGATOR (its value is never written, C104_aggregator_stale), OPEN with an FQDN capability (two octets never written), lists of VPLS routes (two more octets needed than returned), EVPN IP prefix routes with IPv6 addresses and fewer than six labels, FlowSpec components without a short value (C104_*_refuted). FlowSpec prefixes above 248 bits are not covered either way. For BMP the octets behind the message may be zeroed, so there only the front is claimed; embedded messages must fit in 16 bits.

*Theorems.* `C104_routes_partial`, `C104_attribute_partial`, `C104_message_partial`, `C104_send_partial`, `C104_bmp_partial`, `C104_aggregator_stale`, `C104_aggregator_refuted`, `C104_fqdn_refuted`, `C104_vpls_refuted`, `C104_evpn_refuted`, `C104_flowspec_refuted`

### C105 Which values stop the program when they are encoded — proved

*Claim.* Given enough room, encoding ends the program with a panic for exactly these values: routes with a prefix longer than its address (in a build without overflow checks not 249 to 255 bits, which wrap around), with overflow checks also labelled or VPN routes whose labels, route distinguisher and prefix announce more than 255 bits and IPv6 MDT routes of more than 63 bits, unless an earlier FlowSpec rule is refused; the PMSI tunnel and ATTR_SET attributes, and the multiprotocol attributes carrying such routes to a next hop that can be sent; an UPDATE that reaches such routes or attributes before an error; with overflow checks a message whose length modulo 65536 leaves no room for the header; BMP statistics reports, route mirroring, and BMP messages embedding such a message. Every other value gives octets or an error.

*Model and method.* A judgement `room e r` (from some size on, every buffer gives the outcome `r`, whatever it holds) with one rule per encoder primitive (F_Stop); every encoder is then shown to fall on exactly one side of its predicate (`either`), by cases on the arithmetic that can overflow, by induction on lists, and for UPDATE on the list of attributes with the running length (F_Stop2, F_Stop3). The predicates are in S_Stop and mention only fields of the values, except that sizes of attributes and of bodies are stated through what the encoder returns. (P_Stop.v)

*Outcome.* Both directions, for routes, attributes, message bodies, whole messages and BMP messages; hypotheses are what the Rust types say (prefix lengths are octets, an ESI has nine, a MAC address six). C105_fits: without overflow checks, messages with prefixes within their addresses and without PMSI tunnel and ATTR_SET never panic. That the buffer must be large enough is part of the claim; buffers too small are outside it.

*Theorems.* `C105_routes`, `C105_attribute`, `C105_message`, `C105_send`, `C105_bmp`, `C105_fits`

### C106 What is received bounds what is built — proved

*Claim.* No amplification: whatever octets arrive, the routes, labels, FlowSpec conditions, attributes, list elements and kept octets in the decoded value together are at most as many as the octets decoded (for an UPDATE decoded into a reused message: plus what the message held before). The same holds for routes of every address family, single attributes (plus one), OPEN, and BMP messages.

*Model and method.* From the exact readings of C94 to C100: every item read consumes at least as many octets as it counts and lies within the buffer, so that lists add up even where the decoder steps beyond or short of an item; attributes by induction on the length of the payload. (P_Size.v)

*Outcome.* Counted with addrs_size, attr_size, update_size, open_size and bmp_size of S_Size; the examples show the bound met with equality (one octet per default route).

*Theorems.* `C106_routes`, `C106_attribute`, `C106_update`, `C106_open`, `C106_bmp`, `C106_session`

### C107 How deep received attributes are nested — partial

*Claim.* The decoder, which calls itself for every attribute set inside an attribute set, does so to a depth that a peer cannot choose. (RFC 6368 gives no meaning to an attribute set inside another.)

*Model and method.* The same induction with depth for size; the refutation builds the nested octets and their reading by recursion and uses C96. (P_Size.v)

*Outcome.* False: the peer chooses the depth. C107_shallow_refuted: for every n up to 8190, an UPDATE of 12 + 8n octets decodes to n + 1 attribute sets one inside the other in every session with four-octet AS numbers. What holds is C107_depth: the depth is at most a seventh of the octets received. How much stack one level takes is not modelled.

*Theorems.* `C107_depth`, `C107_shallow_refuted`

### C108 Per-family entries built from a multiprotocol capability — partial

*Claim.* An entry for graceful restart, long-lived graceful restart or ADD-PATH built from a multiprotocol capability names the same address family as that capability (so it carries the family's registered AFI and SAFI) and carries the given flags and times; a stale time beyond 24 bits, and capabilities that name no such family, give an error and never a panic.

*Model and method.* M_Cap (`*_new_from_cap`), M_Session. Spec: `mp_code`/`safi_codes` tables, `plain_family` (S_Build). Case analysis over families; the swap refuted through `check_addpath_receive`. (P_Build.v)

*Outcome.* Proved for every capability: entries carry the codes of the multiprotocol capability (mp_code) and what was given; anything else is Err EOther, never a panic. The codes are the registered ones except for IPv4 multicast and labelled IPv4, which are swapped: C108_codes_refuted shows what a session then expects. Flow specifications are refused.

*Theorems.* `C108_entries`, `C108_refused`, `C108_codes_partial`, `C108_codes_refuted`

### C109 Announcements and values built with the constructors arrive as given — partial

*Claim.* The ready-made multiprotocol announcements (labelled and VPN routes with an IPv4 next hop), labelled routes built with or without labels, communities built from two halves and community lists built from vectors, when encoded into any buffer with room and decoded by the receiver, give what they were built from.

*Model and method.* M_Build over M_Attr/M_Addrs. Spec: S_Build `sent`/`received`/`room_for`/`same_elements`, wire functions of S_Attr. From the MP_REACH round trip (C47), the exact reading of labelled routes (C94) and the set laws of communities (C42). (P_Build.v)

*Outcome.* Proved for the IPv4 announcements (s4vpnv4u, s4vpnv4m, s4ip4lu), communities from halves and community lists from vectors. Refuted for all inputs: s4ip6lu is sent but every receiver refuses it, s4vpnv6u/s4vpnv6m never arrive with their next hop, Labeled::new_nl is sent as the unlabelled route and arrives with labels.

*Theorems.* `C109_vpnv4u_arrives`, `C109_vpnv4m_arrives`, `C109_ip4lu_arrives`, `C109_ip6lu_refuted`, `C109_vpnv6u_refuted`, `C109_vpnv6m_refuted`, `C109_new_nl_same`, `C109_new_nl_refuted`, `C109_community_from`, `C109_community_display`, `C109_community_vec`, `C109_extended_vec`, `C109_community_vec_arrives`

### C110 A buffer that is too small is an error, not a panic — partial

*Claim.* Encoding a value, which can be encoded in a large enough buffer, into a buffer that is too small for it returns an error; it never panics.

*Model and method.* M_Addrs, M_Attr, M_Open, M_Update, M_Peer encoders. Spec: S_Short (`prefix_routes`, `header_len`, `careful`, `cut_in_caps`, `bare`). Encoders by buffer length (`at_len`, F_Stop); prefix encoders have no error at all, so with C104 they panic in every buffer that is too short. (P_Short.v)

*Outcome.* True of NOTIFICATION, of attributes whose encoders look at the buffer (from their header on), of an UPDATE that says nothing, and of an OPEN unless cut where a capability begins or one octet further. Refuted for all inputs elsewhere: prefix lists, unknown attributes, withdrawals and announcements of prefixes, attribute headers, UPDATE (in some too short buffer exactly when it says something; in all that end within the withdrawn or announced routes), sending from less than 19 octets. Not characterised: announcements cut within the next hop, routes other than prefixes, BMP.

*Theorems.* `C110_attribute_partial`, `C110_attribute_exact`, `C110_header_refuted`, `C110_unknown_refuted`, `C110_withdrawal_refuted`, `C110_announcement_refuted`, `C110_routes_refuted`, `C110_notification`, `C110_open_partial`, `C110_open_refuted`, `C110_update_refuted`, `C110_update_partial`, `C110_withdrawn_refuted`, `C110_announced_refuted`, `C110_send_refuted`

### C111 A failed decode leaves the message object as it was — partial

*Claim.* When decode_from on an OPEN, UPDATE or NOTIFICATION object returns an error, the object is what it was before the call, so a caller may use it again or for the next message.

*Model and method.* M_State: the decoders with the assignments to `self` in place (a state monad that keeps the object on `Err` and panic), proved to agree with M_Open/M_Update. Spec: S_State (`finished`, `failed`, `upd_body`, `half_done`, `open_head`). Induction over the loops; the attribute loop reads only octets in front of its end (`attrs_local`). (P_State.v)

*Outcome.* Proved for NOTIFICATION and for an OPEN without a complete fixed part of version 4. Refuted for all inputs: any other OPEN overwrites the header and drops the old capabilities whether it fails or not; an UPDATE with a bad attribute behind good ones leaves its withdrawn routes and attributes, which then appear in the next UPDATE decoded into the object. C111_update_partial says exactly what stays for any failing UPDATE. C111_same_*: the model with the object agrees with the others.

*Theorems.* `C111_same_update`, `C111_same_open`, `C111_same_notification`, `C111_notification`, `C111_open_partial`, `C111_open_refuted`, `C111_update_partial`, `C111_update_refuted`, `C111_leak_refuted`

### C112 The prefixes a prefix covers form one run of the order — partial

*Claim.* For prefixes without host bits, p.contains(q) holds exactly when p <= q and q <= the prefix of full length at p's last address; so a BTreeMap or BTreeSet of prefixes can be searched for more-specific routes with one range query.

*Model and method.* M_Order and M_Prefix. Spec: S_Sort (`upto`, `last_covered`, `net_clean`). `contains` is equality of quotients by the host size (F_Prefix), the order is numeric on (address, length); arithmetic. (P_Sort.v)

*Outcome.* Proved for IPv4, IPv6 and BgpNet of these kinds. Refuted for every MAC prefix of length 1 to 47 (it holds of lengths 0 and 48, C112_mac_run_ends): MAC octets are stored, and hence compared, least significant first.

*Theorems.* `C112_run_partial`, `C112_v4_run`, `C112_v6_run`, `C112_mac_run_refuted`, `C112_mac_run_ends`

### C113 Routes are sorted by the values of their fields — proved

*Claim.* Ord on prefixes, routes and NLRI lists is the dictionary order of their fields: route type or family first; address, then length, then RD, then path identifier for prefixes; labels do not count; a list comes before its continuations.

*Model and method.* M_Order. Spec: S_Sort (`lex_lt`, a key for every type, `sorted_by`). Keys none of which continues another (`apart`) compose over fields, variants, lists and the wrappers. (P_Sort.v)

*Outcome.* MAC addresses count by their stored octets, least significant first; sizes of fixed arrays (ESI, MAC) are assumed as in the Rust types.

*Theorems.* `C113_prefixes`, `C113_vpn`, `C113_vpls`, `C113_mvpn`, `C113_evpn`, `C113_flowspec`, `C113_addrs`

### C114 A message too long for BGP is refused, not sent cut — partial

*Claim.* Encoding a message and preparing it for sending (prepare_message_buf, send_message_buf) either puts the whole message on the wire or returns an error; a message whose length the header cannot express is never sent as a shorter one.

*Model and method.* M_Session (`prepare_message_buf`), M_Peer (`send_message`), M_Update. Spec: S_Long (`message_well`, `extends`, `plain4`). The header depends on the length modulo 65536 only (`prepare_mod`); wire forms from C36/C80. (P_Long.v)

*Outcome.* Proved for bodies of at most 65516 octets (also above the 4096 of RFC 4271, which nothing enforces). Refuted for every longer body: the length is cast to u16, so a body of r + 65536 k octets is sent as its first r octets under a consistent header; for r above 65516 it panics or sends at most 18 octets. C114_routes_lost_refuted: IPv4 routes filling a multiple of 65536 octets vanish while the peer receives a good UPDATE with the rest.

*Theorems.* `C114_sent_whole_partial`, `C114_sent_cut_refuted`, `C114_garbled_refuted`, `C114_routes_lost_refuted`

### C115 A message cut short is refused as too short — partial

*Claim.* Given only the first octets of an encoded message, the decoder of OPEN, UPDATE, NOTIFICATION, the message headers and the BMP messages returns BgpError::InsufficientBufferSize; it neither accepts the fragment as a smaller message nor reports another kind of error.

*Model and method.* M_Open, M_Update, M_Session, M_Bmp. Spec: S_Cut (`between_params`, `upd_attrs_at`, `left_whole`, `left_pathid`, `left_prefix`, `told`). Wire forms are split at the cut (`params_split`, `items_split`); what precedes it decodes as in C13/C36. (P_Cut.v)

*Outcome.* Proved: OPEN cut anywhere but behind a parameter (or one octet further), UPDATE cut before its attributes, BMP header and per-peer messages without their fixed part, Initiation cut within a TLV, Termination cut within a value. Refuted, for every message: an OPEN cut behind a parameter is accepted with fewer capabilities; an UPDATE cut within its attributes gives ProtocolError, within a prefix a static error, and behind a route or within a path identifier it is accepted with fewer routes (C115_update_cases: these are all the cuts; `told` is the condition that the path-id guess is right on what is left, always met without fuzzy_pathid); a NOTIFICATION loses its data or half of it; message headers give a static error; a Termination loses its last TLV. BMP messages cut inside an embedded BGP message panic (C53).

*Theorems.* `C115_open_partial`, `C115_open_refuted`, `C115_update_partial`, `C115_update_refuted`, `C115_prefix_refuted`, `C115_routes_refuted`, `C115_update_cases`, `C115_notification_refuted`, `C115_header_refuted`, `C115_bmp_header`, `C115_bmp_partial`, `C115_initiation_partial`, `C115_termination_partial`, `C115_termination_refuted`, `C115_told`

### C116 The kind of an error says what is wrong — partial

*Claim.* BgpError::ProtocolError is returned exactly for UPDATE messages whose attributes overrun the room announced for them (directly or inside a BMP Route Monitoring) and never by an encoder; BgpError::TooManyData is returned only by encoders, exactly for data whose length does not fit its length field; BgpError::InsufficientBufferSize is returned only if more octets (for a decoder) or a larger buffer (for an encoder) would help; every other refusal carries a message text.

*Model and method.* All decoders and encoders of M_*. Spec: S_Kinds (`kinds`, `ekinds`, `update_overruns`, `evpn_long`). A kind-set lemma per decoder and encoder, parametric in the predicate on errors; the exact ProtocolError set by induction on the attribute area against `attr_reads` of C95. (P_Kinds.v)

*Outcome.* Proved: ProtocolError from an UPDATE iff its attributes overrun (C116_protocol), from no other decoder but BMP type 0 and the session decoder on it, from no encoder; TooManyData from no decoder; for UPDATE iff more than 65535 octets are withdrawn and fit the buffer, when no EVPN route is over 255 octets (C116_too_many_partial), and otherwise only because of such a route; OPEN, NOTIFICATION, capabilities and the other BMP messages never. Route lists report InsufficientBufferSize only in SAFIs 66/128/129, attributes only for types 14/15/128 or an empty ORIGIN, capabilities exactly when cut. Refuted for all: an empty ORIGIN gives InsufficientBufferSize whatever octets follow; a FlowSpec rule of 4093 tests or more gives it whatever the buffer. TooManyData is not given for overlong attributes, announced routes, capabilities (C41, C114: those panic or wrap). Text parsers only give message texts (C117_answers).

*Theorems.* `C116_protocol`, `C116_messages`, `C116_bmp`, `C116_routes`, `C116_attributes`, `C116_capabilities`, `C116_site`, `C116_missing_refuted`, `C116_no_protocol`, `C116_too_many_partial`, `C116_too_many_only`, `C116_never_too_many`, `C116_entries`, `C116_larger_buffer_refuted`

### C117 Which texts are read as prefixes, networks and MDT routes — proved

*Claim.* FromStr of BgpAddrV4, BgpAddrV6, BgpAddrMac, BgpNet and the MDT routes returns a value exactly for the texts of that notation and that value: for IPv6 the eight groups of RFC 4291 2.2, with :: for one or more groups of zeros and an IPv4 address in place of the last two; a network is an IPv4 prefix, or else an IPv6 prefix, or else a MAC prefix. Every other text, like every text for route distinguishers and communities, is answered with an error message and never with a panic.

*Model and method.* M_Text. Spec: S_Parse (`ipv6_groups`, `prefix_text`, `net_text`, `at_text`, `answers`), over the numerals and parts of S_Text. The recursive-descent reader is inverted group by group (`read_groups_inv`) and shown complete on each shape of text. (P_Parse.v)

*Outcome.* Exact grammar of what is accepted (S_Parse), including the leniencies refuted in C74 (an unusable length means the host length, text behind a second slash is ignored, MAC text is any text with a hexadecimal digit). The address parsers are std's, modelled after core/src/net/parser.rs.

*Theorems.* `C117_ipv6`, `C117_v6_prefix`, `C117_v4_prefix`, `C117_mac_prefix`, `C117_net`, `C117_families`, `C117_mdt_v4`, `C117_mdt_v6`, `C117_answers`

### C118 Equality, order and hash of path attributes — partial

*Claim.* For BgpAttrItem (and BgpAddr), Eq is an equivalence that ignores label stacks (and, for AS paths, in which half a 16-bit AS number is stored), Ord is a total order by kind in declaration order and then by fields, consistent with Eq; equal attributes hash alike; partial_cmp agrees with cmp. This holds also for attributes nested in ATTR_SET at any depth.

*Model and method.* M_Traits over the derive combinators of M_Order: one layer of `BgpAttrItem` with the order of nested attributes as parameter, iterated to the nesting depth of the values at hand. Spec: S_Order, S_Traits (`attr_norm`, `attr_unlabel`, `attr_key`). The laws hold at every depth by induction (`laws_g`), and do not depend on the depth once it suffices (`depth`). (P_Traits.v)

*Outcome.* Proved: exact equality, total order, sort keys, hash for all attributes at any nesting. Refuted: attributes with an AS path holding a 16-bit AS number in the upper half are equal but ordered and hashed apart from those holding it in the lower half; partial_cmp of an attribute with itself is None exactly when a label-bearing VPLS or EVPN route or a PMSI tunnel is inside. The hash is the sequence of numbers fed to the Hasher.

*Theorems.* `C118_equality`, `C118_order`, `C118_lawful`, `C118_aspath_refuted`, `C118_sort_order`, `C118_communities`, `C118_partial_cmp`, `C118_partial_cmp_refuted`, `C118_pmsi_refuted`, `C118_next_hops`

### C119 Equality, order and hash of capabilities and OPEN messages — proved

*Claim.* For BgpCapability and BgpOpenMessage, Eq is sameness of all fields, Ord is a total order (by kind in declaration order, then by the fields in order, strings octet by octet) consistent with Eq, equal values hash alike, and partial_cmp agrees with cmp. The equality used by capability negotiation is this one.

*Model and method.* M_Traits. Spec: S_Order `ord_laws`, S_Sort `sorted_by` with the keys of S_Traits; by the combinators of F_Order and F_Sort. (P_Traits.v)

*Outcome.* The hash is the sequence of numbers fed to the Hasher; String is the list of its octets.

*Theorems.* `C119_laws`, `C119_sort_order`, `C119_negotiation`

### C120 The Debug text of OPEN messages, session parameters and BMP messages identifies the value — proved

*Claim.* Two capabilities, OPEN messages, session parameters, BMP messages, peer headers, session keys, BMP headers or message types printed with {:?} give the same text exactly if they are the same value, whatever strings they carry (host names, system names, free text with quotes, backslashes, control characters or any other Unicode) and whichever characters beyond ASCII Rust prints unescaped. A quoted string ends where its text says, whatever follows it.

*Model and method.* M_Debug2 (texts of `derive(Debug)` and of `str`, the latter over an arbitrary table of printable characters). Spec: S_Debug2 (`cap_any`, `bmp_any`, ...), S_Exact3 `utf8`. Characters are a prefix code (`char_prefix`), so a quoted string tells its contents and its end (`chars_told`); structs and variants by the `told` lemmas of F_Debug. (P_Debug2.v)

*Outcome.* Strings are UTF-8 (the invariant of String) and addresses have 32 or 128 bits (update_any for UPDATE messages); these conditions are shown to hold of everything decoded (C125).

*Theorems.* `C120_strings`, `C120_strings_end`, `C120_capability`, `C120_open`, `C120_params`, `C120_msgtype`, `C120_peer`, `C120_key`, `C120_header`, `C120_bmp`, `C120_received_open`, `C120_received_initiation`, `C120_received_termination`

### C121 Debug texts stay on one line — proved

*Claim.* Whatever a peer or a monitored router sends, the {:?} text of an attribute, route list, UPDATE, OPEN, session parameters or BMP message contains no line break and no other ASCII control character: strings received from outside cannot forge log lines.

*Model and method.* M_Debug, M_Debug2. Spec: S_Debug2 `one_line`. By induction over the descriptions of the types (`dbg_line`) and the characters of strings (`char_line`). (P_Debug2.v)

*Outcome.* ASCII control characters: octets below 32 and 127. Which characters beyond ASCII are escaped is a parameter. {:#?} is not modelled.

*Theorems.* `C121_strings`, `C121_attribute`, `C121_routes`, `C121_update`, `C121_open`, `C121_params`, `C121_bmp`

### C122 prefixlen() is the length that goes over the wire — partial

*Claim.* For every route type (IPv4 and IPv6 prefixes, MPLS-labelled and VPN routes, MDT routes) the number given by prefixlen() is the length octet the encoder writes in front of the route and tells how many octets it occupies, (bits+7)/8; a decoded route reports the length octet it was read with.

*Model and method.* M_Small (`prefixlen` of each type). Spec: S_Small `written_as`, `read_as`, `read_exact`. By inversion of the encoders and decoders; labels by induction (`labels_write_val`, `labels_loop_val`). (P_Small.v)

*Outcome.* False for MDT routes (C122_mdt_refuted): prefixlen leaves out the group address, so the octet written differs from it by 32 or 128 for every route (C122_mdt). For all other types proved; in a release build lengths of 256 bits and more wrap, so the octet is the number modulo 256 there.

*Theorems.* `C122_v4_written`, `C122_v6_written`, `C122_labeled_written`, `C122_withrd_written`, `C122_read`, `C122_read_exact`, `C122_families`, `C122_mdt_refuted`, `C122_mdt`

### C123 IPv6 multicast test is exact — proved

*Claim.* is_multicast on an IPv6 prefix answers true exactly when the prefix's address lies in ff00::/8.

*Model and method.* M_Small `v6_is_multicast`. Spec: S_Prefix `member` (agreement of the leading bits). (P_Small.v)

*Outcome.* Proved in full.

*Theorems.* `C123_multicast`

### C124 util::slice returns the part asked for or an error — proved

*Claim.* slice(buf, start, end) returns exactly the elements at positions start..end when start <= end <= len and InsufficientBufferSize otherwise; no bounds make it panic.

*Model and method.* M_Small `util_slice`. The slice is characterised by concatenation, not by firstn/skipn. (P_Small.v)

*Outcome.* slice_mut is the same function on a mutable slice and is not modelled separately.

*Theorems.* `C124_slice`, `C124_fails`

### C125 What arrives is in range, and can be logged and stored without loss — partial

*Claim.* Every route list, path attribute, UPDATE and BMP message decoded from any octets holds only values its types and invariants allow: integers in range, sets in order without duplicates, UTF-8 strings, and prefixes no longer than their address family. Hence two received UPDATEs or BMP messages print the same {:?} text exactly if they are the same, and every received attribute or route list comes back from serde unchanged.

*Model and method.* No new code. Spec: the ranges of S_Serde2, S_Debug and S_Debug2, and S_Ranges `lens_ok`. From the exact readings of C94-C100 by induction over them (`nlri_good`, `attr_reads_good`, `bmp_reads_any`); then C85, C90 and C120 apply. (P_Ranges.v)

*Outcome.* Proved in full but for two exceptions that are refuted: an EVPN type 5 route keeps any length octet with its IPv4 address (C125_evpn_refuted), and FlowSpec lists do not come back from serde (C85, C86). An UPDATE decoded into a message that already holds attributes keeps those (C38).

*Theorems.* `C125_routes`, `C125_attribute`, `C125_update`, `C125_bmp`, `C125_session`, `C125_update_logged`, `C125_bmp_logged`, `C125_attribute_stored`, `C125_routes_stored`, `C125_evpn_refuted`

### C126 Lists of routes can be put together and taken apart — partial

*Claim.* If the octets of a route list decode to their end, then any octets behind them decode exactly as they do alone: the result is both lists of routes in order, or the same error. Encoding a list is encoding its first part and then the rest behind it. So announcing or withdrawing routes in one UPDATE is the same as in several.

*Model and method.* No new code. Spec: S_Join `comes_after`, `written_after` (Ok, errors, panics) and `addrs_join`. The decoding loops are shown to proceed one step at a time (`dec_all_step`, `pid_all_step`) and every reading of C94 to be local (`local`: octets that follow do not change it). The four encoding loops are one loop (`items_one` ..) that commutes with `on_from`. (P_Join.v)

*Outcome.* Proved for all families and for UPDATE. Two exceptions are refuted: FlowSpec prefixes, which lose the first octet of what follows (C126_flowspec_refuted), and lists in which path identifiers are guessed, as they are by default (C126_guess_refuted: two default routes in a row). Where path identifiers are expected, up to four octets left over at the end of a list are the start of the next entry once something follows; the hypothesis length b1 <= n1 rules that out. Writing assumes that the length returned for the first list is not beyond the buffer.

*Theorems.* `C126_read`, `C126_written`, `C126_unwritten`, `C126_announced`, `C126_withdrawn`, `C126_flowspec_refuted`, `C126_guess_refuted`

### C127 The order of the attributes of an UPDATE does not matter — proved

*Claim.* If the attributes of an UPDATE arrive in another order, it decodes to the same routes and the same attributes in that order. If no attribute occurs twice, every getter returns the same.

*Model and method.* No new code. From C96: the attribute area is read frame by frame (`area_frames`), so permuted frames give permuted attributes; with distinct type codes the first of a kind is the only one. (P_Join.v)

*Outcome.* Proved in full.

*Theorems.* `C127_reordered`, `C127_getters`

### C128 A larger buffer does not change what is encoded — partial

*Claim.* If a value can be encoded into a buffer, then it is encoded into every longer buffer which begins alike: the same length is returned, the same octets are written, and what is behind the shorter buffer's end is left alone. This holds for values the library encodes wrongly as well. A BMP message erases what is behind it if it carries an IPv4 address in a BMP address field; else it leaves it alone.

*Model and method.* No new code. Spec: S_Grow `same_in_larger`. `up Z e e'` (F_Grow) relates two runs on a buffer and a longer one, where Z says what may become of the rest; it is closed under all combinators, tests on the length included, and proved for every encoder. With Z = equality it is the claim; for BMP the rest is exactly determined by `bmp_clears`. (P_Grow.v)

*Outcome.* Proved for all encoders of BGP and BMP messages. False of `fill_buffer` called directly for the capabilities that are copied from a literal: it panics on every buffer which is longer than the capability (C128_capability_refuted). In an OPEN it is given a slice of the exact length.

*Theorems.* `C128_routes`, `C128_attribute`, `C128_message`, `C128_sent`, `C128_header`, `C128_capability`, `C128_capability_refuted`, `C128_bmp`

### C129 What of a session has an influence on messages — proved

*Claim.* Two sessions read all UPDATE messages alike exactly if they have the same transport, the same size of AS numbers, expect path identifiers in the same address families, and agree on guessing them in the others. They write all UPDATE messages alike exactly if they have the same transport and size of AS numbers. AS number, hold time, router id and all other capabilities have no influence; path identifiers are written whether or not ADD-PATH was agreed.

*Model and method.* No new code. Spec: S_Hear `hear_alike`, `speak_alike`. One direction by induction over the decoders and encoders; the other from witnesses: an UPDATE with one NEXT_HOP, one AS_PATH, and for each of the twelve families an empty list and a route that begins with two zeros. (P_Hear.v)

*Outcome.* Proved in full.

*Theorems.* `C129_heard`, `C129_messages`, `C129_attributes`, `C129_routes`, `C129_stream`, `C129_spoken`, `C129_sent`, `C129_addpath_ignored`

### C130 A BMP stream is received as it was sent — proved

*Claim.* A station which cuts the stream of a router by the common header and decodes each message in a BMPSession receives, for every conversation, the messages the router sent, in order, however many peers there are and however their going up and down is interleaved, provided every UPDATE is written as the peer's last OPEN says (or as the default session does if the peer is not up). An incomplete message at the end is left for later; it does not matter in which parts the stream arrives; and a message which cannot be decoded costs that message and nothing else.

*Model and method.* No new code; `station` in S_Station is the reading loop a program writes around `BmpMessageHeader::decode_from` and `BMPSession::decode_from`. `told` says what is sent and what is to be received, by the latest word of the messages sent (`up_after`), without the table. By induction over the conversation; parts by induction over the octets. (P_Station.v)

*Outcome.* The loop that reads the header, takes the octets and calls the session is the user's; it is written in S_Station (`station`), the calls are the modelled ones. IPv6 addresses in ::/96 are excluded as in C49.

*Theorems.* `C130_stream`, `C130_parts`, `C130_survives`

### C131 Peers of a BMP session do not influence each other — partial

*Claim.* How the routes of a peer are read depends on the last message that says this peer is up or down and on nothing else that was received. A peer is what RFC 7854 says it is: type, distinguisher and address; and what the flags of the per-peer header say about the UPDATE is honoured.

*Model and method.* No new code. Spec: `last_word` (the last buffer that decodes to a PeerUp or PeerDown of the peer). The table entry is shown to be its contents; the rest follows because decoding reads the table at the key only, and from C129. Refutations from the exact reading of AS paths (C92). (P_Station.v)

*Outcome.* Proved for peers as RD and address (C131_isolation), and that nothing else of the per-peer header has an influence (C131_header). Hence false of flags and type: a path of two-octet AS numbers under the A flag is read as another path, for every path (C131_legacy_refuted); a peer of another type with the same RD and address going down takes the session away (C131_type_refuted).

*Theorems.* `C131_isolation`, `C131_header`, `C131_legacy_refuted`, `C131_type_refuted`

### C132 The example client keeps its session up — partial

*Claim.* The thread the example client starts after the OPENs have been exchanged sends KEEPALIVE messages often enough that the peer's hold timer, which runs for the smaller of the two hold times proposed, never expires; never two within a second; and none when the hold time is 0. The program opens a session to every AS number it is given.

*Model and method.* M_Client: the octets written, the pause, the loop with its clock, the parameters of `main`. Spec: agreed hold time = minimum (RFC 4271 4.2), `kept_up`, `expires`, `paced` over the log of the loop. Through C81_start; the log is computed by induction over the rounds. (P_Client.v)

*Outcome.* Kept up exactly when a third of the peer's hold time is at most one's own (C132_alive_partial; for the program as it is run: at most 542 seconds, C132_main); false otherwise, for all such pairs, because the client takes the peer's hold time for the agreed one (C132_expires_refuted). Paced exactly from a hold time of 3 on (C132_pace_partial); for 0, 1 and 2 any number of keepalives leaves without a pause (C132_flood_refuted). Writing to the stream is taken to need no time.

*Theorems.* `C132_octets`, `C132_alive_partial`, `C132_expires_refuted`, `C132_pace_partial`, `C132_flood_refuted`, `C132_main`

### C133 What errors say — partial

*Claim.* The text of an error is what the error says, verbatim after `BgpError `, and Debug tells any two errors apart and stays on one line. An unknown address family is refused whatever the octets, alike in announcements and withdrawals, and the text of the error says which family it was.

*Model and method.* M_Error: error.rs and the two families of error texts. Spec: `says`, `kind_of`, `same_error`, `known_afi`. The errors are tied to the modelled decoders by their class. Debug by the lemmas of C120/C121, numbers by injectivity of decimal notation. (P_Error.v)

*Outcome.* Texts proved (C133_display, C133_debug, C133_debug_line) with the kind not told by Display, for every error (C133_kind_refuted). Families proved (C133_family, C133_attributes, C133_names) except that the SAFI is not named when the AFI is unknown (C133_safi_refuted, C133_afi) and that IPv6 FlowSpec, and nothing else, is read in withdrawals but refused in announcements (C133_one_way_refuted). The texts of the other errors of the decoders are not modelled.

*Theorems.* `C133_display`, `C133_kind_refuted`, `C133_debug`, `C133_debug_line`, `C133_family`, `C133_attributes`, `C133_names`, `C133_afi`, `C133_safi_refuted`, `C133_one_way_refuted`

### C134 End-of-RIB markers — partial

*Claim.* An End-of-RIB marker (RFC 4724) of every address family the library knows is read, whatever the attribute flags and the form of the length, as an UPDATE without routes whose only attribute withdraws nothing of that family, and the family can be told from the empty list; the marker of the session's own plain routes is an UPDATE without anything. Nothing but a marker is read as one. An UPDATE built that way is sent as exactly the octets of the marker; the marker of an unknown family is refused.

*Model and method.* S_Eor: the octets of RFC 4724 written out, the empty list of each family as a table, what a caller sees. Derived from the exactness of NLRI lists, attributes and UPDATE (C94-C96) and, for sending, from the wire form of UPDATE (C36). (P_Eor.v)

*Outcome.* Reading, telling the family, refusing and sending proved (C134_read, C134_read_plain, C134_family, C134_unknown, C134_sent, C134_sent_plain); the octets read as markers are characterised exactly (C134_exact, C134_exact_plain). Nothing else is read as a marker only where path identifiers are not received (C134_only_partial, C134_only_plain_partial): where they are, up to four octets of a route cut off within its identifier are taken for the end of the table (C134_cut_refuted, every such octets).

*Theorems.* `C134_read`, `C134_read_plain`, `C134_family`, `C134_unknown`, `C134_exact`, `C134_exact_plain`, `C134_only_partial`, `C134_only_plain_partial`, `C134_cut_refuted`, `C134_sent`, `C134_sent_plain`

### C135 Debug and release builds give the same answers — partial

*Claim.* A build with overflow checks and one without give the same answer - the same value with the same octets consumed or written, or the same kind of error - to every call: prefix operations, lists of routes, path attributes, messages, UPDATE decoded into a used object (with what is left in it), the OPEN exchange, reading messages off a stream, BMP messages and sessions; unless the checked build stops with a panic. The example client has done the same until then.

*Model and method.* S_Builds: agreement of two answers, of two answers with state, of two traces. The relation is a congruence for every combinator of the model, holds for the three checked arithmetic operations, and is carried through every function by structural or fuel induction. (P_Builds.v)

*Outcome.* Agreement unless the checked build panics proved for every modelled entry point (C135_prefixes .. C135_bmp_session; C135_answers says what follows for a caller). That the builds agree everywhere is false: on every header announcing a message shorter than the header the checked one stops and the other announces a body of more than 65500 octets (C135_same_refuted); C102-C105 say where the checked one stops.

*Theorems.* `C135_answers`, `C135_prefixes`, `C135_routes`, `C135_routes_sent`, `C135_attributes`, `C135_attributes_sent`, `C135_header`, `C135_messages`, `C135_update_left`, `C135_messages_sent`, `C135_exchange`, `C135_stream`, `C135_client`, `C135_bmp`, `C135_bmp_sent`, `C135_bmp_session`, `C135_same_refuted`

### C136 Routes are the same wherever an UPDATE carries them — proved

*Claim.* Octets that describe routes of the session's own family are accepted in the withdrawn routes, behind the attributes, in MP_REACH_NLRI and in MP_UNREACH_NLRI alike, as the same list, with nothing appearing elsewhere; a list of that family is sent as the same octets from each of these places.

*Model and method.* S_Place: the octets of an UPDATE with routes in one place, the room it has, what the caller sees. Reading is derived from the exactness of UPDATE and attributes (C95, C96), sending from the wire form of UPDATE (C36). (P_Place.v)

*Outcome.* Reading from any place to any other with room for the octets (C136_read, which also says that nothing appears elsewhere), sending from every place (C136_sent).

*Theorems.* `C136_read`, `C136_sent`

### C137 A flow specification rule of several components is reported whole or refused — partial

*Claim.* A received flow specification whose rule has several components (RFC 8955: all must match) is either reported with all of them or refused; a rule of one component is reported as that component whatever follows it.

*Model and method.* S_FsRule: the octets of a rule of several components, what it means that a component has further alternatives. The item loop of the model ignores the end-of-list bit as the code does; the prefix arms stop at the prefix. The list decoder is followed only for a rule at the end of the list with one prefix and one test; what it makes of other octets left inside a rule is not stated. (P_FsRule.v)

*Outcome.* False, and characterised for every rule. A rule that begins with a prefix is always reported as the prefix alone, with the count ending inside the rule (C137_prefix4_refuted, C137_prefix6_refuted). A rule that begins with another component is never reported as sent: if accepted, the octets of the other components have become alternatives of the first (C137_oper_refuted), and this happens to every such component (C137_accepted_refuted). A rule of one operator component is read as sent (C137_alone_partial); for one prefix see C21. A list of routes that ends with a prefix and one test of one octet is never accepted: with a value from 1 to 13 (TCP, ICMP) the program panics, else it is refused (C137_list4_refuted, C137_list6_refuted).

*Theorems.* `C137_alone_partial`, `C137_prefix4_refuted`, `C137_prefix6_refuted`, `C137_oper_refuted`, `C137_accepted_refuted`, `C137_list4_refuted`, `C137_list6_refuted`

### C138 The next hop of a multiprotocol announcement is the one that was sent — partial

*Claim.* For every family, the next hop of a received MP_REACH_NLRI, in each form the RFCs allow for the family (an IPv4 address, an IPv6 address with or without a link-local address, either behind a route distinguisher, none for flow specifications), is reported as sent, with the routes behind it; a form that is not supported is refused; the reserved octet behind the next hop is ignored (RFC 4760).

*Model and method.* S_Hop: the octets of a next hop in each form, of an announcement without SNPA, and the outcome (the routes as the route decoder reads them, with the next hop). S_Snpa: any octet in place of the reserved one, and what is left behind SNPAs. Every theorem is for arbitrary octets of routes. (P_Hop.v, P_Snpa.v)

*Outcome.* Holds for the forms the code knows, all families and all octets of routes (C138_known_partial). Otherwise false: an IPv6 next hop of IPv4, VPLS and EVPN routes is always reported as the IPv4 address in its first four octets (C138_ipv6_refuted), likewise behind a route distinguisher when accepted (C138_vpn_ipv6_refuted); the link-local half of a VPN-IPv6 next hop is read as routes (C138_vpn_local_refuted); flow specifications without next hop, and all IPv6 flow specifications, are refused (C138_flow_refuted). The reserved octet is not ignored: for every value of it as many SNPAs are dropped from the routes, and the program stops if there are too few octets (C138_reserved_refuted, C138_reserved_stops). VPN flow specifications without a next hop, if accepted, are reported with one made of their octets (C138_flow_vpn_refuted).

*Theorems.* `C138_known_partial`, `C138_ipv6_refuted`, `C138_vpn_ipv6_refuted`, `C138_vpn_local_refuted`, `C138_flow_refuted`, `C138_reserved_refuted`, `C138_reserved_stops`, `C138_flow_vpn_refuted`

### C139 The grouping of capabilities in OPEN does not matter — partial

*Claim.* The capabilities of a received OPEN are the same, in the same order, however the peer spread them over optional parameters (RFC 5492: one parameter with all of them, one for each, or anything between), and each is read as if it came alone; an OPEN with a parameter of another type is refused; parameters in the extended form of RFC 9072 are read too; octets that are no parameter are noticed.

*Model and method.* S_Group: the octets of capabilities, of groups of them in parameters of type 2 and of an OPEN around them. The theorems compare answers of the decoder for different octets, or name the answer; they say nothing of what one capability means (C98 does). (P_Group.v)

*Outcome.* Regrouping never changes the answer, be it a message or an error (C139_grouping); the capabilities are those of the parts read alone (C139_one_by_one); a parameter of another type behind accepted ones is refused (C139_other). False: every OPEN with parameters in the extended form of RFC 9072 is refused (C139_extended_refuted), and one stray octet behind the last parameter is not noticed (C139_stray_refuted).

*Theorems.* `C139_grouping`, `C139_one_by_one`, `C139_other`, `C139_extended_refuted`, `C139_stray_refuted`

### C140 Missing and repeated attributes of an UPDATE — partial

*Claim.* The attributes of an UPDATE are read independently of each other; an UPDATE with routes that lacks a mandatory attribute, or has MP_REACH_NLRI or MP_UNREACH_NLRI twice, is refused, of other repeated attributes only the first is kept (RFC 4271 6.3, RFC 7606 3), and a getter says None exactly when no attribute of its type was received.

*Model and method.* S_Once: absence of a type among the received attributes, equality of all getters. UPDATE bodies are put together as in C127 (frames of flags, type and payload). (P_Once.v)

*Outcome.* Proved: attributes are read independently (C140_parts), absence is visible through the getters (C140_seen), and a repetition does not change any getter (C140_first_partial). False for all inputs: no attribute is required (C140_missing_refuted), and a repeated attribute, also MP_REACH_NLRI and MP_UNREACH_NLRI, is accepted and kept in the list (C140_repeated_refuted).

*Theorems.* `C140_parts`, `C140_seen`, `C140_first_partial`, `C140_missing_refuted`, `C140_repeated_refuted`

### C141 The flags of received attributes — partial

*Claim.* Whether the length of a received attribute takes one octet or two does not change its meaning; flags that contradict the type of a known attribute are an error, the partial bit is kept, an unknown well-known attribute is an error, an unknown optional non-transitive one is ignored and an unknown transitive one is kept (RFC 4271 4.3, 6.3 and 9).

*Model and method.* S_RFlag: two lists of received attributes that differ in nothing but flags of known types. UPDATE bodies are put together as in C127. (P_RFlag.v)

*Outcome.* Proved: the form of the length does not matter, and an unknown attribute is kept as it came. False for all inputs: the flags of known attributes have no influence whatever (C141_flags_refuted for UPDATE, C141_attribute for one attribute and every outcome), so contradictions are accepted and the partial bit is lost; unknown attributes are kept also if their flags say well-known or non-transitive (C141_unknown_refuted).

*Theorems.* `C141_flags_refuted`, `C141_attribute`, `C141_unknown_refuted`

### C142 Which OPENs are acceptable — partial

*Claim.* A received OPEN is refused if its version is not 4, its hold time is one or two seconds, its router id is zero (RFC 4271 6.2) or its AS number is zero (RFC 7607); a four-octet AS number (RFC 6793) is the AS number of the session made from it, and one that contradicts the two-octet field is an error.

*Model and method.* The octets of an OPEN are those of S_Group (C139). (P_Accept.v)

*Outcome.* Proved: other versions are refused (C142_version), a four-octet AS number becomes that of the session parameters whatever the other field says (C142_as4). False for all inputs: whether an OPEN of version 4 is accepted, and with which error it is refused, does not depend on its AS number, hold time and router id (C142_values_refuted, C142_errors), and a contradiction between the AS numbers is not an error (C142_as4).

*Theorems.* `C142_version`, `C142_values_refuted`, `C142_errors`, `C142_as4`

### C143 Padding bits of a received prefix are irrelevant — partial

*Claim.* Two encodings of an IPv4 or IPv6 prefix that differ only in the bits behind the prefix length are received as the same prefix (RFC 4271 4.3: the value of the trailing bits is irrelevant): equal values, with the same member addresses.

*Model and method.* S_Pad says when octets agree in the bits of the prefix; the values read are those of the exact NLRI grammar of S_Exact, membership is that of C02 and C03. (P_Pad.v)

*Outcome.* Proved for all lengths and octets: encodings that differ only in the padding hold the same member addresses (as in_subnet answers). False for all inputs: they are received as different values (C143_v4_refuted, C143_v6_refuted).

*Theorems.* `C143_v4_refuted`, `C143_v6_refuted`

### C144 The label of a route does not identify it — partial

*Claim.* A labelled or VPN route received with another label in its one label entry is the same route: accepted alike, equal, and with the same hash, so that a withdrawal (RFC 8277 2.4: any value in the field, to be ignored) matches the announcement; the bottom-of-stack bit is ignored on receipt (RFC 8277 2.2).

*Model and method.* The readings are those of the exact NLRI grammar (C94), equality and hash those of C66. (P_Relabel.v)

*Outcome.* Proved for entries that end the label stack, by the bottom bit or a special value (C144_label, C144_label_path_id). False for all others: the bit is not ignored, octets of the prefix are taken as another label; IPv4 prefixes of 1 to 23 bits stop a program with overflow checks (C144_bottom_refuted) and what is accepted has at least two labels (C144_more_labels_v4_refuted, C144_more_labels_v6_refuted). The refutations are for sessions without path identifiers for the family.

*Theorems.* `C144_label`, `C144_label_path_id`, `C144_bottom_refuted`, `C144_more_labels_v4_refuted`, `C144_more_labels_v6_refuted`

## Testing the theorems against wrong programs

`seeded/LOG.jsonl` records the mutations tried. Each one edits a single definition of the model (a realistic
mistake, or a repair of a defect listed above), in a scratch copy; every lemma that no longer proves is admitted and the
build is continued, so that the property theorems resting on it show up through `Print Assumptions`. `failed` lists the
property theorems that were lost; `tightened` lists theorems added or strengthened because the mutation had broken
a claim without breaking a theorem.
