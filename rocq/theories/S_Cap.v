(** Specification of the wire format of BGP capabilities (RFC 5492 framing,
    RFC 4760, 4724, 6793, 7911, 9494, draft-walton-bgp-hostname-capability),
    independent of the code. *)
From Verif Require Import Base M_Cap.

(** AFI and SAFI announced for an address-family capability. *)
Definition mp_code (s : safi) : N * N :=
  match s with
  | SafiIPv4u => (1, 1) | SafiIPv4lu => (1, 2) | SafiIPv4m => (1, 4) | SafiIPv4mvpn => (1, 5)
  | SafiIPv4mdt => (1, 66) | SafiVPNv4u => (1, 128) | SafiVPNv4m => (1, 129)
  | SafiIPv4fu => (1, 133) | SafiVPNv4fu => (1, 134)
  | SafiIPv6u => (2, 1) | SafiIPv6lu => (2, 4) | SafiIPv6mdt => (2, 66)
  | SafiVPNv6u => (2, 128) | SafiVPNv6m => (2, 129) | SafiIPv6fu => (2, 133)
  | SafiVPLS => (25, 65) | SafiEVPN => (25, 70)
  end.

Definition gr_wire (g : capGR) : list N :=
  be_bytes 2 (gr_afi g) ++ [gr_safi g; if gr_fwd g then 128 else 0].
Definition ll_wire (g : capLLGR) : list N :=
  be_bytes 2 (ll_afi g) ++ [ll_safi g; ll_flags g] ++ be_bytes 3 (ll_stale g).
(** RFC 7911: 1 = receive, 2 = send, 3 = both *)
Definition ap_wire (g : capAP) : list N :=
  be_bytes 2 (ap_afi g) ++
  [ap_safi g; match ap_send g, ap_receive g with
              | false, false => 0 | false, true => 1 | true, false => 2 | true, true => 3 end].

(** code and payload *)
Definition cap_code (c : bgpcap) : N :=
  match c with
  | CapMP _ => 1 | CapGR _ _ _ => 64 | CapASN32 _ => 65 | CapRR => 2 | CapAddPath _ => 69
  | CapEnhancedRR => 70 | CapLLGR _ => 71 | CapFQDN _ _ => 73 | CapBFD => 74
  end.
Definition cap_payload (c : bgpcap) : list N :=
  match c with
  | CapMP s => be_bytes 2 (fst (mp_code s)) ++ [0; snd (mp_code s)]
  | CapGR st t v => be_bytes 2 (if st then 32768 + t else t) ++ concat (map gr_wire v)
  | CapASN32 n => be_bytes 4 n
  | CapAddPath v => concat (map ap_wire v)
  | CapLLGR v => concat (map ll_wire v)
  | CapFQDN h d => N.of_nat (length h) :: h ++ N.of_nat (length d) :: d
  | CapRR | CapEnhancedRR | CapBFD => []
  end.
Definition cap_wire (c : bgpcap) : list N :=
  cap_code c :: N.of_nat (length (cap_payload c)) :: cap_payload c.

Definition gr_wf (g : capGR) : Prop := gr_afi g < 65536 /\ gr_safi g < 256.
Definition ll_wf (g : capLLGR) : Prop :=
  ll_afi g < 65536 /\ ll_safi g < 256 /\ ll_flags g < 256 /\ ll_stale g < 2 ^ 24.
Definition ap_wf (g : capAP) : Prop := ap_afi g < 65536 /\ ap_safi g < 256.
Definition payload_wf (c : bgpcap) : Prop :=
  match c with
  | CapGR _ t v => t < 4096 /\ Forall gr_wf v
  | CapASN32 n => n < 2 ^ 32
  | CapAddPath v => Forall ap_wf v
  | CapLLGR v => Forall ll_wf v
  | CapFQDN h d => bytes_ok h /\ bytes_ok d /\ utf8_ok h = true /\ utf8_ok d = true
  | _ => True
  end.
(** field values in range and payload not longer than 255 octets *)
Definition cap_wf (c : bgpcap) : Prop :=
  payload_wf c /\ (length (cap_payload c) < 256)%nat.

Definition is_fqdn (c : bgpcap) : Prop := exists h d, c = CapFQDN h d.

(** Capability codes the library interprets. *)
Definition known_codes : list N := [1; 2; 64; 65; 69; 70; 71; 73; 74].
