(** Specification of path attributes. *)
From Verif Require Import Base M_Util S_Wire M_Nlri S_Nlri M_Vpls M_Mvpn S_Mvpn M_Cap M_Open M_Session M_Addrs S_Addrs M_Attr.

(** ** Codes *)

(** IANA's registry of BGP path attributes *)
Definition attr_code (a : attr) : N :=
  match a with
  | AOrigin _ => 1
  | AASPath _ => 2
  | ANextHop _ => 3
  | AMED _ => 4
  | ALocalPref _ => 5
  | AAtomicAggregate _ => 6
  | AAggregatorAS _ _ => 7
  | ACommunityList _ => 8
  | AOriginatorID _ => 9
  | AClusterList _ => 10
  | AMPUpdates _ _ => 14
  | AMPWithdraws _ => 15
  | AExtCommunityList _ => 16
  | AConnector _ _ _ => 20
  | APMSITunnel _ => 22
  | ALargeCommunityList _ => 32
  | AAttrSet _ _ => 128
  | AUnknown tc _ _ => tc
  end.
(** the type codes the library interprets *)
Definition known_codes : list N := [1; 2; 3; 4; 5; 6; 7; 8; 9; 10; 14; 15; 16; 20; 22; 32; 128].
(** flag octet (RFC 4271 4.3): optional 128, transitive 64, partial 32, extended length 16 *)
Definition fl_optional (f : N) : bool := N.testbit f 7.
Definition fl_transitive (f : N) : bool := N.testbit f 6.
Definition fl_partial (f : N) : bool := N.testbit f 5.
Definition fl_extended (f : N) : bool := N.testbit f 4.
(** (optional, transitive) as the RFCs define each attribute *)
Definition rfc_class (a : attr) : bool * bool :=
  match a with
  | AOrigin _ | AASPath _ | ANextHop _ | ALocalPref _ | AAtomicAggregate _ => (false, true)
  | AMED _ | AOriginatorID _ | AClusterList _ | AMPUpdates _ _ | AMPWithdraws _ => (true, false)
  | AAggregatorAS _ _ | ACommunityList _ | AExtCommunityList _ | ALargeCommunityList _ | AConnector _ _ _
  | APMSITunnel _ | AAttrSet _ _ => (true, true)
  | AUnknown _ f _ => (fl_optional f, fl_transitive f)
  end.

(** ** Sets *)
Fixpoint ascending {A} (cmp : A -> A -> comparison) (l : list A) : Prop :=
  match l with
  | [] => True
  | x :: l' => Forall (fun y => cmp x y = Lt) l' /\ ascending cmp l'
  end.
Definition ecomm_wf (x : ecomm) : Prop := ec_type x < 256 /\ ec_subtype x < 256 /\ ec_a x < 2 ^ 16 /\ ec_b x < 2 ^ 32.
Definition lcomm_wf (x : lcomm) : Prop := lc_ga x < 2 ^ 32 /\ lc_1 x < 2 ^ 32 /\ lc_2 x < 2 ^ 32.

(** ** Payloads *)
Definition ecomm_wire (x : ecomm) : list N := [ec_type x; ec_subtype x] ++ be_bytes 2 (ec_a x) ++ be_bytes 4 (ec_b x).
Definition lcomm_wire (x : lcomm) : list N := be_bytes 4 (lc_ga x) ++ be_bytes 4 (lc_1 x) ++ be_bytes 4 (lc_2 x).
Definition as_octets (p : params) : nat := if sp_as32 p then 4%nat else 2%nat.
(** one AS_SEQUENCE segment; the count is one octet *)
Definition aspath_wire (p : params) (v : list N) : list N :=
  match v with [] => [] | _ => [2; N.of_nat (length v) mod 256] ++ flat_map (be_bytes (as_octets p)) v end.
Definition bgpaddr_wire (nh : bgpaddr) : list N :=
  match nh with
  | BAV4 a => be_bytes 4 a
  | BAV6 a => be_bytes 16 a
  | BAV4RD rd a => rd_wire rd ++ be_bytes 4 a
  | BAV6RD rd a => rd_wire rd ++ be_bytes 16 a
  | _ => []
  end.
Definition bgpaddr_wf (nh : bgpaddr) : Prop :=
  match nh with
  | BANone => True
  | BAV4 a => a < 2 ^ 32
  | BAV6 a => a < 2 ^ 128
  | BAV4RD rd a => rd_wf rd /\ a < 2 ^ 32
  | BAV6RD rd a => rd_wf rd /\ a < 2 ^ 128
  | BAL2 _ | BAMVPN _ => False
  end.
(** AFI, SAFI, length and next hop, no SNPA, NLRI (RFC 4760 3) *)
Definition mp_reach_wire (nh : bgpaddr) (a : addrs) : list N :=
  be_bytes 2 (fst (get_afi_safi a)) ++ [snd (get_afi_safi a)] ++ [N.of_nat (length (bgpaddr_wire nh))] ++
  bgpaddr_wire nh ++ [0] ++ addrs_wire a.
Definition mp_unreach_wire (a : addrs) : list N :=
  be_bytes 2 (fst (get_afi_safi a)) ++ [snd (get_afi_safi a)] ++ addrs_wire a.
(** the next hop expected for a family *)
Definition nexthop_ok (a : addrs) (nh : bgpaddr) : Prop :=
  bgpaddr_wf nh /\
  match get_afi_safi a, nh with
  | (1, 1), BAV4 _ | (1, 2), BAV4 _ | (1, 4), BAV4 _ | (1, 5), BAV4 _ | (1, 66), BAV4 _ | (1, 133), BAV4 _ => True
  | (1, 128), BAV4RD _ _ | (1, 129), BAV4RD _ _ | (1, 134), BAV4RD _ _ => True
  | (2, 1), BAV6 _ | (2, 2), BAV6 _ | (2, 4), BAV6 _ | (2, 66), BAV6 _ => True
  | (2, 128), BAV6RD _ _ | (2, 129), BAV6RD _ _ => True
  | (25, 65), BAV4 _ | (25, 70), BAV4 _ => True
  | _, _ => False
  end.
(** the session reads the list in the form (with or without path identifiers) in which it is sent:
    the form was negotiated, or "fuzzy" detection, when on, guesses it (C48 says when it does) *)
Definition session_form (p : params) (a : addrs) : Prop :=
  let '(afi, sf) := get_afi_safi a in
  addpath_family afi sf = true -> use_pathid p afi sf (addrs_wire a) = with_pathid a.

(** values that can be sent *)
Definition attr_wf (p : params) (a : attr) : Prop :=
  match a with
  | AOrigin _ => True
  | AASPath v => Forall (fun x => x < 256 ^ N.of_nat (as_octets p)) v
  | ANextHop a => of_mode (sp_mode p) a
  | AMED v => v < 2 ^ 32
  | ALocalPref v => v < 2 ^ 32
  | AAtomicAggregate a => ip_wf a
  | AAggregatorAS _ _ => False
  | ACommunityList v => Forall (fun x => x < 2 ^ 32) v /\ ascending N.compare v
  | AOriginatorID a => of_mode (sp_mode p) a
  | AClusterList v => Forall (of_mode (sp_mode p)) v
  | AMPUpdates nh a => bgpaddr_wf nh /\ addrs_wf a
  | AMPWithdraws a => addrs_wf a
  | AExtCommunityList v => Forall ecomm_wf v /\ ascending ecomm_cmp v
  | ALargeCommunityList v => Forall lcomm_wf v /\ ascending lcomm_cmp v
  | APMSITunnel _ => False
  | AAttrSet _ _ => False
  | AConnector asn a o => asn < 2 ^ 32 /\ a < 2 ^ 32 /\ o < 2 ^ 32
  | AUnknown tc f v => tc < 256 /\ f < 256 /\ bytes_ok v /\ ~ In tc known_codes
  end.
Definition attr_wire (p : params) (a : attr) : list N :=
  match a with
  | AOrigin o => [match o with Igp => 0 | Egp => 1 | Incomplete => 2 end]
  | AASPath v => aspath_wire p v
  | ANextHop a => ip_bytes a
  | AMED v => be_bytes 4 v
  | ALocalPref v => be_bytes 4 v
  | AAtomicAggregate a => ip_bytes a
  | AAggregatorAS asn a => be_bytes (as_octets p) asn ++ be_bytes 4 a
  | ACommunityList v => flat_map (be_bytes 4) v
  | AOriginatorID a => ip_bytes a
  | AClusterList v => flat_map ip_bytes v
  | AMPUpdates nh a => mp_reach_wire nh a
  | AMPWithdraws a => mp_unreach_wire a
  | AExtCommunityList v => flat_map ecomm_wire v
  | ALargeCommunityList v => flat_map lcomm_wire v
  | APMSITunnel _ => []
  | AAttrSet _ _ => []
  | AConnector asn a o => be_bytes 2 1 ++ be_bytes 4 asn ++ be_bytes 4 a ++ be_bytes 4 o
  | AUnknown _ _ v => v
  end.
(** values whose bytes the same session understands *)
Definition attr_rt (p : params) (a : attr) : Prop :=
  match a with
  | AASPath v => sp_as32 p = true \/ v = []
  | AMPUpdates nh a => nexthop_ok a nh /\ session_form p a
  | AMPWithdraws a => session_form p a
  | _ => True
  end.
(** what is understood: bits beyond the last octet of each prefix are dropped *)
Definition attr_trunc (a : attr) : attr :=
  match a with
  | AMPUpdates nh a => AMPUpdates nh (addrs_trunc a)
  | AMPWithdraws a => AMPWithdraws (addrs_trunc a)
  | _ => a
  end.

(** ** Framing *)
Definition attr_flags (a : attr) : N := snd (attr_params a).
(** octets of the length field, and what it can hold *)
Definition len_octets (f : N) : nat := if fl_extended f then 2%nat else 1%nat.
Definition len_max (f : N) : N := if fl_extended f then 65535 else 255.
(** an attribute on the wire: flags, type code, length, payload (RFC 4271 4.3) *)
Definition frame (f tc : N) (body : list N) : list N :=
  [f; tc] ++ be_bytes (len_octets f) (N.of_nat (length body)) ++ body.
Definition attr_full (p : params) (a : attr) : list N := frame (attr_flags a) (attr_code a) (attr_wire p a).

(** ** Malformed payloads *)
(** the attributes whose decoders panic on some input *)
Definition panicky : list N := [8; 9; 14; 15; 22; 32; 128].
(** inputs on which each of the remaining decoders panics *)
Definition panics_on (p : params) (tc : N) (buf : list N) : Prop :=
  match tc with
  | 8 => Nat.modulo (length buf) 4 <> 0%nat
  | 9 => (length buf < 4)%nat
  | 14 => (length buf < 4)%nat
  | 15 => (length buf < 3)%nat
  | 22 => exists f, buf = [f; 6; 0; 0; 1]
  | 32 => Nat.modulo (length buf) 12 <> 0%nat
  | 128 => sp_as32 p = true /\ length buf = 5%nat
  | _ => False
  end.

(** kinds of attributes *)
Definition scalar (a : attr) : Prop :=
  match a with
  | AOrigin _ | ANextHop _ | AMED _ | ALocalPref _ | AAtomicAggregate _ | AOriginatorID _ | AClusterList _ | AConnector _ _ _ => True
  | _ => False
  end.
Definition communities (a : attr) : Prop :=
  match a with ACommunityList _ | AExtCommunityList _ | ALargeCommunityList _ => True | _ => False end.
