(** Specification of the PMSI tunnel attribute, of attribute sets, of SNPAs and of the flag octets. *)
From Verif Require Import Base M_Util S_Wire M_Nlri S_Nlri M_Vpls M_Mvpn S_Mvpn M_Cap M_Open M_Session M_Addrs S_Addrs M_Attr S_Attr.

(** ** PMSI tunnel (RFC 6514 5): flags, tunnel type, label in the top 20 bits of three octets, identifier *)
(** tunnel type and identifier: none; RSVP-TE P2MP LSP (RFC 4875 19.1); mLDP P2MP LSP with an IPv4 root
    (RFC 6388 2.2); ingress replication with an IPv4 endpoint *)
Definition tunnel_type (t : pmsi_tun) : N :=
  match t with PtNone => 0 | PtRSVP _ _ _ _ => 1 | PtMLDP _ _ => 2 | PtIngress _ => 6 end.
Definition tunnel_id (t : pmsi_tun) : list N :=
  match t with
  | PtNone => []
  | PtRSVP e r i q => be_bytes 4 e ++ be_bytes 2 r ++ be_bytes 2 i ++ be_bytes 4 q
  | PtMLDP root o => [6] ++ be_bytes 2 1 ++ [N.of_nat (length (ip_bytes root))] ++ ip_bytes root ++
                     be_bytes 2 (N.of_nat (length o)) ++ o
  | PtIngress e => be_bytes 4 e
  end.
Definition tunnel_wf (t : pmsi_tun) : Prop :=
  match t with
  | PtNone => True
  | PtRSVP e r i q => e < 2 ^ 32 /\ r < 2 ^ 16 /\ i < 2 ^ 16 /\ q < 2 ^ 32
  | PtMLDP root o => ip_wf root /\ o <> [] /\ N.of_nat (length o) < 2 ^ 16
  | PtIngress e => e < 2 ^ 32
  end.
(** [low] is the low four bits of the label field, which RFC 6514 leaves undefined *)
Definition pmsi_wire (flags label low : N) (t : pmsi_tun) : list N :=
  [flags; tunnel_type t] ++ be_bytes 3 (label * 16 + low) ++ tunnel_id t.
(** the octets on which decoding the attribute panics *)
Definition pmsi_panics (buf : list N) : Prop :=
  match buf with
  | _ :: t :: _ :: _ :: _ :: id =>
      t = 1 /\ (length id < 12)%nat \/ t = 2 /\ id = [] \/ t = 6 /\ (length id < 4)%nat
  | _ => False
  end.

(** ** Attribute set (RFC 6368 5): origin AS, then complete attributes *)
(** flags, type code, payload *)
Definition raw_attr : Type := N * N * list N.
Definition raw_wire (x : raw_attr) : list N := let '(f, tc, body) := x in frame f tc body.
Definition raw_wf (x : raw_attr) : Prop := let '(f, tc, body) := x in N.of_nat (length body) <= len_max f.
Definition raw_decodes (oc : bool) (p : params) (x : raw_attr) (r : res attr) : Prop :=
  let '(f, tc, body) := x in attr_decode oc p tc f (length body) body = r.
(** a tail shorter than an attribute's header: an incomplete type, or an incomplete length *)
Definition cut_header (t : list N) : Prop :=
  match t with
  | [] => False
  | [_] => True
  | f :: _ :: l => (length l < len_octets f)%nat
  end.

(** ** SNPAs (RFC 2858 2): a count, then each as a length and its octets *)
Definition snpa_wire (s : list N) : list N := N.of_nat (length s) :: s.
Definition mp_reach_snpa_wire (nh : bgpaddr) (snpas : list (list N)) (a : addrs) : list N :=
  be_bytes 2 (fst (get_afi_safi a)) ++ [snd (get_afi_safi a)] ++ [N.of_nat (length (bgpaddr_wire nh))] ++
  bgpaddr_wire nh ++ [N.of_nat (length snpas)] ++ flat_map snpa_wire snpas ++ addrs_wire a.

(** ** Flag octets (RFC 4271 4.3) *)
(** the kinds sent with a two-octet length *)
Definition long_length (a : attr) : bool :=
  match a with
  | AASPath _ | ACommunityList _ | AMPUpdates _ _ | AMPWithdraws _ | ALargeCommunityList _ => true
  | AUnknown _ f _ => fl_extended f
  | _ => false
  end.
(** optional, transitive, partial, extended length, four unused bits *)
Definition flag_octet (optional transitive partial extended : bool) : N :=
  128 * N.b2n optional + 64 * N.b2n transitive + 32 * N.b2n partial + 16 * N.b2n extended.
