(** Specification of further text forms. *)
From Coq Require Import Ascii String.
From Verif Require Import Base M_Util S_Wire M_Prefix S_Prefix M_Nlri S_Nlri M_Vpls S_Vpls M_Session M_Evpn S_Evpn M_Mvpn S_Mvpn M_Attr S_Attr M_Text S_Text.

(** ** Errors *)

(** small letters for capital ones *)
Definition small (c : N) : N := if (65 <=? c) && (c <=? 90) then c + 32 else c.
(** [s] is the text [t], up to the case of letters *)
Definition reads (s : list N) (t : string) : Prop := map small s = map small (lit t).
(** the codes (RFC 4271 4.5) *)
Definition error_codes : list (N * string) :=
  [(1, "Message Header Error"); (2, "OPEN Message Error"); (3, "UPDATE Message Error"); (4, "Hold Timer Expired");
   (5, "Finite State Machine Error"); (6, "Cease")]%string.
(** the subcodes of the first three (RFC 4271 4.5, RFC 5492 5); without the deprecated ones *)
Definition error_subcodes : list (N * N * string) :=
  [(1, 1, "Connection Not Synchronized"); (1, 2, "Bad Message Length"); (1, 3, "Bad Message Type");
   (2, 1, "Unsupported Version Number"); (2, 2, "Bad Peer AS"); (2, 3, "Bad BGP Identifier"); (2, 4, "Unsupported Optional Parameter");
   (2, 6, "Unacceptable Hold Time"); (2, 7, "Unsupported Capability");
   (3, 1, "Malformed Attribute List"); (3, 2, "Unrecognized Well-known Attribute"); (3, 3, "Missing Well-known Attribute");
   (3, 4, "Attribute Flags Error"); (3, 5, "Attribute Length Error"); (3, 6, "Invalid ORIGIN Attribute");
   (3, 8, "Invalid NEXT_HOP Attribute"); (3, 9, "Optional Attribute Error"); (3, 10, "Invalid Network Field"); (3, 11, "Malformed AS_PATH")]%string.
(** the subcodes of Cease (RFC 4486 3) *)
Definition cease_subcodes : list (N * string) :=
  [(1, "Maximum Number of Prefixes Reached"); (2, "Administrative Shutdown"); (3, "Peer De-configured"); (4, "Administrative Reset");
   (5, "Connection Rejected"); (6, "Other Configuration Change"); (7, "Connection Collision Resolution"); (8, "Out of Resources")]%string.
(** the text begins with the name of the code, and ends in the name of the subcode *)
Definition names_code (s : list N) (name : string) : Prop := exists h t, s = h ++ t /\ reads h name.
Definition names_subcode (s : list N) (name : string) : Prop := exists h t, s = h ++ t /\ reads t name.

(** ** Extended communities that print alike *)
Definition ec_alike (x y : ecomm) : Prop :=
  x = y \/
  (** encapsulation: the two octets before the tunnel type are not shown *)
  (ec_type x = 3 /\ ec_subtype x = 12 /\ ec_type y = 3 /\ ec_subtype y = 12 /\ ec_b x = ec_b y) \/
  (** layer 2 attributes: the two octets after the MTU are not shown *)
  (ec_type x = 6 /\ ec_subtype x = 4 /\ ec_type y = 6 /\ ec_subtype y = 4 /\ ec_a x = ec_a y /\ ec_b x / 65536 = ec_b y / 65536) \/
  (** import route targets: the transitive bit is not shown *)
  (In (ec_type x) [1; 0x41] /\ In (ec_type y) [1; 0x41] /\ ec_subtype x = 10 /\ ec_subtype y = 10 /\ ec_a x = ec_a y /\ ec_b x = ec_b y).

(** ** Routes: what the types of the fields hold *)
Definition ev_any (r : evpn) : Prop :=
  match r with
  | Ev1 r => rd_wf (ev1_rd r) /\ esi_wf (ev1_esi_type r) (ev1_esi r) /\ ev1_tag r < 2 ^ 32
  | Ev2 r => rd_wf (ev2_rd r) /\ esi_wf (ev2_esi_type r) (ev2_esi r) /\ ev2_tag r < 2 ^ 32 /\ mac_wf (ev2_mac r) /\
             match ev2_ip r with None => True | Some a => ip_wf a end
  | Ev3 r => rd_wf (ev3_rd r) /\ ev3_tag r < 2 ^ 32 /\ ip_wf (ev3_ip r)
  | Ev4 r => rd_wf (ev4_rd r) /\ esi_wf (ev4_esi_type r) (ev4_esi r) /\ ip_wf (ev4_ip r)
  | Ev5 r => rd_wf (ev5_rd r) /\ esi_wf (ev5_esi_type r) (ev5_esi r) /\ ip_wf (ev5_prefix r) /\ ip_wf (ev5_gw r)
  end.
(** prefixes *)
Definition mdt4_any (m : mdtV4) : Prop := v4_any (mdt4_addr m) /\ mdt4_group m < 2 ^ 32.
Definition mdt6_any (m : mdtV6) : Prop := v6_any (mdt6_addr m) /\ mdt6_group m < 2 ^ 128.
(** routes with one address, and routes all of whose addresses are IPv4 *)
Definition mv_plain (r : mvpn) : Prop :=
  match r with
  | MvT1 r => rd_wf (mv1_rd r) /\ ip_wf (mv1_orig r)
  | MvT2 r => rd_wf (mv2_rd r)
  | _ => mv_wf ModeV4 r
  end.
(** the two octet groups of an IPv6 address *)
Definition ip6_groups (gs : list N) : N := fold_left (fun acc g => acc * 65536 + g) gs 0.
Definition group (g : N) : Prop := 0 < g < 65536.

(** ** Next hops: an address with the route distinguisher 0:0 is the address *)
Definition nh_plain (a : bgpaddr) : bgpaddr :=
  match a with
  | BAV4RD (mkRD 0 0) x => BAV4 x
  | BAV6RD (mkRD 0 0) x => BAV6 x
  | _ => a
  end.
Definition nh_any (a : bgpaddr) : Prop :=
  match a with
  | BANone => True
  | BAV4 a => a < 2 ^ 32
  | BAV6 a => a < 2 ^ 128
  | BAV4RD rd a => rd_wf rd /\ a < 2 ^ 32
  | BAV6RD rd a => rd_wf rd /\ a < 2 ^ 128
  | BAL2 x => rd_wf (l2_rd x)
  | BAMVPN _ => False
  end.

(** ** PMSI tunnels that print alike: the opaque value of mLDP is not shown *)
Definition pmsi_any (x : pmsi) : Prop :=
  match pm_tun x with
  | PtNone => True
  | PtRSVP e _ _ p => e < 2 ^ 32 /\ p < 2 ^ 32
  | PtIngress e => e < 2 ^ 32
  | PtMLDP n _ => ip_wf n
  end.
Definition no_opaque (x : pmsi) : pmsi :=
  match pm_tun x with
  | PtMLDP n _ => mkPmsi (pm_flags x) (pm_type x) (pm_label x) (PtMLDP n [])
  | _ => x
  end.
