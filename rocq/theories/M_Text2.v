(** Model of further text forms: /repo/src/message/notification.rs, attributes/extcommunity.rs, attributes/pmsitunnelattr.rs,
    /repo/src/afi/mod.rs, evpn.rs, mvpn.rs, vpls.rs, flowspec.rs, ipv4.rs, ipv6.rs. The formatter's [{}] and [{:x}] are those of
    M_Text.v. *)
From Coq Require Import Ascii String.
From Verif Require Import Base M_Util M_Prefix M_Nlri M_Vpls M_Evpn M_Mvpn M_Attr M_Flowspec M_Text.

(** ** Notifications *)

(** the arms with a constant of a [match] on the subcode (notification.rs:35-37, 45-51, 59-69) *)
Fixpoint arm (n : N) (l : list (N * string)) : option text :=
  match l with
  | [] => None
  | (k, s) :: l' => if n =? k then Some (txt s) else arm n l'
  end.
(** ... and the arm for the other ones (notification.rs:38, 52, 70) *)
Definition sub_arm (n : N) (l : list (N * string)) : text :=
  match arm n l with Some t => t | None => txt " subcode " ++ fmt_dec n end.
(** notification.rs:35-37 *)
Definition header_subcodes : list (N * string) :=
  [(1, "Connection not synchronized"); (2, "Bad Message Length"); (3, "Bad Message Type")]%string.
(** notification.rs:45-51 *)
Definition open_subcodes : list (N * string) :=
  [(1, "Unsupported Version Number"); (2, "Bad Peer AS"); (3, "Bad BGP Identifier"); (4, "Unsupported Optional Parameter");
   (5, "Deprecated(5)"); (6, "Unacceptable Hold Time"); (7, "Unsupported capability")]%string.
(** notification.rs:59-69 *)
Definition update_subcodes : list (N * string) :=
  [(1, "Malformed Attribute List"); (2, "Unrecognized Well-known Attribute"); (3, "Missing Well-known Attribute");
   (4, "Attribute Flags Error"); (5, "Attribute Length Error"); (6, "Invalid ORIGIN Attribute"); (7, "Deprecated(7)");
   (8, "Invalid NEXT_HOP Attribute"); (9, "Optional Attribute Error"); (10, "Invalid Network Field"); (11, "Malformed AS_PATH")]%string.
(** notification.rs:76-81, 85-90, 94-99 *)
Definition plain_sub (n : N) : text := if negb (n =? 0) then txt " subcode " ++ fmt_dec n else txt "(0)".
(** notification.rs:30-108 *)
Definition error_text (code sub : N) : text :=
  if code =? 1 then txt "Message Header Error: " ++ sub_arm sub header_subcodes
  else if code =? 2 then txt "OPEN Message Error: " ++ sub_arm sub open_subcodes
  else if code =? 3 then txt "Update Message Error: " ++ sub_arm sub update_subcodes
  else if code =? 4 then txt "Hold Timer Expired" ++ plain_sub sub
  else if code =? 5 then txt "Finite State Machine Error" ++ plain_sub sub
  else if code =? 6 then txt "Cease" ++ plain_sub sub
  else txt "Unknown code " ++ fmt_dec code ++ txt " subcode " ++ fmt_dec sub.

(** ** Extended communities *)

(** ["{}:{}", get_ipv4(), get_num()] (extcommunity.rs:97, 102, 108, 119) *)
Definition ec_ipnum (x : ecomm) : text := fmt_ipv4 (get_ipv4 x) ++ txt ":" ++ fmt_dec (get_num x).
(** ["{}:{}:{}", ctype, a, b] (extcommunity.rs:100, 104, 106, 110) *)
Definition ec_tab (x : ecomm) : text := fmt_dec (ec_type x) ++ txt ":" ++ fmt_dec (ec_a x) ++ txt ":" ++ fmt_dec (ec_b x).
(** ["0x{:x}:0x{:x}:0x{:x}:0x{:x}"] (extcommunity.rs:113-117, 122-126) *)
Definition ec_hex (x : ecomm) : text :=
  txt "0x" ++ fmt_hex (ec_type x) ++ txt ":0x" ++ fmt_hex (ec_subtype x) ++ txt ":0x" ++ fmt_hex (ec_a x) ++ txt ":0x" ++ fmt_hex (ec_b x).
(** ["0x{:02x}:0x{:02x}:0x{:x}:0x{:x}"] (extcommunity.rs:143-147, 149-153) *)
Definition ec_hex2 (x : ecomm) : text :=
  txt "0x" ++ fmt_hex2 (ec_type x) ++ txt ":0x" ++ fmt_hex2 (ec_subtype x) ++ txt ":0x" ++ fmt_hex (ec_a x) ++ txt ":0x" ++ fmt_hex (ec_b x).
(** extcommunity.rs:90-156 *)
Definition ecomm_fmt (x : ecomm) : text :=
  let s := ec_subtype x in
  let t := ec_type x in
  if (s =? 2) && (t =? 0) then txt "ext-target:" ++ fmt_dec (ec_a x) ++ txt ":" ++ fmt_dec (ec_b x)
  else if (s =? 2) && (t =? 1) then txt "ext-target:" ++ ec_ipnum x
  else if (s =? 2) && (t =? 2) then txt "ext-target:" ++ ec_tab x
  else if (s =? 3) && (t =? 1) then txt "ext-origin:" ++ ec_ipnum x
  else if (s =? 3) && (t <? 3) then txt "ext-origin:" ++ ec_tab x
  else if s =? 9 then txt "ext-src-as:" ++ ec_tab x
  else if (s =? 11) && (t =? 1) then txt "ext-rt-import:" ++ ec_ipnum x
  else if (s =? 11) && (t <? 3) then txt "ext-rt-import:" ++ ec_tab x
  else if (t =? 0) || (t =? 0x40) then txt "ext-as-specific:" ++ ec_hex x
  else if (s =? 10) && ((t =? 1) || (t =? 0x41)) then txt "ext-import-rt:" ++ ec_ipnum x
  else if (t =? 1) || (t =? 0x41) then txt "ext-ipv4a-specific:" ++ ec_hex x
  else if (t =? 3) && (s =? 12) then txt "encapsulation:0x" ++ fmt_hex (ec_b x)
  else if (t =? 6) && (s =? 4) then txt "evpn-l2-info:cf=" ++ fmt_dec (ec_a x) ++ txt ":mtu=" ++ fmt_dec (N.shiftr (ec_b x) 16)
  else if (t =? 6) && (s =? 1) then
    txt "esi-label:" ++ fmt_dec (ec_a x) ++ txt ":label=" ++ fmt_dec (N.shiftr (ec_b x) 8) ++ txt ":" ++ fmt_dec (N.land (ec_b x) 255)
  else if (t =? 3) || (t =? 0x43) then txt "ext-opaque:" ++ ec_hex2 x
  else txt "ext-unknown:" ++ ec_hex2 x.

(** ** Parts of routes *)

(** [Display] of [std::net::IpAddr] (e.g. evpn.rs:286) *)
Definition ip_fmt (a : ipaddr) : text := match a with IPv4 x => fmt_ipv4 x | IPv6 x => fmt_ipv6 x end.
(** [{:08x}] (evpn.rs:103) *)
Definition fmt_hex8 (n : N) : text := let s := fmt_hex n in repeat 48 (8 - length s) ++ s.
(** afi/mod.rs:440-453 *)
Definition labels_fmt (ls : list N) : text := joined 44 (map fmt_dec ls).
(** afi/mod.rs:565-573 *)
Definition labeled_fmt {T} (f : T -> text) (x : labeled T) : text :=
  match lab_labels x with
  | [] => f (lab_prefix x)
  | ls => txt "<l:" ++ labels_fmt ls ++ txt "> " ++ f (lab_prefix x)
  end.
(** afi/mod.rs:315-317 *)
Definition rd_is_zero (r : bgpRD) : bool := (rdh r =? 0) && (rdl r =? 0).
(** afi/mod.rs:638-646 *)
Definition withrd_fmt {T} (f : T -> text) (x : withRd T) : text :=
  if rd_is_zero (wrd_rd x) then f (wrd_prefix x) else txt "<rd:" ++ rd_fmt (wrd_rd x) ++ txt "> " ++ f (wrd_prefix x).
(** afi/mod.rs:700-710 *)
Definition withpid_fmt {T} (f : T -> text) (x : withPathId T) : text :=
  if pid x =? 0 then f (pid_nlri x) else txt "<pathid:" ++ fmt_dec (pid x) ++ txt "> " ++ f (pid_nlri x).
(** ipv4.rs:215-223, ipv6.rs:220-228 *)
Definition addr_rd_fmt (rd : bgpRD) (a : text) : text :=
  if rd_is_zero rd then a else txt "<" ++ rd_fmt rd ++ txt ">" ++ a.
(** vpls.rs:56-64; the labels are not printed *)
Definition l2a_fmt (x : addrL2) : text :=
  txt "<" ++ rd_fmt (l2a_rd x) ++ txt "> " ++ fmt_dec (l2a_site x) ++ txt "::" ++ fmt_dec (l2a_offset x) ++ txt ".." ++ fmt_dec (l2a_range x).
(** vpls.rs:84-92 *)
Definition l2_fmt (x : bgpL2) : text :=
  txt "<" ++ rd_fmt (l2_rd x) ++ txt ">site " ++ fmt_dec (l2_site x) ++ txt "-" ++ fmt_dec (l2_offset x) ++ txt ".." ++ fmt_dec (l2_range x).

(** ** EVPN *)

(** evpn.rs:39-50; [is_zero] is evpn.rs:32-34 *)
Definition esi_fmt (e : esi) : text :=
  if forallb (fun b => b =? 0) e then [] else concat (map fmt_hex2 e).
(** evpn.rs:99-102, 212-215, 455-458 *)
Definition esi_type_fmt (t : N) : text := if negb (t =? 0) then fmt_dec t ++ txt ":" else [].
(** evpn.rs:97-105 *)
Definition evpn1_fmt (r : evpn1) : text :=
  rd_fmt (ev1_rd r) ++ txt ":" ++ esi_type_fmt (ev1_esi_type r) ++ esi_fmt (ev1_esi r) ++ txt ":" ++ fmt_hex8 (ev1_tag r) ++ txt " " ++
  labels_fmt (ev1_labels r).
(** evpn.rs:210-222 *)
Definition evpn2_fmt (r : evpn2) : text :=
  rd_fmt (ev2_rd r) ++ txt ":" ++ esi_type_fmt (ev2_esi_type r) ++ esi_fmt (ev2_esi r) ++ txt ":" ++ fmt_hex8 (ev2_tag r) ++ txt "::" ++
  mac_fmt (ev2_mac r) ++ txt "::" ++ (match ev2_ip r with Some a => ip_fmt a | None => [] end) ++ txt " " ++ labels_fmt (ev2_labels r).
(** evpn.rs:284-288 *)
Definition evpn3_fmt (r : evpn3) : text := rd_fmt (ev3_rd r) ++ txt ":" ++ fmt_hex8 (ev3_tag r) ++ txt ":" ++ ip_fmt (ev3_ip r).
(** evpn.rs:359-363 *)
Definition evpn4_fmt (r : evpn4) : text :=
  rd_fmt (ev4_rd r) ++ txt ":" ++ fmt_dec (ev4_esi_type r) ++ txt ":" ++ esi_fmt (ev4_esi r) ++ txt ":" ++ ip_fmt (ev4_ip r).
(** evpn.rs:453-465 *)
Definition evpn5_fmt (r : evpn5) : text :=
  rd_fmt (ev5_rd r) ++ txt ":" ++ esi_type_fmt (ev5_esi_type r) ++ esi_fmt (ev5_esi r) ++ txt ":" ++ fmt_dec (ev5_tag r) ++ txt ":" ++
  ip_fmt (ev5_prefix r) ++ txt "/" ++ fmt_dec (ev5_len r) ++ txt ":" ++ ip_fmt (ev5_gw r) ++ txt ":" ++ labels_fmt (ev5_labels r).
(** evpn.rs:478-488 *)
Definition evpn_fmt (r : evpn) : text :=
  match r with
  | Ev1 s => txt "1:" ++ evpn1_fmt s
  | Ev2 s => txt "2:" ++ evpn2_fmt s
  | Ev3 s => txt "3:" ++ evpn3_fmt s
  | Ev4 s => txt "4:" ++ evpn4_fmt s
  | Ev5 s => txt "5:" ++ evpn5_fmt s
  end.

(** ** MVPN *)

(** mvpn.rs:103-111 *)
Definition mvpn3_fmt (r : mvpn3) : text :=
  rd_fmt (mv3_rd r) ++ txt ":" ++ ip_fmt (mv3_source r) ++ txt ":" ++ ip_fmt (mv3_group r) ++ txt ":" ++ ip_fmt (mv3_orig r).
(** mvpn.rs:263-267 *)
Definition mvpn67_fmt (r : mvpn67) : text :=
  rd_fmt (mv67_rd r) ++ txt ":" ++ fmt_dec (mv67_asn r) ++ txt ":" ++ ip_fmt (mv67_rp r) ++ txt ":" ++ ip_fmt (mv67_group r).
(** mvpn.rs:323-335, with 24-28, 67-71, 165-169 and 208-212 *)
Definition mvpn_fmt (r : mvpn) : text :=
  match r with
  | MvT1 s => txt "1:" ++ rd_fmt (mv1_rd s) ++ txt ":" ++ ip_fmt (mv1_orig s)
  | MvT2 s => txt "2:" ++ rd_fmt (mv2_rd s) ++ txt ":" ++ fmt_dec (mv2_asn s)
  | MvT3 s => txt "3:" ++ mvpn3_fmt s
  | MvT4 s => txt "4:" ++ mvpn3_fmt (mv4_spmsi s) ++ txt ":" ++ ip_fmt (mv4_orig s)
  | MvT5 s => txt "5:" ++ rd_fmt (mv5_rd s) ++ txt ":" ++ ip_fmt (mv5_source s) ++ txt ":" ++ ip_fmt (mv5_group s)
  | MvT6 s => txt "6:" ++ mvpn67_fmt s
  | MvT7 s => txt "7:" ++ mvpn67_fmt s
  end.

(** ** FlowSpec operators *)

(** flowspec.rs:144-157 *)
Definition fsval_fmt (x : fsval) : text :=
  txt (if fv_and x then "&&" else "||") ++ txt (if fv_lt x then "<" else "") ++ txt (if fv_eq x then "=" else "") ++
  txt (if fv_gt x then ">" else "") ++ txt " " ++ fmt_dec (fv_value x).
(** flowspec.rs:317-329 *)
Definition fsmask_fmt (x : fsmask) : text :=
  txt (if fm_and x then "&&" else "||") ++ txt (if fm_not x then "!" else "") ++ txt (if fm_match x then "==" else "") ++
  txt " " ++ fmt_dec (fm_value x).

(** ** Next hops *)

(** afi/mod.rs:383-395 *)
Definition bgpaddr_fmt (a : bgpaddr) : text :=
  match a with
  | BANone => txt "<>"
  | BAV4 x => fmt_ipv4 x
  | BAV6 x => fmt_ipv6 x
  | BAV4RD rd x => addr_rd_fmt rd (fmt_ipv4 x)
  | BAV6RD rd x => addr_rd_fmt rd (fmt_ipv6 x)
  | BAL2 x => l2_fmt x
  | BAMVPN r => mvpn_fmt r
  end.

(** ** PMSI tunnels *)

(** pmsitunnelattr.rs:68-77, with 25-33, 41-45 and 53-57; the opaque value of mLDP is not printed *)
Definition pmsi_tun_fmt (t : pmsi_tun) : text :=
  match t with
  | PtNone => []
  | PtRSVP e r i p => txt "RSVP-TE P2MP LSP:" ++ fmt_ipv4 e ++ txt ":" ++ fmt_dec r ++ txt ":" ++ fmt_dec i ++ txt ":" ++ fmt_ipv4 p
  | PtIngress e => txt "Ingress replication:" ++ fmt_ipv4 e
  | PtMLDP n _ => txt "mLDP P2MP LSP:" ++ ip_fmt n
  end.
(** pmsitunnelattr.rs:198-206 *)
Definition pmsi_fmt (x : pmsi) : text :=
  txt "BgpPMSITunnel flags=" ++ fmt_dec (pm_flags x) ++ txt " type=" ++ fmt_dec (pm_type x) ++ txt " label=" ++ labels_fmt (pm_label x) ++
  txt " attribute=" ++ pmsi_tun_fmt (pm_tun x).
