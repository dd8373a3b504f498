(** Specification of the order in which prefixes and routes are sorted. *)
From Verif Require Import Base M_Util M_Prefix M_Nlri M_Vpls M_Mvpn M_Evpn M_Flowspec M_Cap M_Open M_Session M_Addrs M_Attr M_Order
  S_Prefix.

(** [x] does not come after [y]. *)
Definition upto {T} (o : ord T) (x y : T) : Prop := ocmp o x y <> Gt.

(** Dictionary order of sequences of numbers: at the first difference the smaller number decides; a sequence comes before
    its continuations. *)
Definition lex_lt (x y : list N) : Prop :=
  (exists p a b r s, x = p ++ a :: r /\ y = p ++ b :: s /\ a < b) \/ (exists a s, y = x ++ a :: s).
(** A type is sorted in the dictionary order of the keys of its values. *)
Definition sorted_by {T} (o : ord T) (k : T -> list N) (P : T -> Prop) : Prop :=
  forall x y, P x -> P y -> (ocmp o x y = Lt <-> lex_lt (k x) (k y)).

(** every value *)
Definition any {T} (x : T) : Prop := True.

(** ** The keys *)

Definition v4_key (p : addrV4) : list N := [v4_addr p; v4_len p].
Definition v6_key (p : addrV6) : list N := [v6_addr p; v6_len p].
Definition rd_key (r : bgpRD) : list N := [rdh r; rdl r].
(** IPv4 before IPv6 *)
Definition ip_key (a : ipaddr) : list N := match a with IPv4 x => [0; x] | IPv6 x => [1; x] end.
Definition macp_key (p : addrMac) : list N := mc_addr p ++ [mc_len p].
Definition net_key (n : bgpnet) : list N :=
  match n with NetV4 p => 0 :: v4_key p | NetV6 p => 1 :: v6_key p | NetMac p => 2 :: macp_key p end.
(** The array has the length of its Rust type. *)
Definition net_sized (n : bgpnet) : Prop := match n with NetMac p => length (mc_addr p) = 6%nat | _ => True end.
(** the labels do not count *)
Definition lab_key {T} (k : T -> list N) (x : labeled T) : list N := k (lab_prefix x).
(** the prefix counts before the route distinguisher *)
Definition wrd_key {T} (k : T -> list N) (x : withRd T) : list N := k (wrd_prefix x) ++ rd_key (wrd_rd x).
(** and the path identifier last *)
Definition pid_key {T} (k : T -> list N) (x : withPathId T) : list N := k (pid_nlri x) ++ [pid x].
Definition mdt4_key (x : mdtV4) : list N := v4_key (mdt4_addr x) ++ [mdt4_group x].
Definition mdt6_key (x : mdtV6) : list N := v6_key (mdt6_addr x) ++ [mdt6_group x].
Definition l2a_key (x : addrL2) : list N := rd_key (l2a_rd x) ++ [l2a_site x; l2a_offset x; l2a_range x].
Definition l2_key (x : bgpL2) : list N := rd_key (l2_rd x) ++ [l2_site x; l2_offset x; l2_range x].
Definition mv3_key (r : mvpn3) : list N := rd_key (mv3_rd r) ++ ip_key (mv3_source r) ++ ip_key (mv3_group r) ++ ip_key (mv3_orig r).
Definition mv67_key (r : mvpn67) : list N := rd_key (mv67_rd r) ++ [mv67_asn r] ++ ip_key (mv67_rp r) ++ ip_key (mv67_group r).
(** the route type first *)
Definition mvpn_key (x : mvpn) : list N :=
  match x with
  | MvT1 r => 1 :: rd_key (mv1_rd r) ++ ip_key (mv1_orig r)
  | MvT2 r => 2 :: rd_key (mv2_rd r) ++ [mv2_asn r]
  | MvT3 r => 3 :: mv3_key r
  | MvT4 r => 4 :: mv3_key (mv4_spmsi r) ++ ip_key (mv4_orig r)
  | MvT5 r => 5 :: rd_key (mv5_rd r) ++ ip_key (mv5_source r) ++ ip_key (mv5_group r)
  | MvT6 r => 6 :: mv67_key r
  | MvT7 r => 7 :: mv67_key r
  end.
Definition optip_key (a : option ipaddr) : list N := match a with None => [0] | Some a => 1 :: ip_key a end.
Definition evpn_key (x : evpn) : list N :=
  match x with
  | Ev1 r => 1 :: rd_key (ev1_rd r) ++ [ev1_esi_type r] ++ ev1_esi r ++ [ev1_tag r]
  | Ev2 r => 2 :: rd_key (ev2_rd r) ++ [ev2_esi_type r] ++ ev2_esi r ++ [ev2_tag r] ++ ev2_mac r ++ optip_key (ev2_ip r)
  | Ev3 r => 3 :: rd_key (ev3_rd r) ++ [ev3_tag r] ++ ip_key (ev3_ip r)
  | Ev4 r => 4 :: rd_key (ev4_rd r) ++ [ev4_esi_type r] ++ ev4_esi r ++ ip_key (ev4_ip r)
  | Ev5 r => 5 :: rd_key (ev5_rd r) ++ [ev5_esi_type r] ++ ev5_esi r ++ [ev5_tag r; ev5_len r] ++ ip_key (ev5_prefix r) ++ ip_key (ev5_gw r)
  end.
(** The arrays have the lengths of their Rust types. *)
Definition evpn_sized (x : evpn) : Prop :=
  match x with
  | Ev1 r => length (ev1_esi r) = 9%nat
  | Ev2 r => length (ev2_esi r) = 9%nat /\ length (ev2_mac r) = 6%nat
  | Ev3 _ => True
  | Ev4 r => length (ev4_esi r) = 9%nat
  | Ev5 r => length (ev5_esi r) = 9%nat
  end.
(** A list: 1 before every element, 0 at the end, so that a list comes before its continuations. *)
Definition list_key {T} (k : T -> list N) (l : list T) : list N := concat (map (fun x => 1 :: k x) l) ++ [0].
Definition fs6_key (x : fs6) : list N := v6_key (fs6_ip x) ++ [fs6_offset x].
Definition fsval_key (x : fsval) : list N :=
  [N.b2n (fv_and x); N.b2n (fv_lt x); N.b2n (fv_gt x); N.b2n (fv_eq x); fv_value x].
Definition fsmask_key (x : fsmask) : list N := [N.b2n (fm_and x); N.b2n (fm_not x); N.b2n (fm_match x); fm_value x].
(** the component type first (RFC 8955 section 4.2.2, RFC 8956 section 3.7) *)
Definition flowspec_key {T} (k : T -> list N) (x : flowspec T) : list N :=
  match x with
  | FsDst a => 1 :: k a | FsSrc a => 2 :: k a
  | FsProto v => 3 :: list_key fsval_key v | FsPortAny v => 4 :: list_key fsval_key v
  | FsPortDst v => 5 :: list_key fsval_key v | FsPortSrc v => 6 :: list_key fsval_key v
  | FsIcmpType v => 7 :: list_key fsval_key v | FsIcmpCode v => 8 :: list_key fsval_key v
  | FsTcpFlags v => 9 :: list_key fsmask_key v | FsPacketLength v => 10 :: list_key fsval_key v
  | FsDscp v => 11 :: list_key fsval_key v | FsFragment v => 12 :: list_key fsmask_key v
  | FsFlowLabel v => 13 :: list_key fsval_key v
  end.
(** Whole NLRI lists: the address family first, then route by route. *)
Definition addrs_key (a : addrs) : list N :=
  match a with
  | ANone => [0]
  | IPV4U v => 1 :: list_key v4_key v
  | IPV4M v => 2 :: list_key v4_key v
  | IPV4LU v => 3 :: list_key (lab_key v4_key) v
  | VPNV4U v => 4 :: list_key (lab_key (wrd_key v4_key)) v
  | VPNV4M v => 5 :: list_key (lab_key (wrd_key v4_key)) v
  | IPV4MDT v => 6 :: list_key (wrd_key mdt4_key) v
  | IPV4MDTP v => 7 :: list_key (pid_key (wrd_key mdt4_key)) v
  | IPV6U v => 8 :: list_key v6_key v
  | IPV6M v => 9 :: list_key v6_key v
  | IPV6LU v => 10 :: list_key (lab_key v6_key) v
  | VPNV6U v => 11 :: list_key (lab_key (wrd_key v6_key)) v
  | VPNV6M v => 12 :: list_key (lab_key (wrd_key v6_key)) v
  | IPV6MDT v => 13 :: list_key (wrd_key mdt6_key) v
  | IPV6MDTP v => 14 :: list_key (pid_key (wrd_key mdt6_key)) v
  | L2VPLS v => 15 :: list_key l2a_key v
  | MVPN v => 16 :: list_key mvpn_key v
  | EVPN v => 17 :: list_key evpn_key v
  | FS4U v => 18 :: list_key (flowspec_key v4_key) v
  | FS6U v => 19 :: list_key (flowspec_key fs6_key) v
  | FSV4U v => 20 :: list_key (flowspec_key (wrd_key v4_key)) v
  | IPV4UP v => 21 :: list_key (pid_key v4_key) v
  | IPV4MP v => 22 :: list_key (pid_key v4_key) v
  | IPV4LUP v => 23 :: list_key (pid_key (lab_key v4_key)) v
  | VPNV4UP v => 24 :: list_key (pid_key (lab_key (wrd_key v4_key))) v
  | VPNV4MP v => 25 :: list_key (pid_key (lab_key (wrd_key v4_key))) v
  | IPV6UP v => 26 :: list_key (pid_key v6_key) v
  | IPV6MP v => 27 :: list_key (pid_key v6_key) v
  | IPV6LUP v => 28 :: list_key (pid_key (lab_key v6_key)) v
  | VPNV6UP v => 29 :: list_key (pid_key (lab_key (wrd_key v6_key))) v
  | VPNV6MP v => 30 :: list_key (pid_key (lab_key (wrd_key v6_key))) v
  end.
Definition addrs_sized (a : addrs) : Prop := match a with EVPN v => Forall evpn_sized v | _ => True end.

(** The greatest prefix a prefix covers: its last address, at full length. *)
Definition last_covered (oc : bool) (p last : bgpnet) : Prop :=
  match p with
  | NetV4 p => exists l, v4_range_last oc p = Ok l /\ last = NetV4 (mkV4 l 32)
  | NetV6 p => exists l, v6_range_last oc p = Ok l /\ last = NetV6 (mkV6 l 128)
  | NetMac p => exists l, mac_range_last oc p = Ok l /\ last = NetMac (mkMac l 48)
  end.
(** A legal prefix without host bits. *)
Definition net_clean (p : bgpnet) : Prop := net_wf p /\ normalised (net_bits p) (net_len p) (net_val p).
