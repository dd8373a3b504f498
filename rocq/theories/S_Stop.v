(** Which values stop the program when they are encoded, however large the buffer. *)
From Verif Require Import Base M_Util M_Prefix M_Nlri M_Vpls M_Mvpn M_Evpn M_Flowspec M_Addrs M_Attr M_Update M_Cap M_Open M_Session M_Peer M_Bmp.

(** What an encoder does in every buffer that is large enough. *)
Definition stops {A} (e : Enc A) : Prop := exists k, forall buf, (k <= length buf)%nat -> e buf = Panic.
Definition never_stops {A} (e : Enc A) : Prop := exists k, forall buf, (k <= length buf)%nat -> e buf <> Panic.
Definition yields {A} (e : Enc A) (x : A) : Prop := exists k, forall buf, (k <= length buf)%nat -> exists b, length b = length buf /\ e buf = Ok (x, b).

(** ** Prefixes: too long for the address. Without checks of arithmetic, 249 to 255 bits wrap around to less than an octet. *)
Definition prefix_stops (oc : bool) (max len : N) : Prop := max < len /\ (oc = false -> len <= 248).
(** labels announce 24 bits each, in an octet *)
Definition label_bits (ls : list N) : N := (24 * N.of_nat (length ls)) mod 256.
(** ... and with checks the bits of labels, route distinguisher and prefix must fit the length octet together *)
Definition labels_stop (oc : bool) (ls : list N) (bits : N) : Prop := oc = true /\ 255 < label_bits ls + bits.

Definition v4_stops (oc : bool) (x : addrV4) : Prop := prefix_stops oc 32 (v4_len x).
Definition v6_stops (oc : bool) (x : addrV6) : Prop := prefix_stops oc 128 (v6_len x).
Definition lu4_stops (oc : bool) (x : labeled addrV4) : Prop := v4_stops oc (lab_prefix x) \/ labels_stop oc (lab_labels x) (v4_len (lab_prefix x)).
Definition lu6_stops (oc : bool) (x : labeled addrV6) : Prop := v6_stops oc (lab_prefix x) \/ labels_stop oc (lab_labels x) (v6_len (lab_prefix x)).
Definition vpn4_stops (oc : bool) (x : labeled (withRd addrV4)) : Prop :=
  let p := wrd_prefix (lab_prefix x) in v4_stops oc p \/ labels_stop oc (lab_labels x) (64 + v4_len p).
Definition vpn6_stops (oc : bool) (x : labeled (withRd addrV6)) : Prop :=
  let p := wrd_prefix (lab_prefix x) in v6_stops oc p \/ labels_stop oc (lab_labels x) (64 + v6_len p).
Definition mdt4_stops (oc : bool) (x : withRd mdtV4) : Prop := v4_stops oc (mdt4_addr (wrd_prefix x)).
(** 64 bits of route distinguisher, 128 of group and the prefix *)
Definition mdt6_stops (oc : bool) (x : withRd mdtV6) : Prop :=
  let p := mdt6_addr (wrd_prefix x) in v6_stops oc p \/ oc = true /\ 63 < v6_len p.

(** ** Flow specifications: a prefix that stops, unless the length it announces is refused first *)
Definition comp_stops {T} (stop : T -> Prop) (r : flowspec T) : Prop := match r with FsDst x | FsSrc x => stop x | _ => False end.
Definition val_size (v : N) : nat := if 65535 <? v then 5 else if 255 <? v then 3 else 1.
Definition mask_size (v : N) : nat := if 16777215 <? v then 5 else if 65535 <? v then 3 else if 255 <? v then 2 else 1.
(** refused: the values of a component announce more than 4092 octets *)
Definition comp_refused {T} (r : flowspec T) : Prop :=
  match r with
  | FsDst _ | FsSrc _ => False
  | FsProto v | FsPortAny v | FsPortDst v | FsPortSrc v | FsIcmpType v | FsIcmpCode v | FsPacketLength v | FsDscp v | FsFlowLabel v =>
      (4092 < list_sum (map (fun x => val_size (fv_value x)) v))%nat
  | FsTcpFlags v | FsFragment v => (4092 < list_sum (map (fun x => mask_size (fm_value x)) v))%nat
  end.
Definition rules_stop {T} (stop : T -> Prop) (v : list (flowspec T)) : Prop :=
  exists v1 x v2, v = v1 ++ x :: v2 /\ comp_stops stop x /\ Forall (fun y => ~ comp_refused y) v1.

(** ** Routes of all families *)
Definition addrs_stop (oc : bool) (a : addrs) : Prop :=
  match a with
  | IPV4U v | IPV4M v => Exists (v4_stops oc) v
  | IPV4UP v | IPV4MP v => Exists (fun x => v4_stops oc (pid_nlri x)) v
  | IPV4LU v => Exists (lu4_stops oc) v
  | IPV4LUP v => Exists (fun x => lu4_stops oc (pid_nlri x)) v
  | IPV4MDT v => Exists (mdt4_stops oc) v
  | IPV4MDTP v => Exists (fun x => mdt4_stops oc (pid_nlri x)) v
  | VPNV4U v | VPNV4M v => Exists (vpn4_stops oc) v
  | VPNV4UP v | VPNV4MP v => Exists (fun x => vpn4_stops oc (pid_nlri x)) v
  | IPV6U v | IPV6M v => Exists (v6_stops oc) v
  | IPV6UP v | IPV6MP v => Exists (fun x => v6_stops oc (pid_nlri x)) v
  | IPV6LU v => Exists (lu6_stops oc) v
  | IPV6LUP v => Exists (fun x => lu6_stops oc (pid_nlri x)) v
  | IPV6MDT v => Exists (mdt6_stops oc) v
  | IPV6MDTP v => Exists (fun x => mdt6_stops oc (pid_nlri x)) v
  | VPNV6U v | VPNV6M v => Exists (vpn6_stops oc) v
  | VPNV6UP v | VPNV6MP v => Exists (fun x => vpn6_stops oc (pid_nlri x)) v
  | FS4U v => rules_stop (v4_stops oc) v
  | FS6U v => rules_stop (fun x => v6_stops oc (fs6_ip x)) v
  | FSV4U v => rules_stop (fun x => v4_stops oc (wrd_prefix x)) v
  | _ => False
  end.

(** ** Attributes *)
Definition hop_sendable (nh : bgpaddr) : Prop :=
  match nh with BANone | BAV4 _ | BAV6 _ | BAV4RD _ _ | BAV6RD _ _ => True | _ => False end.
Definition attr_stops (oc : bool) (a : attr) : Prop :=
  match a with
  | APMSITunnel _ | AAttrSet _ _ => True
  | AMPUpdates nh a => hop_sendable nh /\ addrs_stop oc a
  | AMPWithdraws a => addrs_stop oc a
  | _ => False
  end.

(** ** UPDATE: the routes of the session's own family are written, and the attributes while their octets (with the two of the length) are at most 65535 *)
Definition own_routes (p : params) (a : addrs) : bool :=
  match sp_mode p, a with
  | ModeV4, IPV4U _ | ModeV4, IPV4UP _ | ModeV6, IPV6U _ | ModeV6, IPV6UP _ => true
  | _, _ => false
  end.
Definition own_stop (oc : bool) (p : params) (a : addrs) : Prop := own_routes p a = true /\ addrs_stop oc a.
Definition withdraws_go (oc : bool) (p : params) (a : addrs) : Prop :=
  own_routes p a = false \/ exists n, yields (addrs_encode oc a) n /\ N.of_nat n <= 65535.
Inductive attrs_go (oc : bool) (p : params) : nat -> list attr -> nat -> Prop :=
| ag_nil s : attrs_go oc p s [] s
| ag_cons s a v n t : N.of_nat s <= 65535 -> yields (attr_encode oc p a) n -> attrs_go oc p (s + n) v t -> attrs_go oc p s (a :: v) t.
Definition attrs_stop (oc : bool) (p : params) (v : list attr) : Prop :=
  exists v1 a v2 t, v = v1 ++ a :: v2 /\ attrs_go oc p 2 v1 t /\ N.of_nat t <= 65535 /\ attr_stops oc a.
Definition update_stops (oc : bool) (p : params) (m : update) : Prop :=
  own_stop oc p (u_withdraws m) \/
  withdraws_go oc p (u_withdraws m) /\
    (attrs_stop oc p (u_attrs m) \/ (exists t, attrs_go oc p 2 (u_attrs m) t) /\ own_stop oc p (u_updates m)).

(** ** Messages. Only UPDATE can; and with checks a length that does not leave room for the header in 16 bits. *)
Definition body_stops (oc : bool) (p : params) (m : message) : Prop := match m with MsgUpdate m => update_stops oc p m | _ => False end.
Definition length_stops (oc : bool) (n : nat) : Prop := oc = true /\ 65516 < N.of_nat n mod 65536.
Definition send_stops (oc : bool) (p : params) (m : message) : Prop :=
  body_stops oc p m \/ exists n, yields (message_encode oc p m) n /\ length_stops oc n.

(** ** BMP: the two types that are not implemented, and embedded messages *)
Definition bmp_stops (oc : bool) (m : bmpmsg) : Prop :=
  match m with
  | StatisticsReport | RouteMirroring => True
  | RouteMonitoring m => send_stops oc (params_of_peer (rm_peer m)) (MsgUpdate (rm_update m))
  | PeerUp m =>
      (exists n, yields (open_encode (pu_msg1 m)) n /\ length_stops oc n) \/
      (exists n, yields (open_encode (pu_msg1 m)) n /\ ~ length_stops oc n) /\ (exists n, yields (open_encode (pu_msg2 m)) n /\ length_stops oc n)
  | _ => False
  end.

(** ** What the Rust types say: prefix lengths are octets, an ESI has nine and a MAC address six *)
Definition ev_typed (r : evpn) : Prop :=
  match r with
  | Ev1 r => length (ev1_esi r) = 9%nat
  | Ev2 r => length (ev2_esi r) = 9%nat /\ length (ev2_mac r) = 6%nat
  | Ev3 _ => True
  | Ev4 r => length (ev4_esi r) = 9%nat
  | Ev5 r => length (ev5_esi r) = 9%nat
  end.
Definition comp_typed {T} (bits : T -> N) (r : flowspec T) : Prop := match r with FsDst x | FsSrc x => bits x < 256 | _ => True end.
Definition addrs_typed (a : addrs) : Prop :=
  match a with
  | IPV4U v | IPV4M v => Forall (fun x => v4_len x < 256) v
  | IPV4UP v | IPV4MP v => Forall (fun x => v4_len (pid_nlri x) < 256) v
  | IPV4LU v => Forall (fun x => v4_len (lab_prefix x) < 256) v
  | IPV4LUP v => Forall (fun x => v4_len (lab_prefix (pid_nlri x)) < 256) v
  | IPV4MDT v => Forall (fun x => v4_len (mdt4_addr (wrd_prefix x)) < 256) v
  | IPV4MDTP v => Forall (fun x => v4_len (mdt4_addr (wrd_prefix (pid_nlri x))) < 256) v
  | VPNV4U v | VPNV4M v => Forall (fun x => v4_len (wrd_prefix (lab_prefix x)) < 256) v
  | VPNV4UP v | VPNV4MP v => Forall (fun x => v4_len (wrd_prefix (lab_prefix (pid_nlri x))) < 256) v
  | IPV6U v | IPV6M v => Forall (fun x => v6_len x < 256) v
  | IPV6UP v | IPV6MP v => Forall (fun x => v6_len (pid_nlri x) < 256) v
  | IPV6LU v => Forall (fun x => v6_len (lab_prefix x) < 256) v
  | IPV6LUP v => Forall (fun x => v6_len (lab_prefix (pid_nlri x)) < 256) v
  | IPV6MDT v => Forall (fun x => v6_len (mdt6_addr (wrd_prefix x)) < 256) v
  | IPV6MDTP v => Forall (fun x => v6_len (mdt6_addr (wrd_prefix (pid_nlri x))) < 256) v
  | VPNV6U v | VPNV6M v => Forall (fun x => v6_len (wrd_prefix (lab_prefix x)) < 256) v
  | VPNV6UP v | VPNV6MP v => Forall (fun x => v6_len (wrd_prefix (lab_prefix (pid_nlri x))) < 256) v
  | EVPN v => Forall ev_typed v
  | FS4U v => Forall (comp_typed v4_len) v
  | FS6U v => Forall (comp_typed (fun x => v6_len (fs6_ip x))) v
  | FSV4U v => Forall (comp_typed (fun x => v4_len (wrd_prefix x))) v
  | _ => True
  end.
Definition attr_typed (a : attr) : Prop := match a with AMPUpdates _ a | AMPWithdraws a => addrs_typed a | _ => True end.
Definition update_typed (m : update) : Prop := addrs_typed (u_updates m) /\ addrs_typed (u_withdraws m) /\ Forall attr_typed (u_attrs m).

(** ** Values as they should be: no prefix is longer than its address, and no attribute is one that cannot be encoded *)
Definition comp_fits {T} (max : N) (bits : T -> N) (r : flowspec T) : Prop := match r with FsDst x | FsSrc x => bits x <= max | _ => True end.
Definition addrs_fit (a : addrs) : Prop :=
  match a with
  | IPV4U v | IPV4M v => Forall (fun x => v4_len x <= 32) v
  | IPV4UP v | IPV4MP v => Forall (fun x => v4_len (pid_nlri x) <= 32) v
  | IPV4LU v => Forall (fun x => v4_len (lab_prefix x) <= 32) v
  | IPV4LUP v => Forall (fun x => v4_len (lab_prefix (pid_nlri x)) <= 32) v
  | IPV4MDT v => Forall (fun x => v4_len (mdt4_addr (wrd_prefix x)) <= 32) v
  | IPV4MDTP v => Forall (fun x => v4_len (mdt4_addr (wrd_prefix (pid_nlri x))) <= 32) v
  | VPNV4U v | VPNV4M v => Forall (fun x => v4_len (wrd_prefix (lab_prefix x)) <= 32) v
  | VPNV4UP v | VPNV4MP v => Forall (fun x => v4_len (wrd_prefix (lab_prefix (pid_nlri x))) <= 32) v
  | IPV6U v | IPV6M v => Forall (fun x => v6_len x <= 128) v
  | IPV6UP v | IPV6MP v => Forall (fun x => v6_len (pid_nlri x) <= 128) v
  | IPV6LU v => Forall (fun x => v6_len (lab_prefix x) <= 128) v
  | IPV6LUP v => Forall (fun x => v6_len (lab_prefix (pid_nlri x)) <= 128) v
  | IPV6MDT v => Forall (fun x => v6_len (mdt6_addr (wrd_prefix x)) <= 128) v
  | IPV6MDTP v => Forall (fun x => v6_len (mdt6_addr (wrd_prefix (pid_nlri x))) <= 128) v
  | VPNV6U v | VPNV6M v => Forall (fun x => v6_len (wrd_prefix (lab_prefix x)) <= 128) v
  | VPNV6UP v | VPNV6MP v => Forall (fun x => v6_len (wrd_prefix (lab_prefix (pid_nlri x))) <= 128) v
  | EVPN v => Forall ev_typed v
  | FS4U v => Forall (comp_fits 32 v4_len) v
  | FS6U v => Forall (comp_fits 128 (fun x => v6_len (fs6_ip x))) v
  | FSV4U v => Forall (comp_fits 32 (fun x => v4_len (wrd_prefix x))) v
  | _ => True
  end.
Definition attr_fits (a : attr) : Prop :=
  match a with APMSITunnel _ | AAttrSet _ _ => False | AMPUpdates _ a | AMPWithdraws a => addrs_fit a | _ => True end.
Definition update_fits (m : update) : Prop := addrs_fit (u_updates m) /\ addrs_fit (u_withdraws m) /\ Forall attr_fits (u_attrs m).
