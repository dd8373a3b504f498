(** Specification of NLRI lists by address family. *)
From Verif Require Import Base M_Util M_Prefix S_Prefix M_Nlri S_Nlri M_Vpls S_Vpls M_Mvpn S_Mvpn M_Evpn S_Evpn
  M_Flowspec S_Flowspec M_Cap M_Open M_Session M_Addrs.

(** what can be carried; see the files on each family for the limits *)
Definition lu4_wf (x : labeled addrV4) : Prop := labeled_wf v4_wf x /\ fits (labeled_wire v4_wire) x.
Definition lu6_wf (x : labeled addrV6) : Prop := labeled_wf v6_wf x /\ fits (labeled_wire v6_wire) x.
Definition vpn4_wf (x : labeled (withRd addrV4)) : Prop :=
  labeled_wf (withrd_wf v4_wf) x /\ fits (labeled_wire (withrd_wire v4_wire)) x.
Definition vpn6_wf (x : labeled (withRd addrV6)) : Prop :=
  labeled_wf (withrd_wf v6_wf) x /\ fits (labeled_wire (withrd_wire v6_wire)) x.
Definition mdt6r_wf (x : withRd mdtV6) : Prop := withrd_wf mdt6_wf x /\ v6_len (mdt6_addr (wrd_prefix x)) <= 63.
Definition pid_wf {T} (wf : T -> Prop) (x : withPathId T) : Prop := pid x < 2 ^ 32 /\ wf (pid_nlri x).
Definition lab_map {T} (f : T -> T) (x : labeled T) : labeled T := mkLab (f (lab_prefix x)) (lab_labels x).
Definition rd_map {T} (f : T -> T) (x : withRd T) : withRd T := mkWRD (f (wrd_prefix x)) (wrd_rd x).
Definition pid_map {T} (f : T -> T) (x : withPathId T) : withPathId T := mkPid (pid x) (f (pid_nlri x)).
(** the library's own form of VPN FlowSpec prefixes (not decodable, see C21; no rule below contains one) *)
Definition fsv4_wire (x : withRd addrV4) : list N := [0; 0] ++ snd (withrd_wire v4_wire x).

(** the families and values that survive a round trip *)
Definition rule_ok {T} (W : T -> list N) (wf : T -> Prop) (r : flowspec T) : Prop :=
  fs_wf wf r /\ ~ is_pfx r /\ skew r = 1%nat /\ (length (fs_body W r) <= 4094)%nat.
Definition addrs_wf (a : addrs) : Prop :=
  match a with
  | ANone => False
  | IPV4U v => Forall v4_wf v
  | IPV4UP v => Forall (pid_wf v4_wf) v
  | IPV4M v => Forall v4_wf v
  | IPV4MP v => Forall (pid_wf v4_wf) v
  | IPV4LU v => Forall lu4_wf v
  | IPV4LUP v => Forall (pid_wf lu4_wf) v
  | IPV4MDT v => Forall (withrd_wf mdt4_wf) v
  | IPV4MDTP v => Forall (pid_wf (withrd_wf mdt4_wf)) v
  | VPNV4U v => Forall vpn4_wf v
  | VPNV4UP v => Forall (pid_wf vpn4_wf) v
  | VPNV4M v => Forall vpn4_wf v
  | VPNV4MP v => Forall (pid_wf vpn4_wf) v
  | IPV6U v => Forall v6_wf v
  | IPV6UP v => Forall (pid_wf v6_wf) v
  | IPV6M v => Forall v6_wf v
  | IPV6MP v => Forall (pid_wf v6_wf) v
  | IPV6LU v => Forall lu6_wf v
  | IPV6LUP v => Forall (pid_wf lu6_wf) v
  | IPV6MDT v => Forall mdt6r_wf v
  | IPV6MDTP v => Forall (pid_wf mdt6r_wf) v
  | VPNV6U v => Forall vpn6_wf v
  | VPNV6UP v => Forall (pid_wf vpn6_wf) v
  | VPNV6M v => Forall vpn6_wf v
  | VPNV6MP v => Forall (pid_wf vpn6_wf) v
  | L2VPLS v => v = []
  | MVPN v => Forall (fun r => mv_wf ModeV4 r /\ match r with MvT1 _ | MvT2 _ => True | _ => False end) v
  | EVPN v => Forall (fun r => ev_wf r /\ ev5_ok r) v
  | FS4U v => Forall (rule_ok fs4_wire v4_wf) v
  | FS6U v => Forall (rule_ok fs6_wire fs6_wf) v
  | FSV4U v => Forall (rule_ok fsv4_wire (withrd_wf v4_wf)) v
  end.
(** on the wire *)
Definition addrs_wire (a : addrs) : list N :=
  match a with
  | ANone => []
  | IPV4U v => items_wire v4_wire v
  | IPV4UP v => pid_items_wire v4_wire v
  | IPV4M v => items_wire v4_wire v
  | IPV4MP v => pid_items_wire v4_wire v
  | IPV4LU v => items_wire (labeled_wire v4_wire) v
  | IPV4LUP v => pid_items_wire (labeled_wire v4_wire) v
  | IPV4MDT v => items_wire (withrd_wire mdt4_wire) v
  | IPV4MDTP v => pid_items_wire (withrd_wire mdt4_wire) v
  | VPNV4U v => items_wire (labeled_wire (withrd_wire v4_wire)) v
  | VPNV4UP v => pid_items_wire (labeled_wire (withrd_wire v4_wire)) v
  | VPNV4M v => items_wire (labeled_wire (withrd_wire v4_wire)) v
  | VPNV4MP v => pid_items_wire (labeled_wire (withrd_wire v4_wire)) v
  | IPV6U v => items_wire v6_wire v
  | IPV6UP v => pid_items_wire v6_wire v
  | IPV6M v => items_wire v6_wire v
  | IPV6MP v => pid_items_wire v6_wire v
  | IPV6LU v => items_wire (labeled_wire v6_wire) v
  | IPV6LUP v => pid_items_wire (labeled_wire v6_wire) v
  | IPV6MDT v => items_wire (withrd_wire mdt6_wire) v
  | IPV6MDTP v => pid_items_wire (withrd_wire mdt6_wire) v
  | VPNV6U v => items_wire (labeled_wire (withrd_wire v6_wire)) v
  | VPNV6UP v => pid_items_wire (labeled_wire (withrd_wire v6_wire)) v
  | VPNV6M v => items_wire (labeled_wire (withrd_wire v6_wire)) v
  | VPNV6MP v => pid_items_wire (labeled_wire (withrd_wire v6_wire)) v
  | L2VPLS v => flat_map (long_wire l2a_wire) v
  | MVPN v => flat_map mv_wire v
  | EVPN v => flat_map ev_wire v
  | FS4U v => flat_map (fs_wire fs4_wire) v
  | FS6U v => flat_map (fs_wire fs6_wire) v
  | FSV4U v => flat_map (fs_wire fsv4_wire) v
  end.
(** bits beyond the last octet of each prefix dropped *)
Definition addrs_trunc (a : addrs) : addrs :=
  match a with
  | IPV4U v => IPV4U (map v4_trunc v)
  | IPV4UP v => IPV4UP (map (pid_map v4_trunc) v)
  | IPV4M v => IPV4M (map v4_trunc v)
  | IPV4MP v => IPV4MP (map (pid_map v4_trunc) v)
  | IPV4LU v => IPV4LU (map (lab_map v4_trunc) v)
  | IPV4LUP v => IPV4LUP (map (pid_map (lab_map v4_trunc)) v)
  | IPV4MDT v => IPV4MDT (map (rd_map mdt4_trunc) v)
  | IPV4MDTP v => IPV4MDTP (map (pid_map (rd_map mdt4_trunc)) v)
  | VPNV4U v => VPNV4U (map (lab_map (rd_map v4_trunc)) v)
  | VPNV4UP v => VPNV4UP (map (pid_map (lab_map (rd_map v4_trunc))) v)
  | VPNV4M v => VPNV4M (map (lab_map (rd_map v4_trunc)) v)
  | VPNV4MP v => VPNV4MP (map (pid_map (lab_map (rd_map v4_trunc))) v)
  | IPV6U v => IPV6U (map v6_trunc v)
  | IPV6UP v => IPV6UP (map (pid_map v6_trunc) v)
  | IPV6M v => IPV6M (map v6_trunc v)
  | IPV6MP v => IPV6MP (map (pid_map v6_trunc) v)
  | IPV6LU v => IPV6LU (map (lab_map v6_trunc) v)
  | IPV6LUP v => IPV6LUP (map (pid_map (lab_map v6_trunc)) v)
  | IPV6MDT v => IPV6MDT (map (rd_map mdt6_trunc) v)
  | IPV6MDTP v => IPV6MDTP (map (pid_map (rd_map mdt6_trunc)) v)
  | VPNV6U v => VPNV6U (map (lab_map (rd_map v6_trunc)) v)
  | VPNV6UP v => VPNV6UP (map (pid_map (lab_map (rd_map v6_trunc))) v)
  | VPNV6M v => VPNV6M (map (lab_map (rd_map v6_trunc)) v)
  | VPNV6MP v => VPNV6MP (map (pid_map (lab_map (rd_map v6_trunc))) v)
  | _ => a
  end.

(** lists with path identifiers, and families that may have them *)
Definition with_pathid (a : addrs) : bool :=
  match a with
  | IPV4UP _
  | IPV4MP _
  | IPV4LUP _
  | IPV4MDTP _
  | VPNV4UP _
  | VPNV4MP _
  | IPV6UP _
  | IPV6MP _
  | IPV6LUP _
  | IPV6MDTP _
  | VPNV6UP _
  | VPNV6MP _ => true
  | _ => false
  end.
Definition addpath_family (afi sf : N) : bool :=
  ((afi =? 1) || (afi =? 2)) && ((sf =? 1) || (sf =? 2) || (sf =? 4) || (sf =? 66) || (sf =? 128) || (sf =? 129)).
(** Families in IANA's registries, and the capability that announces each. *)
Definition safi_codes (s : safi) : N * N :=
  match s with
  | SafiIPv4u => (1, 1) | SafiIPv4m => (1, 2) | SafiIPv4lu => (1, 4) | SafiIPv4mvpn => (1, 5) | SafiIPv4mdt => (1, 66)
  | SafiVPNv4u => (1, 128) | SafiVPNv4m => (1, 129) | SafiIPv4fu => (1, 133) | SafiVPNv4fu => (1, 134)
  | SafiIPv6u => (2, 1) | SafiIPv6lu => (2, 4) | SafiIPv6mdt => (2, 66) | SafiVPNv6u => (2, 128) | SafiVPNv6m => (2, 129)
  | SafiIPv6fu => (2, 133) | SafiVPLS => (25, 65) | SafiEVPN => (25, 70)
  end.
(** the lists that hold routes of the family a capability names *)
Definition cap_carries (s : safi) (a : addrs) : Prop :=
  match s, a with
  | SafiIPv4u, IPV4U _ | SafiIPv4u, IPV4UP _ | SafiIPv4m, IPV4M _ | SafiIPv4m, IPV4MP _
  | SafiIPv4lu, IPV4LU _ | SafiIPv4lu, IPV4LUP _ | SafiIPv4mvpn, MVPN _ | SafiIPv4mdt, IPV4MDT _ | SafiIPv4mdt, IPV4MDTP _
  | SafiVPNv4u, VPNV4U _ | SafiVPNv4u, VPNV4UP _ | SafiVPNv4m, VPNV4M _ | SafiVPNv4m, VPNV4MP _
  | SafiIPv4fu, FS4U _ | SafiVPNv4fu, FSV4U _
  | SafiIPv6u, IPV6U _ | SafiIPv6u, IPV6UP _ | SafiIPv6lu, IPV6LU _ | SafiIPv6lu, IPV6LUP _
  | SafiIPv6mdt, IPV6MDT _ | SafiIPv6mdt, IPV6MDTP _ | SafiVPNv6u, VPNV6U _ | SafiVPNv6u, VPNV6UP _
  | SafiVPNv6m, VPNV6M _ | SafiVPNv6m, VPNV6MP _ | SafiIPv6fu, FS6U _ | SafiVPLS, L2VPLS _ | SafiEVPN, EVPN _ => True
  | _, _ => False
  end.
(** the octets of a multiprotocol capability (RFC 4760 8) *)
Definition mp_wire (afi sf : N) : list N := [1; 4] ++ be_bytes 2 afi ++ [0; sf].
