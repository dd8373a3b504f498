(** How much a received value holds, counted in routes, labels, conditions, attributes, list elements and octets kept; how deep attribute
    sets are nested. Counts are of the values alone; no decoder is mentioned. *)
From Verif Require Import Base M_Util M_Prefix M_Nlri M_Vpls M_Mvpn M_Evpn M_Flowspec M_Addrs M_Attr M_Update M_Cap M_Open M_Bmp.

Definition total {T} (f : T -> nat) (v : list T) : nat := list_sum (map f v).
(** a route counts one, and so does each of its labels *)
Definition lab_size {T} (x : labeled T) : nat := S (length (lab_labels x)).
Definition pid_size {T} (x : withPathId (labeled T)) : nat := lab_size (pid_nlri x).
Definition ev_size (r : evpn) : nat :=
  match r with
  | Ev1 r => S (length (ev1_labels r))
  | Ev2 r => S (length (ev2_labels r))
  | Ev3 _ | Ev4 _ => 1%nat
  | Ev5 r => S (length (ev5_labels r))
  end.
(** and each condition of a flow specification *)
Definition fs_size {T} (r : flowspec T) : nat :=
  match r with
  | FsDst _ | FsSrc _ => 1%nat
  | FsTcpFlags v | FsFragment v => S (length v)
  | FsProto v | FsPortAny v | FsPortDst v | FsPortSrc v | FsIcmpType v | FsIcmpCode v | FsPacketLength v | FsDscp v | FsFlowLabel v => S (length v)
  end.
Definition addrs_size (a : addrs) : nat :=
  match a with
  | ANone => 0%nat
  | IPV4U v | IPV4M v => length v
  | IPV4UP v | IPV4MP v => length v
  | IPV6U v | IPV6M v => length v
  | IPV6UP v | IPV6MP v => length v
  | IPV4LU v => total lab_size v
  | IPV4LUP v => total pid_size v
  | IPV6LU v => total lab_size v
  | IPV6LUP v => total pid_size v
  | IPV4MDT v => length v
  | IPV4MDTP v => length v
  | IPV6MDT v => length v
  | IPV6MDTP v => length v
  | VPNV4U v | VPNV4M v => total lab_size v
  | VPNV4UP v | VPNV4MP v => total pid_size v
  | VPNV6U v | VPNV6M v => total lab_size v
  | VPNV6UP v | VPNV6MP v => total pid_size v
  | L2VPLS v => total (fun x => S (length (l2a_labels x))) v
  | MVPN v => length v
  | EVPN v => total ev_size v
  | FS4U v => total fs_size v
  | FS6U v => total fs_size v
  | FSV4U v => total fs_size v
  end.
(** an attribute counts one, and so does each element of its list and each octet it keeps *)
Definition tun_size (t : pmsi_tun) : nat := match t with PtMLDP _ o => length o | _ => 0%nat end.
Fixpoint attr_size (a : attr) : nat :=
  match a with
  | AASPath v | ACommunityList v => S (length v)
  | AClusterList v => S (length v)
  | AExtCommunityList v => S (length v)
  | ALargeCommunityList v => S (length v)
  | AMPUpdates _ x | AMPWithdraws x => S (addrs_size x)
  | APMSITunnel t => S (length (pm_label t) + tun_size (pm_tun t))
  | AAttrSet _ v => S (total attr_size v)
  | AUnknown _ _ v => S (length v)
  | _ => 1%nat
  end.
Definition update_size (u : update) : nat := (addrs_size (u_updates u) + addrs_size (u_withdraws u) + total attr_size (u_attrs u))%nat.
Definition cap_size (c : bgpcap) : nat :=
  match c with
  | CapGR _ _ v => S (length v)
  | CapAddPath v => S (length v)
  | CapLLGR v => S (length v)
  | CapFQDN h d => S (length h + length d)
  | _ => 1%nat
  end.
Definition open_size (m : openMsg) : nat := total cap_size (op_caps m).
Definition opt_size (o : option (list N)) : nat := match o with Some s => length s | None => 0%nat end.
Definition bmp_size (m : bmpmsg) : nat :=
  match m with
  | RouteMonitoring r => update_size (rm_update r)
  | PeerUp u => (open_size (pu_msg1 u) + open_size (pu_msg2 u))%nat
  | Initiation i => (opt_size (in_str i) + opt_size (in_descr i) + opt_size (in_name i))%nat
  | Termination t => opt_size (tm_str t)
  | _ => 0%nat
  end.

(** how many attribute sets are inside one another *)
Fixpoint depth (a : attr) : nat := match a with AAttrSet _ v => S (list_max (map depth v)) | _ => 0%nat end.
(** [n + 1] attribute sets inside one another, and the octets of the payload of the outermost *)
Fixpoint nest (n : nat) : attr := AAttrSet 0 (match n with O => [] | S n' => [nest n'] end).
Fixpoint nest_octets (n : nat) : list N :=
  [0; 0; 0; 0] ++ match n with O => [] | S n' => [208; 128] ++ be_bytes 2 (N.of_nat (length (nest_octets n'))) ++ nest_octets n' end.
