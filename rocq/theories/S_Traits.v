(** Specification of the equality and order of path attributes, capabilities and OPEN messages. *)
From Verif Require Import Base M_Util M_Prefix M_Nlri M_Vpls M_Mvpn M_Cap M_Open M_Session M_Addrs M_Attr M_Order S_Order S_Sort.

(** ** Path attributes *)

Definition pmsi_unlabel (t : pmsi) : pmsi := mkPmsi (pm_flags t) (pm_type t) [] (pm_tun t).
(** The attribute with [f] applied to every AS number of its AS paths and without any labels, also inside attribute sets. *)
Fixpoint attr_norm (f : N -> N) (a : attr) : attr :=
  match a with
  | AASPath v => AASPath (map f v)
  | AMPUpdates h v => AMPUpdates h (addrs_unlabel v)
  | AMPWithdraws v => AMPWithdraws (addrs_unlabel v)
  | APMSITunnel t => APMSITunnel (pmsi_unlabel t)
  | AAttrSet n v => AAttrSet n (map (attr_norm f) v)
  | a => a
  end.
Definition attr_unlabel : attr -> attr := attr_norm (fun x => x).
(** The AS number a value stands for: multiples of 65536 stand for their upper half. *)
Definition as_number (x : N) : N := if x mod 65536 =? 0 then x / 65536 else x.
(** Every AS number of the AS paths satisfies [P], also inside attribute sets. *)
Fixpoint as_all (P : N -> Prop) (a : attr) : Prop :=
  match a with
  | AASPath v => Forall P v
  | AAttrSet _ v => fold_right (fun x r => as_all P x /\ r) True v
  | _ => True
  end.
(** Attributes that hold a label stack in a derived order, also inside attribute sets. *)
Fixpoint holds_labels (a : attr) : bool :=
  match a with
  | AMPUpdates _ v | AMPWithdraws v => derived_labels v
  | APMSITunnel _ => true
  | AAttrSet _ v => existsb holds_labels v
  | _ => false
  end.

(** Attributes without a route that carries labels in a derived order, and without PMSI tunnel. *)
Fixpoint label_free (a : attr) : bool :=
  match a with
  | AMPUpdates _ v | AMPWithdraws v =>
      match v with L2VPLS l => match l with [] => true | _ => false end | EVPN l => forallb (fun r => negb (evpn_has_labels r)) l | _ => true end
  | APMSITunnel _ => false
  | AAttrSet _ v => forallb label_free v
  | _ => true
  end.
(** Values for which the number is stored as it is. *)
Definition plain_as (x : N) : Prop := x = 0 \/ x mod 65536 <> 0.

(** Sort keys. *)
Definition num_key (x : N) : list N := [x].
Definition ecomm_key (x : ecomm) : list N := [ec_type x; ec_subtype x; ec_a x; ec_b x].
Definition lcomm_key (x : lcomm) : list N := [lc_ga x; lc_1 x; lc_2 x].
Definition bgpaddr_key (x : bgpaddr) : list N :=
  match x with
  | BANone => [0] | BAV4 a => [1; a] | BAV6 a => [2; a]
  | BAV4RD r a => 3 :: rd_key r ++ [a] | BAV6RD r a => 4 :: rd_key r ++ [a]
  | BAL2 x => 5 :: l2_key x | BAMVPN r => 6 :: mvpn_key r
  end.
Definition tun_key (t : pmsi_tun) : list N :=
  match t with
  | PtNone => [0] | PtRSVP a b c d => [1; a; b; c; d] | PtIngress e => [2; e]
  | PtMLDP r o => 3 :: ip_key r ++ list_key num_key o
  end.
Fixpoint attr_key (a : attr) : list N :=
  match a with
  | AOrigin o => [0; match o with Igp => 0 | Egp => 1 | Incomplete => 2 end]
  | AASPath v => 1 :: list_key num_key v
  | ANextHop a => 2 :: ip_key a
  | AMED v => [3; v]
  | ALocalPref v => [4; v]
  | AAtomicAggregate a => 5 :: ip_key a
  | AAggregatorAS n a => [6; n; a]
  | ACommunityList v => 7 :: list_key num_key v
  | AOriginatorID a => 8 :: ip_key a
  | AClusterList v => 9 :: list_key ip_key v
  | AMPUpdates h v => 10 :: bgpaddr_key h ++ addrs_key v
  | AMPWithdraws v => 11 :: addrs_key v
  | AExtCommunityList v => 12 :: list_key ecomm_key v
  | ALargeCommunityList v => 13 :: list_key lcomm_key v
  | APMSITunnel t => 14 :: pm_flags t :: pm_type t :: tun_key (pm_tun t)
  | AAttrSet n v => 15 :: n :: list_key attr_key v
  | AConnector n a r => [16; n; a; r]
  | AUnknown c f v => 17 :: c :: f :: list_key num_key v
  end.
(** The fixed-size arrays inside have the length of their Rust type. *)
Fixpoint attr_sized (a : attr) : Prop :=
  match a with
  | AMPUpdates _ v | AMPWithdraws v => addrs_sized v
  | AAttrSet _ v => fold_right (fun x r => attr_sized x /\ r) True v
  | _ => True
  end.

(** ** Capabilities and OPEN *)

Definition gr_key (x : capGR) : list N := [gr_afi x; gr_safi x; N.b2n (gr_fwd x)].
Definition llgr_key (x : capLLGR) : list N := [ll_afi x; ll_safi x; ll_flags x; ll_stale x].
Definition ap_key (x : capAP) : list N := [ap_afi x; ap_safi x; N.b2n (ap_send x); N.b2n (ap_receive x)].
Definition cap_key (c : bgpcap) : list N :=
  match c with
  | CapMP SafiIPv4u => [0] | CapMP SafiIPv4m => [1] | CapMP SafiIPv4mvpn => [2] | CapMP SafiIPv4fu => [3]
  | CapMP SafiVPNv4u => [4] | CapMP SafiVPNv4fu => [5] | CapMP SafiVPNv4m => [6] | CapMP SafiIPv4lu => [7]
  | CapMP SafiIPv4mdt => [8] | CapMP SafiIPv6u => [9] | CapMP SafiIPv6lu => [10] | CapMP SafiIPv6fu => [11]
  | CapMP SafiVPNv6u => [12] | CapMP SafiVPNv6m => [13] | CapMP SafiIPv6mdt => [14] | CapMP SafiVPLS => [15]
  | CapMP SafiEVPN => [16]
  | CapGR st t v => 17 :: t :: N.b2n st :: list_key gr_key v
  | CapASN32 n => [18; n]
  | CapRR => [19]
  | CapAddPath v => 20 :: list_key ap_key v
  | CapEnhancedRR => [21]
  | CapLLGR v => 22 :: list_key llgr_key v
  | CapFQDN h d => 23 :: list_key num_key h ++ list_key num_key d
  | CapBFD => [24]
  end.
Definition open_key (m : openMsg) : list N := op_as m :: op_hold m :: op_rid m :: list_key cap_key (op_caps m).
