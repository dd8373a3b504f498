(** Buffers that are too short. *)
From Verif Require Import Base M_Util M_Prefix M_Nlri M_Vpls M_Addrs M_Attr M_Update M_Cap M_Open M_Session S_Attr S_Stop.

(** routes that are written as prefixes behind a length in bits: all but VPLS, MVPN, EVPN and flow specifications *)
Definition prefix_routes (a : addrs) : Prop :=
  match a with ANone | L2VPLS _ | MVPN _ | EVPN _ | FS4U _ | FS6U _ | FSV4U _ => False | _ => True end.
(** octets in front of the payload of an attribute *)
Definition header_len (a : attr) : nat := (2 + len_octets (attr_flags a))%nat.
(** attributes whose encoders look at the length of the buffer *)
Definition careful (a : attr) : Prop :=
  match a with APMSITunnel _ | AAttrSet _ _ | AMPUpdates _ _ | AMPWithdraws _ | AUnknown _ _ _ => False | _ => True end.
(** the octets of a next hop *)
Definition hop_octets (nh : bgpaddr) : nat := match nh with BAV4 _ => 4 | BAV6 _ => 16 | BAV4RD _ _ => 12 | BAV6RD _ _ => 24 | _ => 0 end.
(** where the capabilities of an OPEN begin *)
Definition caps_octets (v : list bgpcap) : nat := list_sum (map (fun c => 2 + bytes_len c)%nat v).
Definition cut_in_caps (v : list bgpcap) (n : nat) : Prop :=
  exists v1 c v2, v = v1 ++ c :: v2 /\ (n = 10 + caps_octets v1 \/ n = 11 + caps_octets v1)%nat.
(** an UPDATE that says nothing: empty lists of the session's own routes and no attributes *)
Definition empty_own (p : params) (a : addrs) : Prop :=
  match sp_mode p, a with ModeV4, IPV4U [] | ModeV4, IPV4UP [] | ModeV6, IPV6U [] | ModeV6, IPV6UP [] => True | _, _ => False end.
Definition bare (p : params) (m : update) : Prop :=
  empty_own p (u_withdraws m) /\ u_attrs m = [] /\ (own_routes p (u_updates m) = false \/ empty_own p (u_updates m)).
