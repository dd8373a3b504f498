(** Joining and splitting lists of routes (C126). *)
From Verif Require Import Base M_Util M_Prefix M_Nlri M_Vpls M_Cap M_Open M_Session M_Mvpn M_Evpn M_Flowspec M_Addrs S_Exact S_Wire.

(** one list after the other; lists of different kinds do not go together *)
Definition addrs_join (a b : addrs) : option addrs :=
  match a, b with
  | ANone, ANone => Some ANone
  | IPV4U v, IPV4U w => Some (IPV4U (v ++ w))
  | IPV4UP v, IPV4UP w => Some (IPV4UP (v ++ w))
  | IPV4M v, IPV4M w => Some (IPV4M (v ++ w))
  | IPV4MP v, IPV4MP w => Some (IPV4MP (v ++ w))
  | IPV4LU v, IPV4LU w => Some (IPV4LU (v ++ w))
  | IPV4LUP v, IPV4LUP w => Some (IPV4LUP (v ++ w))
  | IPV4MDT v, IPV4MDT w => Some (IPV4MDT (v ++ w))
  | IPV4MDTP v, IPV4MDTP w => Some (IPV4MDTP (v ++ w))
  | VPNV4U v, VPNV4U w => Some (VPNV4U (v ++ w))
  | VPNV4UP v, VPNV4UP w => Some (VPNV4UP (v ++ w))
  | VPNV4M v, VPNV4M w => Some (VPNV4M (v ++ w))
  | VPNV4MP v, VPNV4MP w => Some (VPNV4MP (v ++ w))
  | IPV6U v, IPV6U w => Some (IPV6U (v ++ w))
  | IPV6UP v, IPV6UP w => Some (IPV6UP (v ++ w))
  | IPV6M v, IPV6M w => Some (IPV6M (v ++ w))
  | IPV6MP v, IPV6MP w => Some (IPV6MP (v ++ w))
  | IPV6LU v, IPV6LU w => Some (IPV6LU (v ++ w))
  | IPV6LUP v, IPV6LUP w => Some (IPV6LUP (v ++ w))
  | IPV6MDT v, IPV6MDT w => Some (IPV6MDT (v ++ w))
  | IPV6MDTP v, IPV6MDTP w => Some (IPV6MDTP (v ++ w))
  | VPNV6U v, VPNV6U w => Some (VPNV6U (v ++ w))
  | VPNV6UP v, VPNV6UP w => Some (VPNV6UP (v ++ w))
  | VPNV6M v, VPNV6M w => Some (VPNV6M (v ++ w))
  | VPNV6MP v, VPNV6MP w => Some (VPNV6MP (v ++ w))
  | L2VPLS v, L2VPLS w => Some (L2VPLS (v ++ w))
  | MVPN v, MVPN w => Some (MVPN (v ++ w))
  | EVPN v, EVPN w => Some (EVPN (v ++ w))
  | FS4U v, FS4U w => Some (FS4U (v ++ w))
  | FS6U v, FS6U w => Some (FS6U (v ++ w))
  | FSV4U v, FSV4U w => Some (FSV4U (v ++ w))
  | _, _ => None
  end.
(** families whose lists never carry path identifiers *)
Definition no_pids : list (N * N) := [(1, 5); (1, 133); (1, 134); (2, 133); (25, 65); (25, 70)].
(** path identifiers are expected in both parts and in the whole, or in none of them *)
Definition same_form (p : params) (afi sf : N) (b1 b2 : list N) : Prop :=
  In (afi, sf) no_pids \/ (asks_pid p afi sf b1 <-> asks_pid p afi sf (b1 ++ b2)) /\ (asks_pid p afi sf b2 <-> asks_pid p afi sf (b1 ++ b2)).
(** [whole] is what [part] gives, with the routes [a1], read from [n1] octets, before it *)
Definition comes_after (a1 : addrs) (n1 : nat) (part whole : res (addrs * nat)) : Prop :=
  (forall a n, whole = Ok (a, n) <-> exists a2 n2, part = Ok (a2, n2) /\ addrs_join a1 a2 = Some a /\ n = (n1 + n2)%nat) /\
  (forall e, whole = Err e <-> part = Err e) /\ (whole = Panic <-> part = Panic) /\ (whole = OutOfFuel <-> part = OutOfFuel).
(** the same for a list written behind another one in the same buffer *)
Definition written_after (n1 : nat) (b1 : list N) (part whole : res (nat * list N)) : Prop :=
  (forall n b, whole = Ok (n, b) <-> exists n2 b2, part = Ok (n2, b2) /\ n = (n1 + n2)%nat /\ b = firstn n1 b1 ++ b2) /\
  (forall e, whole = Err e <-> part = Err e) /\ (whole = Panic <-> part = Panic) /\ (whole = OutOfFuel <-> part = OutOfFuel).

(** ** UPDATE *)
(** the body of an UPDATE: withdrawn routes [w], attributes [s], announced routes [nl] *)
Definition upd_body (w s nl : list N) : list N := be_bytes 2 (N.of_nat (length w)) ++ w ++ be_bytes 2 (N.of_nat (length s)) ++ s ++ nl.
(** the address family of the routes in an UPDATE itself *)
Definition own_afi (p : params) : N := match sp_mode p with ModeV4 => 1 | ModeV6 => 2 end.
