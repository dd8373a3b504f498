(** Specification of End-of-RIB markers (RFC 4724 section 2). *)
From Verif Require Import Base M_Util S_Wire M_Cap M_Open M_Session M_Addrs M_Attr M_Update.

(** the empty list of a family; [ids]: of routes with path identifiers, in the families that can have them *)
Definition no_routes (afi sf : N) (ids : bool) : option addrs :=
  match afi, sf with
  | 1, 1 => Some (if ids then IPV4UP [] else IPV4U [])
  | 1, 2 => Some (if ids then IPV4MP [] else IPV4M [])
  | 1, 4 => Some (if ids then IPV4LUP [] else IPV4LU [])
  | 1, 5 => Some (MVPN [])
  | 1, 66 => Some (if ids then IPV4MDTP [] else IPV4MDT [])
  | 1, 128 => Some (if ids then VPNV4UP [] else VPNV4U [])
  | 1, 129 => Some (if ids then VPNV4MP [] else VPNV4M [])
  | 1, 133 => Some (FS4U [])
  | 1, 134 => Some (FSV4U [])
  | 2, 1 => Some (if ids then IPV6UP [] else IPV6U [])
  | 2, 2 => Some (if ids then IPV6MP [] else IPV6M [])
  | 2, 4 => Some (if ids then IPV6LUP [] else IPV6LU [])
  | 2, 66 => Some (if ids then IPV6MDTP [] else IPV6MDT [])
  | 2, 128 => Some (if ids then VPNV6UP [] else VPNV6U [])
  | 2, 129 => Some (if ids then VPNV6MP [] else VPNV6M [])
  | 2, 133 => Some (FS6U [])
  | 25, 65 => Some (L2VPLS [])
  | 25, 70 => Some (EVPN [])
  | _, _ => None
  end.
(** the families with path identifiers *)
Definition with_ids (afi sf : N) : Prop := no_routes afi sf true <> no_routes afi sf false.
(** the family of the plain routes of a session *)
Definition plain_afi (p : params) : N := match sp_mode p with ModeV4 => 1 | ModeV6 => 2 end.

(** ** On the wire *)
(** an UPDATE without anything *)
Definition eor_plain : list N := [0; 0; 0; 0].
(** an UPDATE with MP_UNREACH_NLRI alone, and no route in it; flag 16 asks for two octets of length *)
Definition eor (f afi sf : N) : list N :=
  [0; 0] ++ (if N.testbit f 4 then [0; 7; f; 15; 0; 3] else [0; 6; f; 15; 3]) ++ [afi / 256; afi mod 256; sf].
(** the same with octets [w], [s] and [nl] where withdrawn, unreachable and announced routes would be *)
Definition len2 (s : list N) (k : N) : list N := be_bytes 2 (N.of_nat (length s) + k).
Definition eor_plain_with (w nl : list N) : list N := len2 w 0 ++ w ++ [0; 0] ++ nl.
Definition eor_with (w : list N) (f afi sf : N) (s nl : list N) : list N :=
  len2 w 0 ++ w ++
  (if N.testbit f 4 then len2 s 7 ++ [f; 15] ++ len2 s 3 else len2 s 6 ++ [f; 15] ++ [N.of_nat (length s) + 3]) ++
  [afi / 256; afi mod 256; sf] ++ s ++ nl.
(** octets that are too few for a path identifier and a route *)
Definition stray (p : params) (afi sf : N) (s : list N) : Prop :=
  s = [] \/ with_ids afi sf /\ check_addpath_receive p afi sf = true /\ (length s <= 4)%nat.

(** ** As the caller sees them *)
(** an UPDATE without routes and without attributes *)
Definition says_eor_plain (u : update) : Prop :=
  addrs_is_empty (u_updates u) = true /\ addrs_is_empty (u_withdraws u) = true /\ u_attrs u = [].
(** an UPDATE without routes whose only attribute withdraws nothing of a family *)
Definition says_eor (u : update) (afi sf : N) : Prop :=
  addrs_is_empty (u_updates u) = true /\ addrs_is_empty (u_withdraws u) = true /\
  exists a, u_attrs u = [AMPWithdraws a] /\ addrs_is_empty a = true /\ get_afi_safi a = (afi, sf).
