(** Where an UPDATE can carry routes of the session's own family. *)
From Verif Require Import Base M_Util S_Wire M_Cap M_Open M_Session M_Addrs M_Attr M_Update S_Attr.

(** behind the attributes, in front of them, and in the multiprotocol attributes (RFC 4760), with flags and next hop *)
Inductive place := Announced | Withdrawn | Reach (f hop : N) | Unreach (f : N).

(** the AFI of the family, a next hop of it, as octets and as the caller sees it *)
Definition fam_afi (p : params) : N := match sp_mode p with ModeV4 => 1 | ModeV6 => 2 end.
Definition hop_octets (p : params) (x : N) : list N := match sp_mode p with ModeV4 => be_bytes 4 x | ModeV6 => be_bytes 16 x end.
Definition hop_seen (p : params) (x : N) : bgpaddr := match sp_mode p with ModeV4 => BAV4 x | ModeV6 => BAV6 x end.
Definition hop_fits (p : params) (x : N) : Prop := match sp_mode p with ModeV4 => x < 2 ^ 32 | ModeV6 => x < 2 ^ 128 end.

(** the payload of the attribute *)
Definition reach_octets (p : params) (x : N) (r : list N) : list N :=
  [0; fam_afi p; 1; match sp_mode p with ModeV4 => 4 | ModeV6 => 16 end] ++ hop_octets p x ++ [0] ++ r.
Definition unreach_octets (p : params) (r : list N) : list N := [0; fam_afi p; 1] ++ r.
(** an UPDATE with the routes [r] in the place and nothing else *)
Definition carried (p : params) (l : place) (r : list N) : list N :=
  match l with
  | Announced => [0; 0; 0; 0] ++ r
  | Withdrawn => be_bytes 2 (N.of_nat (length r)) ++ r ++ [0; 0]
  | Reach f x => let a := frame f 14 (reach_octets p x r) in [0; 0] ++ be_bytes 2 (N.of_nat (length a)) ++ a
  | Unreach f => let a := frame f 15 (unreach_octets p r) in [0; 0] ++ be_bytes 2 (N.of_nat (length a)) ++ a
  end.
(** the place is one, and has room for [n] octets of routes *)
Definition room (p : params) (l : place) (n : N) : Prop :=
  match l with
  | Announced => True
  | Withdrawn => n <= 65535
  | Reach f x => f < 256 /\ hop_fits p x /\
      n + (match sp_mode p with ModeV4 => 9 | ModeV6 => 21 end) <= (if N.testbit f 4 then 65531 else 255)
  | Unreach f => f < 256 /\ n + 3 <= (if N.testbit f 4 then 65531 else 255)
  end.
(** the message that says [a] there and nothing elsewhere: lists of the caller's for the other places *)
Definition said (p : params) (l : place) (u : update) (a : addrs) : Prop :=
  match l with
  | Announced => u_updates u = a /\ addrs_is_empty (u_withdraws u) = true /\ u_attrs u = []
  | Withdrawn => u_withdraws u = a /\ addrs_is_empty (u_updates u) = true /\ u_attrs u = []
  | Reach _ x => u_attrs u = [AMPUpdates (hop_seen p x) a] /\ addrs_is_empty (u_updates u) = true /\ addrs_is_empty (u_withdraws u) = true
  | Unreach _ => u_attrs u = [AMPWithdraws a] /\ addrs_is_empty (u_updates u) = true /\ addrs_is_empty (u_withdraws u) = true
  end.
(** the lists of the family *)
Definition own_list (p : params) (a : addrs) : Prop :=
  match sp_mode p, a with ModeV4, IPV4U _ | ModeV4, IPV4UP _ | ModeV6, IPV6U _ | ModeV6, IPV6UP _ => True | _, _ => False end.
(** the place with the flags with which multiprotocol attributes are sent: optional, with two octets of length *)
Definition sent_flags (l : place) : Prop := match l with Reach f _ | Unreach f => f = 144 | _ => True end.
