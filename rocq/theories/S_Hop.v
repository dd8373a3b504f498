(** Next hops of multiprotocol announcements, in the forms of the RFCs: none (8955), an IPv4 address (4760), an IPv6
    address (2545, 8950) with or without a link-local address, and the same behind route distinguishers (4364, 4659, 8950). *)
From Verif Require Import Base M_Util S_Wire M_Prefix M_Nlri S_Nlri M_Cap M_Open M_Session M_Addrs M_Attr.

Inductive hop :=
| NoHop | Hop4 (a : N) | Hop6 (a : N) | Hop6Local (a b : N)
| HopRD4 (rd : bgpRD) (a : N) | HopRD6 (rd : bgpRD) (a : N) | HopRD6Local (rd : bgpRD) (a : N) (rd' : bgpRD) (b : N).
Definition hop_wire (h : hop) : list N :=
  match h with
  | NoHop => []
  | Hop4 a => be_bytes 4 a
  | Hop6 a => be_bytes 16 a
  | Hop6Local a b => be_bytes 16 a ++ be_bytes 16 b
  | HopRD4 rd a => rd_wire rd ++ be_bytes 4 a
  | HopRD6 rd a => rd_wire rd ++ be_bytes 16 a
  | HopRD6Local rd a rd' b => (rd_wire rd ++ be_bytes 16 a) ++ rd_wire rd' ++ be_bytes 16 b
  end.
Definition hop_wf (h : hop) : Prop :=
  match h with
  | NoHop => True
  | Hop4 a => a < 2 ^ 32
  | Hop6 a => a < 2 ^ 128
  | Hop6Local a b => a < 2 ^ 128 /\ b < 2 ^ 128
  | HopRD4 rd a => rd_wf rd /\ a < 2 ^ 32
  | HopRD6 rd a => rd_wf rd /\ a < 2 ^ 128
  | HopRD6Local rd a rd' b => (rd_wf rd /\ a < 2 ^ 128) /\ rd_wf rd' /\ b < 2 ^ 128
  end.
(** MP_REACH_NLRI: family, next hop, no SNPA, routes *)
Definition announcement (afi sf : N) (h : hop) (r : list N) : list N :=
  be_bytes 2 afi ++ [sf; N.of_nat (length (hop_wire h))] ++ hop_wire h ++ [0] ++ r.
(** the routes [r] of the family, with the next hop [nh]; or what is wrong with the routes *)
Definition reported (oc : bool) (p : params) (afi sf : N) (nh : bgpaddr) (r : list N) : res attr :=
  '(a, _) <- addrs_decode oc p afi sf r ;; Ok (AMPUpdates nh a).

(** the forms the code knows, by family; with a link-local address, the global one is reported *)
Definition known_hop (afi sf : N) (h : hop) (nh : bgpaddr) : Prop :=
  match h, nh with
  | Hop4 a, BAV4 a' => a = a' /\ (afi = 1 /\ In sf [1; 2; 4; 5; 66; 133] \/ afi = 25 /\ In sf [65; 70])
  | Hop6 a, BAV6 a' | Hop6Local a _, BAV6 a' => a = a' /\ afi = 2 /\ In sf [1; 2; 4; 66]
  | HopRD4 rd a, BAV4RD rd' a' => rd = rd' /\ a = a' /\ afi = 1 /\ In sf [128; 129; 134]
  | HopRD6 rd a, BAV6RD rd' a' => rd = rd' /\ a = a' /\ afi = 2 /\ In sf [128; 129]
  | _, _ => False
  end.
