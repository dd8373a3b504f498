(** A station which receives the messages of a BMP router (RFC 7854): how the stream is cut into messages, and which messages have an
    influence on how a peer's routes are read. *)
From Verif Require Import Base M_Util S_Wire M_Nlri S_Nlri M_Cap S_Cap M_Open M_Session S_Open M_Addrs M_Attr M_Update S_Update M_Order M_Bmp S_Bmp.

(** RFC 7854 4.1: a message, from its type octet on, with the common header before it *)
Definition bmp_frame (w : list N) : list N := bmphdr_wire (mkBmpHdr 3 (5 + N.of_nat (length w))) ++ w.
(** What a program does to read a stream with the library: decode the common header, take as many octets as it says, decode these in
    the session. It stops when it has no complete message, or a header which cannot be one. The answers, the octets left and the table. *)
Fixpoint station (oc : bool) (fuel : nat) (t : table) (s : list N) : list (res bmpmsg) * list N * table :=
  match fuel with
  | O => ([], s, t)
  | S fuel' =>
      match bmphdr_decode s with
      | Ok (h, n) =>
          if (5 <? bh_length h) && (bh_length h <=? N.of_nat (length s)) then
            let len := N.to_nat (bh_length h) in
            let '(r, t') := session_decode oc t (sub s n len) in
            let '(rs, s', t'') := station oc fuel' t' (skipn len s) in (r :: rs, s', t'')
          else ([], s, t)
      | _ => ([], s, t)
      end
  end.

(** what a message the router has sent says about its peers *)
Definition said (m : bmpmsg) : event := match m with PeerUp m => EvUp (up_seen m) | PeerDown m => EvDown m | _ => EvNone end.
(** the session in which the UPDATEs of a peer are written: the peer's, as its OPEN says it, if the peer is up; the default otherwise *)
Definition peer_session (up : option peerup) (h : peerhdr) : params :=
  match up with
  | Some m => open_session (if ph_rid (pu_peer m) =? op_rid (pu_msg1 m) then pu_msg1 m else pu_msg2 m)
  | None => default_session h
  end.
(** [m], sent after the messages [past], is sent as the octets [w] and is to be received as [m'] *)
Inductive sent_as (past : list bmpmsg) : bmpmsg -> list N -> bmpmsg -> Prop :=
| sent_routes m up : up_after (peer_id (rm_peer m)) None (map said past) up -> rmon_wf (peer_session up (rm_peer m)) m -> ~ v4_like (ph_addr (rm_peer m)) ->
    sent_as past (RouteMonitoring m) (0 :: rmon_wire (peer_session up (rm_peer m)) m) (RouteMonitoring (rmon_seen (peer_session up (rm_peer m)) m))
| sent_other m : (forall r, m <> RouteMonitoring r) -> msg_wf m -> sent_as past m (msg_wire m) (msg_seen m).
(** a whole conversation: the messages, their octets, and what is to be received *)
Inductive told : list bmpmsg -> list (list N) -> list bmpmsg -> Prop :=
| told_nil : told [] [] []
| told_more ms ws rs m w r : told ms ws rs -> sent_as ms m w r -> told (ms ++ [m]) (ws ++ [w]) (rs ++ [r]).
(** an incomplete message *)
Definition incomplete (part : list N) : Prop := exists w more, N.of_nat (length w) + 5 < 2 ^ 32 /\ more <> [] /\ part ++ more = bmp_frame w.

(** ** Which messages matter *)

Definition same_ip (a b : ipaddr) : bool := match a, b with IPv4 x, IPv4 y | IPv6 x, IPv6 y => x =? y | _, _ => false end.
Definition same_peer (a b : bgpRD * ipaddr) : bool :=
  (rdh (fst a) =? rdh (fst b)) && (rdl (fst a) =? rdl (fst b)) && same_ip (snd a) (snd b).
(** the messages which say that the peer with this RD and address is up or down *)
Definition concerns (oc : bool) (k : bgpRD * ipaddr) (buf : list N) : bool :=
  match event_of oc buf with EvUp m => same_peer (peer_id (pu_peer m)) k | EvDown m => same_peer (peer_id (pd_peer m)) k | EvNone => false end.
(** the last of them *)
Definition last_word (oc : bool) (k : bgpRD * ipaddr) (bufs : list (list N)) : option (list N) := find (concerns oc k) (rev bufs).
(** the routes of an answer *)
Definition routes_of (r : res bmpmsg) : res update :=
  match r with Ok (RouteMonitoring m) => Ok (rm_update m) | Ok _ => Err EOther | Err e => Err e | Panic => Panic | OutOfFuel => OutOfFuel end.
(** RFC 7854 4.2: the A flag, AS paths have AS numbers of two octets *)
Definition flag_a (h : peerhdr) : Prop := N.testbit (ph_flags h) 5 = true.
(** the body of an UPDATE whose only attribute is a path of AS numbers of two octets, RFC 4271 4.3 *)
Definition legacy_update (v : list N) : list N :=
  let path := [2; N.of_nat (length v)] ++ flat_map (be_bytes 2) v in
  [0; 0] ++ be_bytes 2 (4 + N.of_nat (length path)) ++ [80; 2] ++ be_bytes 2 (N.of_nat (length path)) ++ path.
