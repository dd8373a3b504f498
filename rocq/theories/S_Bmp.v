(** Specification of BMP messages (RFC 7854 sections 4.1 to 4.10). *)
From Verif Require Import Base M_Util S_Wire M_Nlri S_Nlri M_Cap S_Cap M_Open M_Session S_Open M_Addrs M_Attr M_Update S_Update M_Order M_Bmp.

(** RFC 7854 4.2: 16 octets; an IPv4 address is preceded by 12 zero octets *)
Definition addr_field (a : ipaddr) : list N :=
  match a with IPv4 a => repeat 0 12 ++ be_bytes 4 a | IPv6 a => be_bytes 16 a end.
(** the IPv6 addresses of ::/96, whose octets are those of an IPv4 address *)
Definition v4_like (a : ipaddr) : Prop := match a with IPv6 a => a < 2 ^ 32 | IPv4 _ => False end.
(** [buf] behind the first [n] octets, or as many zeros *)
Definition behind (zeroed : bool) (n : nat) (buf : list N) : list N :=
  if zeroed then repeat 0 (length buf - n) else skipn n buf.
Definition is_v4 (a : ipaddr) : bool := match a with IPv4 _ => true | IPv6 _ => false end.

(** RFC 7854 4.2: per-peer header *)
Definition peer_wf (h : peerhdr) : Prop :=
  ph_type h < 256 /\ ph_flags h < 256 /\ rd_wf (ph_rd h) /\ ip_wf (ph_addr h) /\ ph_as h < 2 ^ 32 /\ ph_rid h < 2 ^ 32 /\ ph_time h < 2 ^ 64.
Definition peer_wire (h : peerhdr) : list N :=
  [ph_type h; ph_flags h] ++ rd_wire (ph_rd h) ++ addr_field (ph_addr h) ++ be_bytes 4 (ph_as h) ++ be_bytes 4 (ph_rid h) ++ be_bytes 8 (ph_time h).
(** the same header with another address *)
Definition with_addr (h : peerhdr) (a : ipaddr) : peerhdr :=
  mkPeer (ph_type h) (ph_flags h) (ph_rd h) a (ph_as h) (ph_rid h) (ph_time h).

(** RFC 7854 4.4: information TLV *)
Definition tlv (t : N) (s : list N) : list N := be_bytes 2 t ++ be_bytes 2 (N.of_nat (length s)) ++ s.
Definition opt_tlv (t : N) (s : option (list N)) : list N := match s with Some s => tlv t s | None => [] end.
(** a string that fits a TLV *)
Definition str_ok (s : option (list N)) : Prop :=
  match s with Some s => utf8_ok s = true /\ N.of_nat (length s) < 65536 | None => True end.
(** a sequence of TLVs, each a type and a value; the last value of type [t] *)
Definition tlvs_wire (l : list (N * list N)) : list N := flat_map (fun x => tlv (fst x) (snd x)) l.
Definition last_of (t : N) (l : list (N * list N)) : option (list N) := option_map snd (find (fun x => fst x =? t) (rev l)).
Definition tlv_fits (x : N * list N) : Prop := fst x < 65536 /\ N.of_nat (length (snd x)) < 65536.
(** RFC 7854 4.3: string 0, sysDescr 1, sysName 2 *)
Definition init_ok (m : bmpinit) : Prop := str_ok (in_str m) /\ str_ok (in_descr m) /\ str_ok (in_name m).
Definition init_wire (m : bmpinit) : list N := opt_tlv 0 (in_str m) ++ opt_tlv 1 (in_descr m) ++ opt_tlv 2 (in_name m).
(** all three under type 0 *)
Definition init_sent (m : bmpinit) : list N := opt_tlv 0 (in_str m) ++ opt_tlv 0 (in_descr m) ++ opt_tlv 0 (in_name m).
Definition later {T} (a b : option T) : option T := match b with Some _ => b | None => a end.
(** RFC 7854 4.5: string 0, reason 1 *)
Definition term_ok (m : bmpterm) : Prop :=
  str_ok (tm_str m) /\ match tm_reason m with Some r => r < 65536 | None => True end.
Definition term_wire (m : bmpterm) : list N :=
  opt_tlv 0 (tm_str m) ++ match tm_reason m with Some r => tlv 1 (be_bytes 2 r) | None => [] end.
(** TLVs of a Termination message: strings are text, reasons have at least two octets *)
Definition term_tlv_text (x : N * list N) : Prop := tlv_fits x /\ (fst x = 0 -> utf8_ok (snd x) = true).
Definition term_tlv_ok (x : N * list N) : Prop := term_tlv_text x /\ (fst x = 1 -> bytes_ok (snd x) /\ (2 <= length (snd x))%nat).

(** RFC 7854 4.10: local address, ports, sent OPEN, received OPEN. The octet counting the optional parameters of an OPEN is
    taken modulo 256; see C31. *)
Definition open_sent (m : openMsg) : list N := open_wire_ol (N.of_nat (length (params_wire (op_caps m))) mod 256) m.
Definition up_wf (m : peerup) : Prop :=
  peer_wf (pu_peer m) /\ ip_wf (pu_local m) /\ pu_lport m < 65536 /\ pu_rport m < 65536 /\ open_wf (pu_msg1 m) /\ open_wf (pu_msg2 m) /\
  N.of_nat (length (open_wire (pu_msg1 m))) <= 65516 /\ N.of_nat (length (open_wire (pu_msg2 m))) <= 65516.
Definition up_head (m : peerup) : list N :=
  peer_wire (pu_peer m) ++ addr_field (pu_local m) ++ be_bytes 2 (pu_lport m) ++ be_bytes 2 (pu_rport m).
Definition up_wire (m : peerup) : list N :=
  up_head m ++ frame (MOpen, open_sent (pu_msg1 m)) ++ frame (MOpen, open_sent (pu_msg2 m)).
Definition up_seen (m : peerup) : peerup :=
  mkUp (pu_peer m) (pu_local m) (pu_lport m) (pu_rport m) (open_seen (pu_msg1 m)) (open_seen (pu_msg2 m)).

(** RFC 7854 4.9 *)
Definition down_wf (m : peerdown) : Prop :=
  peer_wf (pd_peer m) /\
  match pd_reason m with AdminClosed n | RemoteNotif n => notif_wf n | LocalState s => s < 65536 | _ => True end.
Definition reason_wire (r : downreason) : list N :=
  match r with
  | AdminClosed n => 1 :: frame (MNotification, notif_wire n)
  | LocalState s => 2 :: be_bytes 2 s
  | RemoteNotif n => 3 :: frame (MNotification, notif_wire n)
  | RemoteClosed => [4]
  | BmpDisabled => [5]
  end.
Definition down_wire (m : peerdown) : list N := peer_wire (pd_peer m) ++ reason_wire (pd_reason m).

(** RFC 7854 4.6, for an UPDATE written under the session parameters [p] *)
Definition rmon_wf (p : params) (m : rmon) : Prop :=
  peer_wf (rm_peer m) /\ update_ok p (rm_update m) /\ N.of_nat (length (update_wire p (rm_update m))) <= 65516.
Definition rmon_wire (p : params) (m : rmon) : list N :=
  peer_wire (rm_peer m) ++ frame (MUpdate, update_wire p (rm_update m)).

(** ** Sessions *)

(** a peer is told by its distinguisher and address *)
Definition peer_id (h : peerhdr) : bgpRD * ipaddr := (ph_rd h, ph_addr h).
(** the session of a peer which is not up: AS numbers of four octets, the family of its address, no capabilities, the path-id guessed *)
Definition default_session (h : peerhdr) : params :=
  mkParams (ph_as h) 0 (match ph_addr h with IPv4 _ => ModeV4 | IPv6 _ => ModeV6 end) true (ph_rid h) [] true.
(** the session an OPEN offers: the AS number of its last four-octet-AS capability, four octets if there is one, nothing guessed *)
Fixpoint offered_as (n : N) (caps : list bgpcap) : N :=
  match caps with [] => n | CapASN32 a :: caps' => offered_as a caps' | _ :: caps' => offered_as n caps' end.
Definition open_session (m : openMsg) : params :=
  mkParams (offered_as (op_as m) (op_caps m)) (op_hold m) ModeV4
    (existsb (fun c => match c with CapASN32 _ => true | _ => false end) (op_caps m)) (op_rid m) (op_caps m) false.

(** RFC 7854 4.1: message types *)
Definition msg_wire (m : bmpmsg) : list N :=
  match m with
  | RouteMonitoring m => 0 :: rmon_wire (default_session (rm_peer m)) m
  | StatisticsReport => [1]
  | PeerDown m => 2 :: down_wire m
  | PeerUp m => 3 :: up_wire m
  | Initiation m => 4 :: init_wire m
  | Termination m => 5 :: term_wire m
  | RouteMirroring => [6]
  end.

(** messages that can be told from their octets; what is understood *)
Definition msg_wf (m : bmpmsg) : Prop :=
  match m with
  | RouteMonitoring m => rmon_wf (default_session (rm_peer m)) m /\ ~ v4_like (ph_addr (rm_peer m))
  | PeerDown m => down_wf m /\ ~ v4_like (ph_addr (pd_peer m))
  | PeerUp m => up_wf m /\ ~ v4_like (ph_addr (pu_peer m)) /\ ~ v4_like (pu_local m)
  | Initiation m => init_ok m
  | Termination m => term_ok m
  | StatisticsReport | RouteMirroring => True
  end.
Definition rmon_seen (p : params) (m : rmon) : rmon := mkRmon (rm_peer m) (update_norm p (rm_update m)).
Definition msg_seen (m : bmpmsg) : bmpmsg :=
  match m with
  | RouteMonitoring m => RouteMonitoring (rmon_seen (default_session (rm_peer m)) m)
  | PeerUp m => PeerUp (up_seen m)
  | m => m
  end.
(** messages whose encoding is that of RFC 7854 *)
Definition msg_sendable (m : bmpmsg) : Prop :=
  match m with
  | StatisticsReport | RouteMirroring => False
  | Initiation m => in_descr m = None /\ in_name m = None
  | _ => True
  end.
(** whether the encoder zeroes the buffer behind the message *)
Definition msg_zeroes (m : bmpmsg) : bool :=
  match m with
  | RouteMonitoring m => is_v4 (ph_addr (rm_peer m))
  | PeerDown m => is_v4 (ph_addr (pd_peer m))
  | PeerUp m => is_v4 (ph_addr (pu_peer m)) || is_v4 (pu_local m)
  | _ => false
  end.

(** The octets the length field [len] stands for; lengths below that of the header wrap around when overflow is not
    checked. *)
Definition wrapped (len : N) : N := if len <? 19 then len + 65536 else len.
(** the embedded BGP message at position [pos]: its body and the position behind it *)
Definition body_at (oc : bool) (want : msgtype) (buf : list N) (pos : nat) (b : list N) (q : nat) : Prop :=
  exists len, is_header (skipn pos buf) want len /\ (len < 19 -> oc = false) /\
    N.of_nat q = N.of_nat pos + wrapped len /\ (q <= length buf)%nat /\ b = sub buf (pos + 19) q.
(** The embedded BGP message at position [pos] does not lie within [buf], or its length is below that of a header and
    overflow is checked. *)
Definition body_outside (oc : bool) (want : msgtype) (buf : list N) (pos : nat) : Prop :=
  exists t len, is_header (skipn pos buf) t len /\
  ((len < 19 /\ oc = true) \/ (t = want /\ N.of_nat (length buf) < N.of_nat pos + wrapped len)).
(** inputs on which the decoders of the message kinds panic; [b] is the message without its type octet *)
Definition term_panics (b : list N) : Prop :=
  exists l v tail, b = tlvs_wire l ++ tlv 1 v ++ tail /\ Forall term_tlv_text l /\ (length v + length tail < 2)%nat.
Definition down_panics (oc : bool) (b : list N) : Prop :=
  (nth_error b 42 = Some 1 \/ nth_error b 42 = Some 3) /\ body_outside oc MNotification b 43.
Definition up_panics (oc : bool) (b : list N) : Prop :=
  body_outside oc MOpen b 62 \/
  exists o q m, body_at oc MOpen b 62 o q /\ open_decode open_new o = Ok m /\ body_outside oc MOpen b q.
Definition rmon_panics (oc : bool) (pars : peerhdr -> params) (b : list N) : Prop :=
  (62 <= length b)%nat /\
  (body_outside oc MUpdate b 42 \/
   exists h rest u q, b = peer_wire h ++ rest /\ peer_wf h /\ ~ v4_like (ph_addr h) /\ body_at oc MUpdate b 42 u q /\
     update_decode oc (pars h) update_new u = Panic).
Definition bmp_panics (oc : bool) (pars : peerhdr -> params) (buf : list N) : Prop :=
  match buf with
  | [] => True
  | 0 :: b => rmon_panics oc pars b
  | 2 :: b => down_panics oc b
  | 3 :: b => up_panics oc b
  | 5 :: b => term_panics b
  | _ => False
  end.

(** ** Sessions *)

(** what a message does to the table: nothing, or a peer up or down *)
Inductive event := EvNone | EvUp (m : peerup) | EvDown (m : peerdown).
Definition event_of (oc : bool) (buf : list N) : event :=
  match buf with
  | 2 :: b => match peerdown_decode oc b with Ok (m, _) => EvDown m | _ => EvNone end
  | 3 :: b => match peerup_decode oc b with Ok (m, _) => EvUp m | _ => EvNone end
  | _ => EvNone
  end.
(** the peer with this RD and address is up after the events, by the latest of them that concerns it *)
Inductive up_after (k : bgpRD * ipaddr) (start : option peerup) : list event -> option peerup -> Prop :=
| up_start : up_after k start [] start
| up_none evs r : up_after k start evs r -> up_after k start (evs ++ [EvNone]) r
| up_other evs r e : up_after k start evs r ->
    match e with EvUp m => peer_id (pu_peer m) <> k | EvDown m => peer_id (pd_peer m) <> k | EvNone => False end ->
    up_after k start (evs ++ [e]) r
| up_up evs r m : up_after k start evs r -> peer_id (pu_peer m) = k -> up_after k start (evs ++ [EvUp m]) (Some m)
| up_down evs r m : up_after k start evs r -> peer_id (pd_peer m) = k -> up_after k start (evs ++ [EvDown m]) None.
(** the table after a sequence of calls *)
Fixpoint session_run (oc : bool) (t : table) (bufs : list (list N)) : table :=
  match bufs with [] => t | b :: bufs' => session_run oc (snd (session_decode oc t b)) bufs' end.
(** entries in ascending order of their keys *)
Fixpoint ascending (t : table) : Prop :=
  match t with
  | [] => True
  | (k, _) :: t' => Forall (fun e => ocmp oskey k (fst e) = Lt) t' /\ ascending t'
  end.

(** RFC 7854 4.1: common header *)
Definition bmphdr_wire (h : bmphdr) : list N := bh_version h :: be_bytes 4 (bh_length h).

(** ** Order of per-peer headers: everything but the time *)
Definition peer_ident (h : peerhdr) := (ph_type h, ph_flags h, ph_rd h, ph_addr h, ph_as h, ph_rid h).
