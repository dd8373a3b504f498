(** Specification of a session between two peers. *)
From Verif Require Import Base M_Util S_Wire M_Cap M_Open M_Session S_Cap S_Open M_Addrs S_Addrs M_Attr S_Attr M_Update S_Update M_Peer.

(** ** Messages *)
Definition body_wire (p : params) (m : message) : list N :=
  match m with
  | MsgOpen m => open_wire_ol (N.of_nat (length (params_wire (op_caps m))) mod 256) m
  | MsgUpdate m => update_wire p m
  | MsgNotification m => notif_wire m
  | MsgKeepalive => []
  end.
(** messages the session [p] can carry; a body of at most 65516 octets fits the header's length *)
Definition message_ok (p : params) (m : message) : Prop :=
  N.of_nat (length (body_wire p m)) <= 65516 /\
  match m with
  | MsgOpen m => open_wf m
  | MsgUpdate m => update_ok p m
  | MsgNotification m => notif_wf m
  | MsgKeepalive => True
  end.
(** what the receiver sees of a message *)
Definition message_seen (p : params) (m : message) : message :=
  match m with
  | MsgOpen m => MsgOpen (open_seen m)
  | MsgUpdate m => MsgUpdate (update_norm p m)
  | MsgNotification m => MsgNotification m
  | MsgKeepalive => MsgKeepalive
  end.
(** both ends speak the same address family and the same AS number width *)
Definition same_session (q p : params) : Prop := sp_mode q = sp_mode p /\ sp_as32 q = sp_as32 p.
(** [out] is what the end with session [q] sends for [m] from some buffer that is large enough *)
Definition sent (oc : bool) (q p : params) (m : message) (out : list N) : Prop :=
  message_ok p m /\ exists buf buf', (19 + length (body_wire p m) <= length buf)%nat /\ send_message oc q m buf = Ok (out, buf').
(** what the client reports of a message it understands *)
Definition message_events (p : params) (m : message) : list event :=
  match m with
  | MsgOpen _ => [EvOpen]
  | MsgUpdate m => [EvUpdate (update_norm p m)]
  | MsgNotification m => [EvNotification m]
  | MsgKeepalive => []
  end.
(** messages after which the client goes on *)
Definition continues (m : message) : Prop :=
  match m with MsgUpdate _ | MsgKeepalive => True | _ => False end.

(** the OPEN that makes the session's parameters known *)
Definition our_open (p : params) : openMsg := mkOpen (sp_as p) (sp_hold p) (sp_rid p) (sp_caps p).
(** session parameters whose OPEN fits the client's buffer *)
Definition client_open_ok (p : params) : Prop := open_wf (our_open p) /\ (length (body_wire p (MsgOpen (our_open p))) + 19 <= 4096)%nat.

(** ** ADD-PATH (RFC 7911) *)
Definition announces (l : list bgpcap) (afi sf : N) (e : capAP) : Prop := ap_entry l e /\ ap_afi e = afi /\ ap_safi e = sf.
(** the session of [p] once it has seen the OPEN of [q] *)
Definition negotiated (p q : params) : params := match_caps p (sp_caps q).
(** one ADD-PATH capability at most, and one entry per family in it at most *)
Definition clear_addpath (l : list bgpcap) : Prop :=
  (forall v w, In (CapAddPath v) l -> In (CapAddPath w) l -> v = w) /\
  (forall afi sf e f, announces l afi sf e -> announces l afi sf f -> e = f).
