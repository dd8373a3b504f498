(** Specification of messages of any length. *)
From Verif Require Import Base M_Util S_Wire M_Cap M_Open M_Session S_Cap S_Open M_Addrs S_Addrs M_Attr S_Attr M_Update S_Update M_Peer S_Peer.

(** Well-formed messages, however long ([message_ok] without the bound of the header's length field). *)
Definition message_well (p : params) (m : message) : Prop :=
  match m with
  | MsgOpen m => open_wf m
  | MsgUpdate m => update_ok p m
  | MsgNotification m => notif_wf m
  | MsgKeepalive => True
  end.
(** [long] is [short] with more routes announced after its own, whose octets are [more]. *)
Definition extends (p : params) (short long : update) (more : list N) : Prop :=
  u_withdraws long = u_withdraws short /\ u_attrs long = u_attrs short /\
  nlri_wire p (u_updates long) = nlri_wire p (u_updates short) ++ more.
(** A session of IPv4 peers without path identifiers, negotiated or guessed. *)
Definition plain4 (p : params) : Prop := sp_mode p = ModeV4 /\ sp_fuzzy p = false /\ check_addpath_receive p 1 1 = false.
