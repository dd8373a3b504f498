(** Specification of OPEN and NOTIFICATION bodies and of message framing
    (RFC 4271 sections 4.1, 4.2, 4.5; RFC 5492; RFC 6793). *)
From Verif Require Import Base M_Cap M_Open M_Session S_Cap.

(** Each capability travels in an optional parameter of its own (type 2). *)
Definition param_wire (c : bgpcap) : list N :=
  2 :: N.of_nat (length (cap_wire c)) :: cap_wire c.
Definition params_wire (v : list bgpcap) : list N := concat (map param_wire v).
Definition wire_as (n : N) : N := if n <? 65536 then n else 23456.
(** [ol] is the optional-parameters-length octet. *)
Definition open_wire_ol (ol : N) (m : openMsg) : list N :=
  [4] ++ be_bytes 2 (wire_as (op_as m)) ++ be_bytes 2 (op_hold m) ++ be_bytes 4 (op_rid m) ++
  [ol] ++ params_wire (op_caps m).
Definition open_wire (m : openMsg) : list N :=
  open_wire_ol (N.of_nat (length (params_wire (op_caps m)))) m.

(** a capability that fits an optional parameter *)
Definition cap_fits (c : bgpcap) : Prop := payload_wf c /\ (length (cap_wire c) < 256)%nat.
Definition cap_sendable (c : bgpcap) : Prop := cap_fits c /\ ~ is_fqdn c.
Definition open_wf (m : openMsg) : Prop :=
  op_as m < 2 ^ 32 /\ op_hold m < 65536 /\ op_rid m < 2 ^ 32 /\ Forall cap_sendable (op_caps m).
(** what the peer learns from an OPEN *)
Definition open_seen (m : openMsg) : openMsg :=
  mkOpen (wire_as (op_as m)) (op_hold m) (op_rid m) (op_caps m).

Definition notif_wf (m : notifMsg) : Prop :=
  nt_code m < 256 /\ nt_sub m < 256 /\ nt_data m < 65536.
Definition notif_wire (m : notifMsg) : list N :=
  [nt_code m; nt_sub m] ++ be_bytes 2 (nt_data m).

Definition msg_code (t : msgtype) : N :=
  match t with MOpen => 1 | MUpdate => 2 | MNotification => 3 | MKeepalive => 4 end.
(** header of a message with a body of [n] octets *)
Definition header (t : msgtype) (n : nat) : list N :=
  repeat 255 16 ++ be_bytes 2 (N.of_nat (n + 19)) ++ [msg_code t].
Definition frame (m : msgtype * list N) : list N := header (fst m) (length (snd m)) ++ snd m.
(** a header that names message type [t] and total length [len] *)
Definition is_header (buf : list N) (t : msgtype) (len : N) : Prop :=
  (19 <= length buf)%nat /\ firstn 16 buf = repeat 255 16 /\
  be_val (sub buf 16 18) = len /\ nth_error buf 18 = Some (msg_code t).

(** capability sets *)
Definition plain (c : bgpcap) : Prop :=
  match c with CapASN32 _ | CapAddPath _ => False | _ => True end.
Definition plainb (c : bgpcap) : bool :=
  match c with CapASN32 _ | CapAddPath _ => false | _ => true end.
Definition has_asn32 (l : list bgpcap) : Prop := exists n, In (CapASN32 n) l.
Definition ap_entry (l : list bgpcap) (e : capAP) : Prop :=
  exists v, In (CapAddPath v) l /\ In e v.
(** order-preserving selection of the elements satisfying [P] *)
Inductive selects {A} (P : A -> Prop) : list A -> list A -> Prop :=
| sel_nil : selects P [] []
| sel_keep x l l' : P x -> selects P l l' -> selects P (x :: l) (x :: l')
| sel_drop x l l' : ~ P x -> selects P l l' -> selects P (x :: l) l'.
