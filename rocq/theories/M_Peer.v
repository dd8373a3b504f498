(** Model of the [BgpMessage] trait's implementations taken together (/repo/src/message) and of the client in
    /repo/examples/bgpdumper.rs. The TCP stream is the list of octets the peer has sent and will ever send; reading
    beyond it is an I/O error. Printing becomes a list of events; the keepalive thread (bgpdumper.rs:65-86) only
    writes and is modelled in M_Client. *)
From Verif Require Import Base M_Util M_Cap M_Open M_Session M_Addrs M_Attr M_Update.

(** message/mod.rs:19-34 *)
Inductive message :=
| MsgOpen (m : openMsg)
| MsgUpdate (m : update)
| MsgNotification (m : notifMsg)
| MsgKeepalive.
(** message/mod.rs:29-34 *)
Definition message_type (m : message) : msgtype :=
  match m with MsgOpen _ => MOpen | MsgUpdate _ => MUpdate | MsgNotification _ => MNotification | MsgKeepalive => MKeepalive end.
(** [encode_to] of open.rs, update/mod.rs:205-289, notification.rs:150-160, keepalive.rs:19-21 *)
Definition message_encode (oc : bool) (p : params) (m : message) : Enc nat :=
  match m with
  | MsgOpen m => open_encode m
  | MsgUpdate m => update_encode oc p m
  | MsgNotification m => notif_encode m
  | MsgKeepalive => eret 0%nat
  end.
(** [decode_from] on a new message: open.rs, update/mod.rs:112-204, notification.rs:135-149, keepalive.rs:16-18 *)
Definition message_decode (oc : bool) (p : params) (t : msgtype) (buf : list N) : res message :=
  match t with
  | MOpen => m <- open_decode open_new buf ;; Ok (MsgOpen m)
  | MUpdate => m <- update_decode oc p update_new buf ;; Ok (MsgUpdate m)
  | MNotification => m <- notif_decode notif_new buf ;; Ok (MsgNotification m)
  | MKeepalive => Ok MsgKeepalive
  end.
(** How a message is sent, bgpdumper.rs:39-48: [encode_to(&mut buf[19..])?], [prepare_message_buf]?, [&buf[0..blen]] *)
Definition send_message (oc : bool) (p : params) (m : message) : Enc (list N) :=
  messagelen <~ on_from 19 (message_encode oc p m) ;;
  blen <~ prepare_message_buf oc (message_type m) messagelen ;;
  (fun buf => s <- rslice buf 0 blen ;; Ok (s, buf)).

(** [PartialEq] of BgpMessageType, derived (message/mod.rs:28) *)
Definition msgtype_eqb (a b : msgtype) : bool :=
  match a, b with
  | MOpen, MOpen | MUpdate, MUpdate | MNotification, MNotification | MKeepalive, MKeepalive => true
  | _, _ => false
  end.
(** bgpdumper.rs:31-35 over the input [s] *)
Definition recv_message_head (oc : bool) (s : list N) : res (msgtype * nat * list N) :=
  if Nat.ltb (length s) 19 then Err EOther else
  '(t, n) <- decode_message_head oc (firstn 19 s) ;; Ok (t, n, skipn 19 s).
(** bgpdumper.rs:36-64: the octets sent, the session parameters afterwards and the remaining input *)
Definition start_active (oc : bool) (p : params) (s : list N) : res (list N * params * list N) :=
  '(out, _) <- send_message oc p (MsgOpen (open_message p)) (repeat 255 4096) ;;
  '(t, n, s) <- recv_message_head oc s ;;
  if negb (msgtype_eqb t MOpen) then Err EOther else
  if Nat.ltb 4096 n then Panic else
  if Nat.ltb (length s) n then Err EOther else
  bom <- open_decode (open_message p) (firstn n s) ;;
  Ok (out, check_caps (mkParams (sp_as p) (op_hold bom) (sp_mode p) (sp_as32 p) (sp_rid p) (op_caps bom) (sp_fuzzy p)), skipn n s).

(** what bgpdumper.rs:101-131 prints *)
Inductive event :=
| EvOpen
| EvNotification (m : notifMsg)
| EvNotificationError (e : err)
| EvUpdate (m : update)
| EvUpdateError (e : err).
(** bgpdumper.rs:87-134: the events and how the loop ended; its buffer has 65536 octets *)
Fixpoint lifecycle (oc : bool) (fuel : nat) (p : params) (s : list N) : list event * res unit :=
  match fuel with
  | O => ([], OutOfFuel)
  | S fuel' =>
      match recv_message_head oc s with
      | Err e => ([], Err e)
      | Panic => ([], Panic)
      | OutOfFuel => ([], OutOfFuel)
      | Ok (t, n, s) =>
          if msgtype_eqb t MKeepalive then lifecycle oc fuel' p s else
          if Nat.ltb (N.to_nat 65536) n then ([], Panic) else
          if Nat.ltb (length s) n then ([], Err EOther) else
          match t with
          | MOpen => ([EvOpen], Ok tt)
          | MKeepalive => lifecycle oc fuel' p s
          | MNotification =>
              match notif_decode notif_new (firstn n s) with
              | Err e => ([EvNotificationError e], Ok tt)
              | Ok m => ([EvNotification m], Ok tt)
              | Panic => ([], Panic)
              | OutOfFuel => ([], OutOfFuel)
              end
          | MUpdate =>
              match update_decode oc p update_new (firstn n s) with
              | Err e => let '(v, r) := lifecycle oc fuel' p (skipn n s) in (EvUpdateError e :: v, r)
              | Ok m => let '(v, r) := lifecycle oc fuel' p (skipn n s) in (EvUpdate m :: v, r)
              | Panic => ([], Panic)
              | OutOfFuel => ([], OutOfFuel)
              end
          end
      end
  end.
