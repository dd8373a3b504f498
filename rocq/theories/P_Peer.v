(** Sessions between two peers, and the example client: C79-C81. *)
From Verif Require Import Base M_Util S_Wire M_Cap M_Open M_Session S_Cap S_Open M_Prefix M_Addrs S_Addrs M_Attr S_Attr M_Update S_Update M_Peer S_Peer F_Peer.

(** C79: the OPEN that one end sends tells the other end its capabilities, hold time, router id and AS number
    (AS_TRANS if it has more than two octets, RFC 6793). *)
Theorem C79_exchange : forall oc b self buf out b', open_wf (our_open b) ->
  (length (body_wire b (MsgOpen (our_open b))) <= N.to_nat 65516)%nat ->
  (19 + length (body_wire b (MsgOpen (our_open b))) <= length buf)%nat ->
  send_message oc b (MsgOpen (open_message b)) buf = Ok (out, b') ->
  decode_message_head oc out = Ok (MOpen, length out - 19)%nat /\
  exists m, open_decode self (skipn 19 out) = Ok m /\ op_caps m = sp_caps b /\ op_hold m = sp_hold b /\ op_rid m = sp_rid b /\
    op_as m = (if sp_as b <? 65536 then sp_as b else 23456).
Proof. exact exchange. Qed.
Print Assumptions C79_exchange.

(** Both ends then agree about the AS number width and about every capability but ADD-PATH. *)
Theorem C79_agree : forall a b,
  sp_as32 (negotiated a b) = sp_as32 (negotiated b a) /\
  (forall c, plain c -> In c (sp_caps (negotiated a b)) <-> In c (sp_caps (negotiated b a))) /\
  (sp_mode (negotiated a b) = sp_mode a /\ sp_hold (negotiated a b) = sp_hold a).
Proof. exact agree_rest. Qed.
Print Assumptions C79_agree.

(** ADD-PATH, exactly: an end sends path identifiers if both ends named the family and the other end can receive them,
    and expects them if both ends named the family and the other end sends them. *)
Theorem C79_addpath_exact : forall p r afi sf, clear_addpath r ->
  (check_addpath_send (match_caps p r) afi sf = true <->
     (exists l, announces (sp_caps p) afi sf l) /\ exists x, announces r afi sf x /\ ap_receive x = true) /\
  (check_addpath_receive (match_caps p r) afi sf = true <->
     (exists l, announces (sp_caps p) afi sf l) /\ exists x, announces r afi sf x /\ ap_send x = true).
Proof. exact negotiate_exact. Qed.
Print Assumptions C79_addpath_exact.

(** So the ends agree about the direction from [a] to [b] if one of them did not name the family, and otherwise exactly
    when [a]'s willingness to send equals [b]'s willingness to receive. *)
Theorem C79_addpath_partial : forall a b afi sf,
  ~ (exists e, announces (sp_caps a) afi sf e) \/ ~ (exists e, announces (sp_caps b) afi sf e) ->
  check_addpath_send (negotiated a b) afi sf = false /\ check_addpath_receive (negotiated a b) afi sf = false /\
  check_addpath_send (negotiated b a) afi sf = false /\ check_addpath_receive (negotiated b a) afi sf = false.
Proof. exact agree_addpath_none. Qed.
Print Assumptions C79_addpath_partial.
Theorem C79_addpath_refuted : forall a b afi sf e f, clear_addpath (sp_caps a) -> clear_addpath (sp_caps b) ->
  announces (sp_caps a) afi sf e -> announces (sp_caps b) afi sf f ->
  (check_addpath_send (negotiated a b) afi sf = check_addpath_receive (negotiated b a) afi sf <-> ap_send e = ap_receive f).
Proof. exact agree_addpath. Qed.
Print Assumptions C79_addpath_refuted.

Example C79_ex :
  let a := params_new 1 90 ModeV4 1 [CapRR; CapASN32 1; CapAddPath [mkAP 1 1 false true]] in
  let b := params_new 2 90 ModeV4 2 [CapASN32 2; CapRR; CapBFD; CapAddPath [mkAP 1 1 true true]] in
  clear_addpath (sp_caps a) /\ clear_addpath (sp_caps b) /\ open_wf (our_open a) /\
  announces (sp_caps a) 1 1 (mkAP 1 1 false true) /\ announces (sp_caps b) 1 1 (mkAP 1 1 true true) /\
  check_addpath_send (negotiated a b) 1 1 = true /\ check_addpath_receive (negotiated b a) 1 1 = false /\
  check_addpath_send (negotiated b a) 1 1 = check_addpath_receive (negotiated a b) 1 1.
Proof.
  cbv zeta. assert (K : forall x, clear_addpath (match x with true => [CapRR; CapASN32 1; CapAddPath [mkAP 1 1 false true]] | false => [CapASN32 2; CapRR; CapBFD; CapAddPath [mkAP 1 1 true true]] end)).
  { intros x. split.
    - intros v w Hv Hw. destruct x; cbn in Hv, Hw; intuition congruence.
    - intros afi sf e f ((v & V1 & V2) & _) ((w & W1 & W2) & _).
      destruct x; cbn in V1, W1; decompose [or] V1; decompose [or] W1; try discriminate; try tauto;
        repeat match goal with H : CapAddPath _ = CapAddPath _ |- _ => injection H as <- end; destruct V2 as [<-|[]], W2 as [<-|[]]; reflexivity. }
  split; [exact (K true)|]. split; [exact (K false)|]. split.
  { split; [reflexivity|]. split; [reflexivity|]. split; [reflexivity|]. cbn. repeat constructor; try (vm_compute; lia); intros (? & ? & ?); discriminate. }
  split. { split; [|split; reflexivity]. exists [mkAP 1 1 false true]. split; cbn; auto. }
  split. { split; [|split; reflexivity]. exists [mkAP 1 1 true true]. split; cbn; auto. }
  repeat split; reflexivity.
Qed.

(** C80: whatever one end can say over the session, the other end understands, message by message. *)
Theorem C80_message : forall oc q p m buf, same_session q p -> message_ok p m -> (19 + length (body_wire p m) <= length buf)%nat ->
  exists buf', send_message oc q m buf = Ok (S_Open.frame (message_type m, body_wire p m), buf') /\
               message_decode oc p (message_type m) (body_wire p m) = Ok (message_seen p m).
Proof. exact message_transport. Qed.
Print Assumptions C80_message.
(** The same for a stream of messages, each sent from a buffer of its own. *)
Theorem C80_stream : forall oc q p ms outs, same_session q p -> Forall2 (sent oc q p) ms outs -> forall fuel, (length ms < fuel)%nat ->
  exists got, recv_loop oc (N.to_nat 65536) fuel (concat outs) = Ok got /\
    Forall2 (fun m tb => message_decode oc p (fst tb) (snd tb) = Ok (message_seen p m)) ms got.
Proof. exact stream. Qed.
Print Assumptions C80_stream.

(** a keepalive, an UPDATE and a NOTIFICATION on the wire and back *)
Definition c80_update : update := mkUpd (IPV4U [mkV4 0x0a000000 8]) ANone [AOrigin Igp; ANextHop (IPv4 0x01020304)].
Example C80_ex : let p := params_new 1 180 ModeV4 1 [] in
  Forall2 (sent true p p) [MsgKeepalive; MsgUpdate c80_update; MsgNotification (mkNotif 6 2 0)]
    [repeat 255 16 ++ [0; 19; 4]; repeat 255 16 ++ [0; 36; 2; 0; 0; 0; 11; 64; 1; 1; 0; 64; 3; 4; 1; 2; 3; 4; 8; 10]; repeat 255 16 ++ [0; 23; 3; 6; 2; 0; 0]] /\
  message_seen p (MsgUpdate c80_update) = MsgUpdate (mkUpd (IPV4U [mkV4 0x0a000000 8]) (IPV4U []) [AOrigin Igp; ANextHop (IPv4 0x01020304)]).
Proof.
  cbv zeta. split; [|reflexivity]. constructor; [|constructor; [|constructor; [|constructor]]].
  - split; [split; [discriminate|exact Logic.I]|]. exists (repeat 0 19). eexists. split; [|vm_compute; reflexivity]. cbn. lia.
  - split.
    + split; [vm_compute; discriminate|]. split; [right; split; [reflexivity|split]|].
      * apply Forall_cons; [split; [reflexivity|discriminate]|apply Forall_nil].
      * intros _. vm_compute. reflexivity.
      * split; [now left|]. split; [|split; vm_compute; discriminate].
        apply Forall_cons; [|apply Forall_cons; [|apply Forall_nil]]; (split; [|split; [|vm_compute; discriminate]]); vm_compute; auto.
    + exists (repeat 0 40). eexists. split; [|vm_compute; reflexivity]. vm_compute. lia.
  - split; [split; [vm_compute; discriminate|split; [reflexivity|split; reflexivity]]|]. exists (repeat 0 23). eexists. split; [|vm_compute; reflexivity]. cbn. lia.
Qed.

(** C81: the client of examples/bgpdumper.rs. With an OPEN that fits its buffer it opens the session, and takes over the
    peer's hold time, capabilities and AS number. *)
Theorem C81_start : forall oc p m rest, client_open_ok p -> open_wf m -> (length (body_wire p (MsgOpen m)) <= 4096)%nat ->
  exists q, start_active oc p (S_Open.frame (MOpen, body_wire p (MsgOpen m)) ++ rest) =
    Ok (S_Open.frame (MOpen, body_wire p (MsgOpen (our_open p))), q, rest) /\
  sp_caps q = op_caps m /\ sp_hold q = op_hold m /\ sp_mode q = sp_mode p /\ sp_rid q = sp_rid p /\ sp_fuzzy q = sp_fuzzy p /\
  (sp_as32 q = true <-> has_asn32 (op_caps m)) /\
  (forall pre n post, op_caps m = pre ++ CapASN32 n :: post -> ~ has_asn32 post -> sp_as q = n) /\
  (~ has_asn32 (op_caps m) -> sp_as q = sp_as p).
Proof. exact start_ok. Qed.
Print Assumptions C81_start.
(** The panics of the opening: a length below 19 or an OPEN of more than 4115 octets. *)
Theorem C81_start_panic : forall oc p s, client_open_ok p -> bytes_ok s -> (19 <= length s)%nat ->
  (start_active oc p s = Panic <->
   exists t len, is_header (firstn 19 s) t len /\ (len < 19 /\ (oc = true \/ t = MOpen) \/ 4115 < len /\ t = MOpen)).
Proof. exact start_panic. Qed.
Print Assumptions C81_start_panic.
(** The client takes the peer's capabilities for the negotiated ones. If it did not announce four-octet AS numbers itself
    but the peer did, it reads four octets where the peer writes two. *)
Theorem C81_width_refuted : forall oc p m rest, client_open_ok p -> open_wf m -> (length (body_wire p (MsgOpen m)) <= 4096)%nat ->
  has_asn32 (op_caps m) -> ~ has_asn32 (sp_caps p) -> forall peer, sp_caps peer = op_caps m ->
  exists out q rest', start_active oc p (S_Open.frame (MOpen, body_wire p (MsgOpen m)) ++ rest) = Ok (out, q, rest') /\
    sp_as32 q = true /\ sp_as32 (negotiated peer p) = false.
Proof. exact start_width. Qed.
Print Assumptions C81_width_refuted.
(** ADD-PATH: client and peer agree about a direction exactly when both announced the same for it, where one should have
    announced to send and the other to receive. *)
Theorem C81_addpath_refuted : forall oc p m rest afi sf e l, client_open_ok p -> open_wf m -> (length (body_wire p (MsgOpen m)) <= 4096)%nat ->
  clear_addpath (op_caps m) -> clear_addpath (sp_caps p) -> announces (op_caps m) afi sf e -> announces (sp_caps p) afi sf l ->
  forall peer, sp_caps peer = op_caps m ->
  exists out q rest', start_active oc p (S_Open.frame (MOpen, body_wire p (MsgOpen m)) ++ rest) = Ok (out, q, rest') /\
    (check_addpath_receive q afi sf = check_addpath_send (negotiated peer p) afi sf <-> ap_receive e = ap_receive l) /\
    (check_addpath_send q afi sf = check_addpath_receive (negotiated peer p) afi sf <-> ap_send e = ap_send l).
Proof. exact start_addpath. Qed.
Print Assumptions C81_addpath_refuted.

(** The loop reports every UPDATE of the stream in order until a NOTIFICATION, an OPEN or the end of the stream. *)
Theorem C81_stream : forall oc q p ms outs last out rest, same_session q p -> Forall2 (sent oc q p) ms outs -> Forall continues ms ->
  sent oc q p last out -> ~ continues last -> forall fuel, (length ms < fuel)%nat ->
  lifecycle oc fuel p (concat outs ++ out ++ rest) = (concat (map (message_events p) (ms ++ [last])), Ok tt).
Proof. exact client_stream. Qed.
Print Assumptions C81_stream.
Theorem C81_end : forall oc q p ms outs, same_session q p -> Forall2 (sent oc q p) ms outs -> Forall continues ms ->
  forall part fuel, (length part < 19)%nat -> (length ms < fuel)%nat ->
  lifecycle oc fuel p (concat outs ++ part) = (concat (map (message_events p) ms), Err EOther).
Proof. exact client_eof. Qed.
Print Assumptions C81_end.
(** An UPDATE it cannot decode costs that UPDATE and nothing else, unless decoding panics. *)
Theorem C81_update : forall oc fuel p body rest, N.of_nat (length body) <= 65516 ->
  lifecycle oc (S fuel) p (S_Open.frame (MUpdate, body) ++ rest) =
  match update_decode oc p update_new body with
  | Ok m => (EvUpdate m :: fst (lifecycle oc fuel p rest), snd (lifecycle oc fuel p rest))
  | Err e => (EvUpdateError e :: fst (lifecycle oc fuel p rest), snd (lifecycle oc fuel p rest))
  | Panic => ([], Panic)
  | OutOfFuel => ([], OutOfFuel)
  end.
Proof. exact lifecycle_update. Qed.
Print Assumptions C81_update.
(** In a release build nothing else panics, whatever arrives. *)
Theorem C81_panic : forall p fuel s, bytes_ok s -> snd (lifecycle false fuel p s) = Panic ->
  exists pre body post, s = pre ++ body ++ post /\ update_decode false p update_new body = Panic.
Proof. exact lifecycle_panic. Qed.
Print Assumptions C81_panic.
(** The body of a KEEPALIVE is taken for the next message. *)
Theorem C81_keepalive_body_refuted : forall oc fuel p body rest, N.of_nat (length body) <= 65516 ->
  lifecycle oc (S fuel) p (S_Open.frame (MKeepalive, body) ++ rest) = lifecycle oc fuel p (body ++ rest).
Proof. exact lifecycle_keepalive. Qed.
Print Assumptions C81_keepalive_body_refuted.
(** The loop makes progress on any input. *)
Theorem C81_progress : forall oc p fuel s, (length s < fuel)%nat -> snd (lifecycle oc fuel p s) <> OutOfFuel.
Proof. exact lifecycle_fuel. Qed.
Print Assumptions C81_progress.

Example C81_ex : let p := params_new 65001 180 ModeV4 1 [CapASN32 65001] in
  let opn := mkOpen 2 90 3 [CapASN32 70000] in
  client_open_ok p /\ open_wf opn /\
  match start_active true p (S_Open.frame (MOpen, body_wire p (MsgOpen opn)) ++ [7]) with
  | Ok (_, q, rest) => sp_as q = 70000 /\ sp_hold q = 90 /\ sp_as32 q = true /\ rest = [7]
  | _ => False
  end /\
  lifecycle true 3 p (S_Open.frame (MUpdate, [9]) ++ S_Open.frame (MKeepalive, []) ++ S_Open.frame (MNotification, [6; 2; 0; 0]) ++ [1; 2]) =
  ([EvUpdateError EInsufficient; EvNotification (mkNotif 6 2 0)], Ok tt).
Proof.
  assert (W : forall a, a < 65536 -> cap_sendable (CapASN32 a)).
  { intros a Ha. split; [split; [|cbn; lia]|intros (? & ? & ?); discriminate]. cbn. change (2 ^ 32) with 4294967296. lia. }
  cbv zeta. split.
  { split; [|apply Nat.leb_le; vm_compute; reflexivity]. split; [reflexivity|]. split; [reflexivity|]. split; [reflexivity|]. cbn. constructor; [now apply W|constructor]. }
  split. { split; [reflexivity|]. split; [reflexivity|]. split; [reflexivity|]. constructor; [|constructor].
    split; [split; [reflexivity|cbn; lia]|intros (? & ? & ?); discriminate]. }
  split; [vm_compute; auto|vm_compute; reflexivity].
Qed.
