(** Messages too long for BGP: C114. *)
From Verif Require Import Base M_Util S_Wire M_Prefix S_Prefix M_Nlri S_Nlri M_Cap M_Open M_Session S_Cap S_Open F_Session M_Addrs S_Addrs M_Attr S_Attr M_Update S_Update
  M_Peer S_Peer F_Peer S_Long F_Long.

(** A message whose body has at most 65516 octets is sent whole (also above the 4096 octets of RFC 4271). *)
Theorem C114_sent_whole_partial : forall oc q p m buf, same_session q p -> message_ok p m -> (19 + length (body_wire p m) <= length buf)%nat ->
  exists buf', send_message oc q m buf = Ok (S_Open.frame (message_type m, body_wire p m), buf').
Proof. exact send_wire. Qed.
Print Assumptions C114_sent_whole_partial.

(** A longer one is not refused: with [r + 65536 k] octets only the first [r] are sent, under a header that announces
    [r] ... *)
Theorem C114_sent_cut_refuted : forall oc q p m buf r k, same_session q p -> message_well p m -> (19 + length (body_wire p m) <= length buf)%nat ->
  N.of_nat (length (body_wire p m)) = N.of_nat r + 65536 * k -> N.of_nat r <= 65516 ->
  exists buf', send_message oc q m buf = Ok (S_Open.frame (message_type m, firstn r (body_wire p m)), buf').
Proof. exact sent_cut. Qed.
Print Assumptions C114_sent_cut_refuted.
(** ... and where the remainder has no room for the header it panics, or, in release builds, sends up to 18 octets of it. *)
Theorem C114_garbled_refuted : forall q p m buf r k, same_session q p -> message_well p m -> (19 + length (body_wire p m) <= length buf)%nat ->
  N.of_nat (length (body_wire p m)) = N.of_nat r + 65536 * k -> 65516 < N.of_nat r < 65536 ->
  send_message true q m buf = Panic /\
  exists buf', send_message false q m buf =
    Ok (firstn (N.to_nat (N.of_nat r + 19 - 65536)) (repeat 255 16 ++ be_bytes 2 (N.of_nat r + 19 - 65536)), buf').
Proof. exact sent_garbled. Qed.
Print Assumptions C114_garbled_refuted.
(** Routes that fill a multiple of 65536 octets are lost without a trace: the peer receives a good UPDATE with the others. *)
Theorem C114_routes_lost_refuted : forall oc p attrs a b k buf, plain4 p -> Forall (attr_ok p) attrs -> N.of_nat (length (attrs_wire p attrs)) <= 65535 ->
  Forall v4_wf a -> Forall v4_wf b -> N.of_nat (length (items_wire v4_wire b)) = 65536 * k ->
  let announce v := mkUpd (IPV4U v) ANone attrs in
  N.of_nat (length (update_wire p (announce a))) <= 65516 -> (19 + length (update_wire p (announce (a ++ b))) <= length buf)%nat ->
  exists body buf', send_message oc p (MsgUpdate (announce (a ++ b))) buf = Ok (S_Open.frame (MUpdate, body), buf') /\
    message_decode oc p MUpdate body = Ok (MsgUpdate (update_norm p (announce a))).
Proof. exact routes_lost. Qed.
Print Assumptions C114_routes_lost_refuted.
(** 10.0.0.0/8 and 16384 routes of length 24: one arrives. *)
Example C114_ex : let p := mkParams 1 180 ModeV4 true 1 [] false in let attrs := [AOrigin Igp; ANextHop (IPv4 0x01020304)] in
  let a := [mkV4 0x0a000000 8] in let b := repeat (mkV4 0x0b000000 24) (N.to_nat 16384) in
  plain4 p /\ Forall (attr_ok p) attrs /\ Forall v4_wf a /\ Forall v4_wf b /\ N.of_nat (length (items_wire v4_wire b)) = 65536 * 1 /\
  update_wire p (mkUpd (IPV4U a) ANone attrs) = [0; 0; 0; 11; 64; 1; 1; 0; 64; 3; 4; 1; 2; 3; 4; 8; 10] /\
  N.of_nat (length (update_wire p (mkUpd (IPV4U (a ++ b)) ANone attrs))) = 65553.
Proof.
  cbv zeta. split; [repeat split|]. split.
  { apply Forall_cons; [|apply Forall_cons; [|apply Forall_nil]]; (split; [|split; [|vm_compute; discriminate]]); vm_compute; auto. }
  split; [apply Forall_cons; [split; [reflexivity|discriminate]|apply Forall_nil]|]. split.
  { apply Forall_forall. intros x Hx. apply repeat_spec in Hx. subst x. split; [reflexivity|discriminate]. }
  assert (L : N.of_nat (length (items_wire v4_wire (repeat (mkV4 0x0b000000 24) (N.to_nat 16384)))) = 65536).
  { rewrite length_repeat_wire. cbn [v4_wire snd]. change (length (snd (v4_wire (mkV4 0x0b000000 24)))) with 3%nat.
    rewrite Nat2N.inj_mul, N2Nat.id. reflexivity. }
  split; [exact L|]. split; [reflexivity|].
  set (b := repeat (mkV4 0x0b000000 24) (N.to_nat 16384)) in *. clearbody b.
  unfold update_wire, nlri_wire. cbn [u_withdraws u_attrs u_updates session_list sp_mode addrs_wire]. unfold items_wire at 1. rewrite flat_map_app.
  fold (items_wire v4_wire b). rewrite !app_length, !Nat2N.inj_add. rewrite L. reflexivity.
Qed.
