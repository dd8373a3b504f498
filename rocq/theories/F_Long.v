(** Proofs about messages too long for their header. *)
From Verif Require Import Base BaseFacts M_Util S_Wire F_Util M_Prefix S_Prefix M_Nlri S_Nlri M_Cap S_Cap M_Open M_Session S_Open F_Open F_Session
  M_Addrs S_Addrs F_Fuel M_Attr S_Attr F_Attr F_Attr2 M_Update S_Update F_Update M_Order S_Order M_Bmp S_Bmp F_Bmp F_Bmp2
  M_Peer S_Peer F_Peer S_Long.
Ltac Zify.zify_post_hook ::= idtac.

Lemma message_writes_any oc p m : message_well p m -> writes (message_encode oc p m) (body_wire p m) (length (body_wire p m)).
Proof.
  intros H2. destruct m as [m|m|m|]; cbn [message_encode body_wire].
  - pose proof (open_encode_ok m H2) as W. rewrite open_caplen_eq in W. exact W.
  - now apply writes_update.
  - exact (notif_encode_ok m H2).
  - apply writes_at_ret.
Qed.
(** Only the length modulo 65536 gets into the header. *)
Lemma prepare_mod oc t n r k buf : N.of_nat n = N.of_nat r + 65536 * k -> (n + 19 <= length buf)%nat ->
  prepare_message_buf oc t n buf = prepare_message_buf oc t r buf.
Proof.
  intros E L. unfold prepare_message_buf, ebind, elen. cbv beta iota.
  assert (R : (r + 19 <= length buf)%nat) by (clear - E L; lia).
  rewrite (proj2 (Nat.ltb_ge _ _) L), (proj2 (Nat.ltb_ge _ _) R).
  replace (cast 16 (N.of_nat n)) with (cast 16 (N.of_nat r)); [reflexivity|].
  unfold cast. change (2 ^ 16) with 65536. rewrite E, N.mul_comm. symmetry. apply N.mod_add. discriminate.
Qed.

Lemma body_written oc q p m buf : same_session q p -> message_well p m -> (19 + length (body_wire p m) <= length buf)%nat ->
  on_from 19 (message_encode oc q m) buf = Ok (length (body_wire p m), splice 19 (body_wire p m) buf).
Proof.
  intros E H L. rewrite <- (writes_on_from 19 _ _ _ (message_writes_any oc p m H) buf) by lia.
  unfold on_from. now rewrite (message_encode_same oc q p).
Qed.
Lemma splice_len (w buf : list N) : (19 + length w <= length buf)%nat -> length (splice 19 w buf) = length buf.
Proof. intros L. unfold splice. rewrite !app_length, firstn_length, skipn_length. lia. Qed.
Lemma splice_skip (w buf : list N) : (19 + length w <= length buf)%nat -> skipn 19 (splice 19 w buf) = w ++ skipn (19 + length w) buf.
Proof. intros L. unfold splice. apply skipn_app_exact. rewrite firstn_length. lia. Qed.

(** A body of [r + 65536 k] octets is sent as its first [r] octets. *)
Lemma sent_cut oc q p m buf r k : same_session q p -> message_well p m -> (19 + length (body_wire p m) <= length buf)%nat ->
  N.of_nat (length (body_wire p m)) = N.of_nat r + 65536 * k -> N.of_nat r <= 65516 ->
  exists buf', send_message oc q m buf = Ok (S_Open.frame (message_type m, firstn r (body_wire p m)), buf').
Proof.
  intros E H L Ek Hr. unfold send_message. unfold ebind at 1. rewrite (body_written oc q p m buf E H L).
  set (w := body_wire p m) in *. clearbody w. pose proof (splice_len w buf L) as LB. pose proof (splice_skip w buf L) as SK.
  unfold ebind. rewrite (prepare_mod oc _ _ r k) by first [exact Ek|rewrite LB; lia].
  rewrite prepare_ok by first [exact Hr|rewrite LB; clear - L Ek; lia]. rewrite SK.
  assert (Hrw : (r <= length w)%nat) by (clear - Ek; lia).
  replace (w ++ skipn (19 + length w) buf) with (firstn r w ++ skipn r w ++ skipn (19 + length w) buf) by now rewrite app_assoc, firstn_skipn.
  rewrite app_assoc, rslice_head.
  - rewrite bind_ok. eexists. unfold S_Open.frame. cbn [fst snd]. rewrite firstn_length_le by exact Hrw. reflexivity.
  - rewrite app_length, length_header, firstn_length_le by exact Hrw. lia.
Qed.
(** When the remainder does not leave room for the header: a panic, or a few octets of the marker. *)
Lemma prepare_over t n buf : 65516 < N.of_nat n < 65536 -> (n + 19 <= length buf)%nat ->
  prepare_message_buf true t n buf = Panic /\
  prepare_message_buf false t n buf = Ok (N.to_nat (N.of_nat n + 19 - 65536),
    repeat 255 16 ++ be_bytes 2 (N.of_nat n + 19 - 65536) ++ [msg_code t] ++ skipn 19 buf).
Proof.
  intros Hn Hb. unfold prepare_message_buf.
  assert (E : forall oc, uadd oc 16 (cast 16 (N.of_nat n)) 19 = if oc then Panic else Ok (N.of_nat n + 19 - 65536)).
  { intros oc. unfold cast. rewrite N.mod_small by (change (2 ^ 16) with 65536; lia).
    unfold uadd. replace (N.of_nat n + 19 <? 2 ^ 16) with false
      by (symmetry; apply N.ltb_ge; change (2 ^ 16) with 65536; lia).
    destruct oc; auto. f_equal. change (2 ^ 16) with 65536.
    replace (N.of_nat n + 19) with ((N.of_nat n + 19 - 65536) + 1 * 65536) at 1 by lia.
    rewrite N.mod_add by discriminate. apply N.mod_small. lia. }
  split; unfold ebind at 1; unfold elen; cbv beta iota;
    (replace (Nat.ltb (length buf) (n + 19)) with false by (symmetry; apply Nat.ltb_ge; lia)).
  - unfold ebind at 1. rewrite (writes_at_write_at 0 (repeat 255 16)) by (cbn; lia).
    unfold ebind at 1, elift. now rewrite E.
  - unfold ebind at 1. rewrite (writes_at_write_at 0 (repeat 255 16)) by (cbn; lia).
    unfold ebind at 1, elift. rewrite E.
    match goal with |- context [ebind (set_idx 16 (cast 8 (N.shiftr ?l 8))) _ _] =>
      rewrite (hdr_writes l t (fun _ => eret (N.to_nat l))) by (clear - Hn Hb; lia) end.
    reflexivity.
Qed.
Lemma sent_garbled q p m buf r k : same_session q p -> message_well p m -> (19 + length (body_wire p m) <= length buf)%nat ->
  N.of_nat (length (body_wire p m)) = N.of_nat r + 65536 * k -> 65516 < N.of_nat r < 65536 ->
  send_message true q m buf = Panic /\
  exists buf', send_message false q m buf =
    Ok (firstn (N.to_nat (N.of_nat r + 19 - 65536)) (repeat 255 16 ++ be_bytes 2 (N.of_nat r + 19 - 65536)), buf').
Proof.
  intros E H L Ek Hr. unfold send_message, ebind. rewrite (body_written true q p m buf E H L), (body_written false q p m buf E H L).
  set (w := body_wire p m) in *. clearbody w. pose proof (splice_len w buf L) as LB.
  rewrite (prepare_mod true _ _ r k), (prepare_mod false _ _ r k) by first [exact Ek|rewrite LB; lia].
  destruct (prepare_over (message_type m) r (splice 19 w buf) Hr) as [P Q]; [rewrite LB; clear - L Ek; lia|].
  rewrite P, Q. split; [reflexivity|].
  set (l := N.of_nat r + 19 - 65536). assert (Hl : (N.to_nat l <= 18)%nat) by (unfold l; clear - Hr; lia). clearbody l.
  rewrite app_assoc. set (hd := repeat 255 16 ++ be_bytes 2 l). assert (Lh : length hd = 18%nat) by reflexivity. clearbody hd.
  unfold rslice. rewrite app_length, Lh. replace (Nat.leb 0 (N.to_nat l)) with true by reflexivity.
  rewrite (proj2 (Nat.leb_le _ _)) by lia. cbn [andb]. eexists. cbn [bind]. do 2 f_equal.
  unfold sub. cbn [skipn]. rewrite Nat.sub_0_r, firstn_app. replace (N.to_nat l - length hd)%nat with 0%nat by lia. now rewrite firstn_O, app_nil_r.
Qed.
(** Routes whose octets fill a multiple of 65536 are lost without a trace. *)
Lemma sent_alike oc q p short long more k buf : same_session q p -> update_ok p short -> update_ok p long -> extends p short long more ->
  N.of_nat (length more) = 65536 * k -> N.of_nat (length (update_wire p short)) <= 65516 -> (19 + length (update_wire p long) <= length buf)%nat ->
  exists b1 b2 out, send_message oc q (MsgUpdate long) buf = Ok (out, b1) /\ send_message oc q (MsgUpdate short) buf = Ok (out, b2) /\
    out = S_Open.frame (MUpdate, update_wire p short) /\
    message_decode oc p MUpdate (update_wire p short) = Ok (MsgUpdate (update_norm p short)).
Proof.
  intros E Hs Hl (E1 & E2 & E3) Hk B L.
  assert (W : update_wire p long = update_wire p short ++ more).
  { unfold update_wire. rewrite E1, E2, E3, <- !app_assoc. reflexivity. }
  destruct (sent_cut oc q p (MsgUpdate long) buf (length (update_wire p short)) k E Hl L) as [b1 S1].
  - cbn [body_wire]. rewrite W, app_length, Nat2N.inj_add, Hk. reflexivity.
  - exact B.
  - destruct (send_wire oc q p (MsgUpdate short) buf E (conj B Hs)) as [b2 S2].
    { cbn [body_wire]. rewrite W, app_length in L. lia. }
    exists b1, b2. eexists. cbn [body_wire message_type] in S1. rewrite W, firstn_app, firstn_all, Nat.sub_diag, firstn_O, app_nil_r in S1.
    split; [exact S1|]. split; [exact S2|]. split; [reflexivity|].
    exact (message_decodes oc p (MsgUpdate short) (conj B Hs)).
Qed.

Lemma plain4_form p v : plain4 p -> session_form p (IPV4U v).
Proof. intros (_ & F & C). unfold session_form. cbn [get_afi_safi]. intros _. unfold use_pathid. now rewrite C, F. Qed.
Lemma routes_lost oc p attrs a b k buf : plain4 p -> Forall (attr_ok p) attrs -> N.of_nat (length (attrs_wire p attrs)) <= 65535 ->
  Forall v4_wf a -> Forall v4_wf b -> N.of_nat (length (items_wire v4_wire b)) = 65536 * k ->
  let announce v := mkUpd (IPV4U v) ANone attrs in
  N.of_nat (length (update_wire p (announce a))) <= 65516 -> (19 + length (update_wire p (announce (a ++ b))) <= length buf)%nat ->
  exists body buf', send_message oc p (MsgUpdate (announce (a ++ b))) buf = Ok (S_Open.frame (MUpdate, body), buf') /\
    message_decode oc p MUpdate body = Ok (MsgUpdate (update_norm p (announce a))).
Proof.
  intros P Ha La Wa Wb Hk announce B L. pose proof P as (M & _ & _).
  assert (SL : forall v, session_list p (IPV4U v) = true) by (intros v; unfold session_list; now rewrite M).
  assert (OK : forall v, Forall v4_wf v -> update_ok p (announce v)).
  { intros v W. split; [right; split; [apply SL|split; [exact W|now apply plain4_form]]|]. split; [now left|]. split; [exact Ha|]. split; [|exact La].
    cbn [announce u_withdraws]. unfold nlri_wire, session_list. rewrite M. cbn. discriminate. }
  destruct (sent_alike oc p p (announce a) (announce (a ++ b)) (items_wire v4_wire b) k buf) as (b1 & b2 & out & S1 & _ & -> & D).
  - split; reflexivity.
  - now apply OK.
  - apply OK. apply Forall_app. now split.
  - split; [reflexivity|]. split; [reflexivity|]. cbn [announce u_updates]. unfold nlri_wire. rewrite !SL. cbn [addrs_wire].
    unfold items_wire. apply flat_map_app.
  - exact Hk.
  - exact B.
  - exact L.
  - exists (update_wire p (announce a)), b1. split; [exact S1|exact D].
Qed.
Lemma length_repeat_wire x n : length (items_wire v4_wire (repeat x n)) = (n * S (length (snd (v4_wire x))))%nat.
Proof. induction n as [|n IH]; [reflexivity|]. unfold items_wire in *. cbn [repeat flat_map]. rewrite app_length, IH. cbn [length]. lia. Qed.
