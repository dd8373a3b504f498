(** What the kinds of errors mean: C116. *)
From Verif Require Import Base M_Util S_Wire M_Prefix S_Prefix M_Nlri S_Nlri M_Vpls M_Cap M_Open M_Session M_Mvpn M_Evpn S_Evpn M_Flowspec M_Addrs S_Addrs M_Attr S_Attr S_Attr2 M_Update S_Update S_Exact S_Exact2
  M_Bmp M_Peer P_Exact P_Exact2 S_Kinds F_Kinds F_Kinds2 F_Kinds3.

(** ** Decoders *)
(** ProtocolError is the answer to an UPDATE exactly if its attributes overrun the room announced for them, *)
Theorem C116_protocol : forall oc p m b, bytes_ok b -> (update_decode oc p m b = Err EProtocol <-> update_overruns oc p b).
Proof. exact update_protocol. Qed.
Print Assumptions C116_protocol.
(** and of all messages only to UPDATE and to the BMP message that carries one; TooManyData is never the answer. *)
Theorem C116_messages : forall oc p,
  (forall m b, kinds (fun e => plain e \/ e = EProtocol) (update_decode oc p m b)) /\
  (forall m b, kinds plain (open_decode m b)) /\ (forall m b, kinds message (notif_decode m b)) /\ (forall b, kinds message (decode_message_head oc b)) /\
  (forall t b, kinds (fun e => plain e \/ t = MUpdate /\ e = EProtocol) (message_decode oc p t b)).
Proof. exact messages_kinds. Qed.
Print Assumptions C116_messages.
Theorem C116_bmp : forall oc b, kinds plain (bmphdr_decode b) /\ kinds (fun e => plain e \/ e = EProtocol /\ hd 0 b = 0) (bmp_decode oc b) /\
  forall t, kinds (fun e => plain e \/ e = EProtocol /\ hd 0 b = 0) (fst (session_decode oc t b)).
Proof. exact bmp_kinds. Qed.
Print Assumptions C116_bmp.
(** A route list is refused with a text, and as too short only in families with a route distinguisher before a prefix. *)
Theorem C116_routes : forall oc p afi sf b, kinds plain (addrs_decode oc p afi sf b) /\ (~ In sf [66; 128; 129] -> kinds message (addrs_decode oc p afi sf b)).
Proof. exact routes_kinds. Qed.
Print Assumptions C116_routes.
(** An attribute is refused with a text, and as too short only if it is an empty ORIGIN or may hold such routes or such an ORIGIN. *)
Theorem C116_attributes : forall oc p tc f n b, kinds plain (attr_decode oc p tc f n b) /\
  (~ In tc [14; 15; 128] -> ~ (tc = 1 /\ b = []) -> kinds message (attr_decode oc p tc f n b)).
Proof. exact attrs_kinds. Qed.
Print Assumptions C116_attributes.
(** A capability is refused with a text, and as too short exactly if it is cut. *)
Theorem C116_capabilities : forall t d b, kinds message (from_type_and_data t d) /\ kinds plain (from_buffer b) /\
  (from_buffer b = Err EInsufficient <-> ((length b < 2)%nat \/ exists t n d, b = t :: n :: d /\ (length d < N.to_nat n)%nat)).
Proof. exact caps_kinds. Qed.
Print Assumptions C116_capabilities.
(** A VPLS site without labels, which no message carries but a caller may read, is refused with a text, a short one always. *)
Theorem C116_site : forall b, kinds message (l2_decode b) /\ ((length b < 14)%nat -> l2_decode b = Err EOther).
Proof. exact site_kinds. Qed.
Print Assumptions C116_site.
Example C116_site_ex : l2_decode (repeat 0 13) = Err EOther /\ exists x, l2_decode (repeat 0 14) = Ok (x, 14%nat).
Proof. split; [reflexivity|eexists; vm_compute; reflexivity]. Qed.
(** InsufficientBufferSize does not mean that octets are missing: an attribute with that error keeps it whatever follows. *)
Theorem C116_missing_refuted : forall oc p m w wd s1 v f rest nl, plain_nlri oc p w wd -> area_of (attr_reads oc p) s1 v ->
  bytes_ok w -> bytes_ok (s1 ++ frame f 1 [] ++ rest) -> N.of_nat (length w) < 2 ^ 16 -> N.of_nat (length (s1 ++ frame f 1 [] ++ rest)) < 2 ^ 16 ->
  update_decode oc p m (be_bytes 2 (N.of_nat (length w)) ++ w ++ be_bytes 2 (N.of_nat (length (s1 ++ frame f 1 [] ++ rest))) ++ (s1 ++ frame f 1 [] ++ rest) ++ nl) = Err EInsufficient.
Proof. exact origin_stuck. Qed.
Print Assumptions C116_missing_refuted.

(** ** Encoders *)
(** Nothing that is written is a ProtocolError, *)
Theorem C116_no_protocol : forall oc p, (forall m, ekinds (fun e => e <> EProtocol) (message_encode oc p m)) /\ (forall m, ekinds (fun e => e <> EProtocol) (send_message oc p m)) /\
  (forall m, ekinds (fun e => e <> EProtocol) (bmp_encode oc m)) /\ (forall a, ekinds (fun e => e <> EProtocol) (attr_encode oc p a)) /\
  (forall a, ekinds (fun e => e <> EProtocol) (addrs_encode oc a)) /\ (forall c, ekinds (fun e => e <> EProtocol) (fill_buffer c)).
Proof. exact no_protocol. Qed.
Print Assumptions C116_no_protocol.
(** and TooManyData is the answer exactly to withdrawn routes of more than 65535 octets that fit the buffer, *)
Theorem C116_too_many_partial : forall oc p m buf, (session_list p (u_withdraws m) = true -> addrs_wf (u_withdraws m)) ->
  (forall a r, In a (u_attrs m) -> In r (attr_routes a) -> mac6 r /\ ~ evpn_long r) ->
  (update_encode oc p m buf = Err ETooMany <-> (65535 < N.of_nat (length (nlri_wire p (u_withdraws m))) /\ (2 + length (nlri_wire p (u_withdraws m)) <= length buf)%nat)).
Proof. exact update_many. Qed.
Print Assumptions C116_too_many_partial.
(** or else to an EVPN route of more than 255. *)
Theorem C116_too_many_only : forall oc p m buf, (forall a r, In a (u_attrs m) -> In r (attr_routes a) -> mac6 r) -> (session_list p (u_withdraws m) = true -> addrs_wf (u_withdraws m)) ->
  update_encode oc p m buf = Err ETooMany -> 65535 < N.of_nat (length (nlri_wire p (u_withdraws m))) \/ exists a r, In a (u_attrs m) /\ In r (attr_routes a) /\ evpn_long r.
Proof. exact evpn_many. Qed.
Print Assumptions C116_too_many_only.
Theorem C116_never_too_many : forall oc, (forall m, ekinds plain (open_encode m)) /\ (forall m, ekinds message (notif_encode m)) /\ (forall c, ekinds plain (fill_buffer c)) /\
  (forall m, (forall x, m <> RouteMonitoring x) -> ekinds plain (bmp_encode oc m)) /\
  (forall p a, (forall r, In r (attr_routes a) -> mac6 r /\ ~ evpn_long r) -> ekinds plain (attr_encode oc p a)) /\
  (forall a, (forall r, In r (evpn_routes a) -> mac6 r /\ ~ evpn_long r) -> ekinds plain (addrs_encode oc a)).
Proof. exact never_too_many. Qed.
Print Assumptions C116_never_too_many.
(** Capabilities and their entries want a larger buffer, or more octets, exactly if there are fewer than they take. *)
Theorem C116_entries : (forall c b, fill_buffer c b = Err EInsufficient <-> (length b < bytes_len c)%nat) /\
  (forall c b, gr_encode c b = Err EInsufficient <-> (length b < 4)%nat) /\ (forall b, gr_decode b = Err EInsufficient <-> (length b < 4)%nat) /\
  (forall c b, ap_encode c b = Err EInsufficient <-> (length b < 4)%nat) /\ (forall b, ap_decode b = Err EInsufficient <-> (length b < 4)%nat) /\
  (forall c b, llgr_encode c b = Err EInsufficient <-> (length b < 7)%nat) /\ (forall b, llgr_decode b = Err EInsufficient <-> (length b < 7)%nat).
Proof. exact cap_entries. Qed.
Print Assumptions C116_entries.
Example C116_entries_ex : fill_buffer (CapAddPath [mkAP 1 1 true false]) (repeat 0 5) = Err EInsufficient /\
  fill_buffer (CapAddPath [mkAP 1 1 true false]) (repeat 0 6) = Ok (tt, [69; 4; 0; 1; 1; 2]) /\ ap_encode (mkAP 1 1 true false) [0; 0; 0] = Err EInsufficient.
Proof. repeat split; vm_compute; reflexivity. Qed.
(** A flow specification too long to be encoded is said to want a larger buffer, whatever the buffer. *)
Theorem C116_larger_buffer_refuted : forall T (it : fsitem T) r buf, 4093 <= N.of_nat (fs_tests r) -> fs_encode it r buf = Err EInsufficient.
Proof. exact @fs_never. Qed.
Print Assumptions C116_larger_buffer_refuted.

(** ** Examples *)
Definition ex_p : params := mkParams 1 180 ModeV4 false 1 [] true.
(** an attribute area of four octets whose attribute announces five, and one that ends within a header *)
Example C116_protocol_ex :
  update_overruns true ex_p [0;0; 0;4; 0x40;1;5;0; 8;10] /\ update_decode true ex_p update_new [0;0; 0;4; 0x40;1;5;0; 8;10] = Err EProtocol /\
  update_overruns true ex_p [0;0; 0;6; 0x40;1;1;0; 0x40;3; 1;10] /\ update_decode true ex_p update_new [0;0; 0;6; 0x40;1;1;0; 0x40;3; 1;10] = Err EProtocol /\
  update_decode true ex_p update_new [0;0; 0;6; 0x40;1;1;0; 0x40;3] = Panic /\
  update_overruns true ex_p [0;0; 0;4; 0x40;1;1] /\ update_decode true ex_p update_new [0;0; 0;4; 0x40;1;1] = Err EProtocol /\
  update_decode true ex_p update_new [0;0; 0;4; 0x40;1;1;9] = Err EOther.
Proof.
  assert (B : forall l, forallb (fun x => x <? 256) l = true -> bytes_ok l).
  { intros l H. apply Forall_forall. intros x Hx. rewrite forallb_forall in H. apply N.ltb_lt. auto. }
  repeat match goal with |- _ /\ _ => split end; try reflexivity; apply C116_protocol with (m := update_new); try reflexivity; apply B; reflexivity.
Qed.
Example C116_messages_ex : open_decode open_new [4] = Err EInsufficient /\ open_decode open_new [3;0;1;0;180;1;1;1;1;0] = Err EOther /\
  notif_decode notif_new [1] = Err EOther /\ decode_message_head true (repeat 255 19) = Err EOther.
Proof. repeat split. Qed.
Example C116_bmp_ex : bmp_decode true [7] = Err EOther /\ bmp_decode true [0] = Err EInsufficient /\
  bmp_decode true (0 :: repeat 0 42 ++ repeat 255 16 ++ [0; 27; 2] ++ [0;0; 0;4; 0x40;1;5;0]) = Err EProtocol.
Proof. repeat split. Qed.
Example C116_routes_ex : ~ In 1 [66; 128; 129] /\ addrs_decode true ex_p 1 1 [33; 1; 1; 1; 1; 1] = Err EOther /\ addrs_decode true ex_p 1 1 [24; 1] = Err EOther /\
  addrs_decode true ex_p 1 128 [88; 0; 0; 1] = Err EInsufficient.
Proof. repeat split; try reflexivity. cbn. intuition discriminate. Qed.
Example C116_attributes_ex : attr_decode true ex_p 1 0x40 0 [] = Err EInsufficient /\ attr_decode true ex_p 3 0x40 0 [] = Err EOther /\
  attr_decode true ex_p 14 0x80 21 [0; 1; 128; 12; 0;0;0;0;0;0;0;0; 10;0;0;1; 0; 88;0;0;1] = Err EInsufficient.
Proof. repeat split. Qed.
Example C116_capabilities_ex : from_buffer [65; 4; 0; 1] = Err EInsufficient /\ from_buffer [65; 3; 0; 1; 2] = Err EOther /\ from_type_and_data 1 [1] = Err EOther.
Proof. repeat split. Qed.
Example C116_missing_refuted_ex : plain_nlri true ex_p [] (IPV4U []) /\ area_of (attr_reads true ex_p) [0x40; 3; 4; 10; 0; 0; 1] [ANextHop (IPv4 0x0a000001)] /\
  update_decode true ex_p update_new [0;0; 0;10; 0x40;3;4;10;0;0;1; 0x40;1;0] = Err EInsufficient /\
  update_decode true ex_p update_new ([0;0; 0;10; 0x40;3;4;10;0;0;1; 0x40;1;0] ++ [8; 10; 16; 10; 1]) = Err EInsufficient.
Proof.
  split; [|split; [|split; reflexivity]].
  - exists 0%nat. apply C94_nlri; [constructor|reflexivity].
  - apply (area_more _ 0x40 3 [10; 0; 0; 1] []); [discriminate| |constructor]. apply C95_attribute; [repeat constructor|reflexivity].
Qed.
(** 14000 withdrawn /32s take 70000 octets *)
Example C116_too_many_ex : let p := params_new 65000 90 ModeV4 1 [] in let m := mkUpd ANone (IPV4U (repeat (mkV4 0x0a000001 32) (N.to_nat 14000))) [] in
  N.of_nat (length (nlri_wire p (u_withdraws m))) = 70000 /\
  update_encode true p m (repeat 0 (N.to_nat 70002)) = Err ETooMany /\ update_encode true p m (repeat 0 (N.to_nat 70001)) <> Err ETooMany.
Proof.
  intros p m. assert (L : N.of_nat (length (nlri_wire p (u_withdraws m))) = 70000) by (vm_compute; reflexivity).
  assert (W : session_list p (u_withdraws m) = true -> addrs_wf (u_withdraws m)).
  { intros _. apply Forall_forall. intros x Hx. apply repeat_spec in Hx. subst x. split; [reflexivity|vm_compute; intuition discriminate]. }
  assert (A : forall a r, In a (u_attrs m) -> In r (attr_routes a) -> mac6 r /\ ~ evpn_long r) by (intros a r []).
  generalize (C116_too_many_partial true p m). set (w := nlri_wire p (u_withdraws m)) in *. clearbody w. intros T. split; [exact L|]. split.
  - apply T; auto. rewrite repeat_length. lia.
  - intros X. apply T in X; auto. rewrite repeat_length in X. lia.
Qed.
(** an EVPN route with 80 labels takes 25 + 240 octets *)
Example C116_too_many_only_ex : let p := params_new 65000 90 ModeV4 1 [] in let r := Ev1 (mkEvpn1 (mkRD 1 1) 0 (repeat 0 9) 7 (repeat 100 80)) in
  evpn_long r /\ In r (attr_routes (AMPWithdraws (EVPN [r]))) /\ update_encode true p (mkUpd ANone ANone [AMPWithdraws (EVPN [r])]) (repeat 0 400) = Err ETooMany.
Proof. split; [|split; [now left|reflexivity]]. unfold evpn_long. apply Nat.ltb_lt. reflexivity. Qed.
Example C116_never_too_many_ex : fill_buffer CapRR [] = Err EInsufficient /\ notif_encode (mkNotif 6 2 0) [0] = Err EOther.
Proof. split; reflexivity. Qed.
Example C116_no_protocol_ex : message_encode true ex_p (MsgOpen (mkOpen 1 180 1 [])) [] = Err EInsufficient.
Proof. reflexivity. Qed.
(** 5000 tests, 128 KiB of room *)
Example C116_larger_buffer_refuted_ex : let r := FsProto (T := addrV4) (repeat (mkFsVal false false false true 6) (N.to_nat 5000)) in
  4093 <= N.of_nat (fs_tests r) /\ fs_encode (fs4 true) r (repeat 0 (N.to_nat 131072)) = Err EInsufficient.
Proof. intros r. assert (H : 4093 <= N.of_nat (fs_tests r)) by (unfold r, fs_tests; rewrite repeat_length, N2Nat.id; discriminate). split; [exact H|]. now apply C116_larger_buffer_refuted. Qed.
