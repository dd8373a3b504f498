(** C49 to C53, C54 (BMP), C60, C67 to C69: BMP. *)
From Verif Require Import Base BaseFacts M_Util S_Wire M_Prefix S_Prefix M_Nlri S_Nlri M_Cap S_Cap M_Open M_Session S_Open M_Addrs S_Addrs M_Attr S_Attr M_Update S_Update
  M_Order S_Order M_Bmp S_Bmp F_Bmp F_Bmp2.

(** C60: an address written to its field and read back is the same. Missing: the IPv6 addresses of ::/96, and the octets behind
    the field of an IPv4 address, which are zeroed up to the end of the buffer. *)
Theorem C60_address_roundtrip_partial : forall a buf, ip_wf a -> ~ v4_like a -> (16 <= length buf)%nat ->
  bmp_addr_encode a buf = Ok (16%nat, addr_field a ++ behind (is_v4 a) 16 buf) /\ forall rest, bmp_addr_decode (addr_field a ++ rest) = Ok a.
Proof. exact addr_rt. Qed.
Print Assumptions C60_address_roundtrip_partial.

(** Every IPv6 address of ::/96 comes back as an IPv4 address. *)
Theorem C60_low_v6_refuted : forall a buf, a < 2 ^ 32 -> (16 <= length buf)%nat ->
  exists out, bmp_addr_encode (IPv6 a) buf = Ok (16%nat, out) /\ bmp_addr_decode out = Ok (IPv4 a).
Proof. exact addr_like_l. Qed.
Print Assumptions C60_low_v6_refuted.

(** Writing an IPv4 address changes octets behind the field whenever one of them is not zero. *)
Theorem C60_frame_refuted : forall a buf, (16 <= length buf)%nat -> skipn 16 buf <> repeat 0 (length buf - 16) ->
  exists out, bmp_addr_encode (IPv4 a) buf = Ok (16%nat, out) /\ skipn 16 out <> skipn 16 buf.
Proof. exact addr_frame_l. Qed.
Print Assumptions C60_frame_refuted.

Example C60_ex : bmp_addr_encode (IPv6 (0x20010db8 * 2 ^ 96 + 1)) (repeat 7 17) = Ok (16%nat, [0x20; 1; 0x0d; 0xb8; 0; 0; 0; 0; 0; 0; 0; 0; 0; 0; 0; 1; 7]) /\
  bmp_addr_encode (IPv4 0x0a000001) (repeat 7 18) = Ok (16%nat, [0; 0; 0; 0; 0; 0; 0; 0; 0; 0; 0; 0; 10; 0; 0; 1; 0; 0]) /\
  bmp_addr_decode [0; 0; 0; 0; 0; 0; 0; 0; 0; 0; 0; 0; 0; 0; 0; 1] = Ok (IPv4 1) /\ ~ v4_like (IPv6 (0x20010db8 * 2 ^ 96 + 1)).
Proof. split; [vm_compute; reflexivity|]. split; [vm_compute; reflexivity|]. split; [vm_compute; reflexivity|]. vm_compute. discriminate. Qed.

(** C49. Missing: peers with an IPv6 address of ::/96. *)
Theorem C49_peer_header_roundtrip_partial : forall h buf, peer_wf h -> ~ v4_like (ph_addr h) -> (42 <= length buf)%nat ->
  peerhdr_encode h buf = Ok (42%nat, peer_wire h ++ behind (is_v4 (ph_addr h)) 42 buf) /\
  forall rest, peerhdr_decode (peer_wire h ++ rest) = Ok (h, 42%nat).
Proof. exact peer_rt. Qed.
Print Assumptions C49_peer_header_roundtrip_partial.

(** The header of such a peer comes back as that of an IPv4 peer. *)
Theorem C49_low_v6_refuted : forall h a buf, peer_wf h -> ph_addr h = IPv6 a -> a < 2 ^ 32 -> (42 <= length buf)%nat ->
  exists out, peerhdr_encode h buf = Ok (42%nat, out) /\ peerhdr_decode out = Ok (with_addr h (IPv4 a), 42%nat) /\ with_addr h (IPv4 a) <> h.
Proof. exact peer_like_l. Qed.
Print Assumptions C49_low_v6_refuted.

(** A decoded header is written back as the octets it was read from. *)
Theorem C49_peer_header_reencode : forall buf h n, bytes_ok buf -> peerhdr_decode buf = Ok (h, n) -> n = 42%nat /\ peer_wf h /\ ~ v4_like (ph_addr h) /\
  forall out, (42 <= length out)%nat -> exists out', peerhdr_encode h out = Ok (42%nat, out') /\ firstn 42 out' = firstn 42 buf.
Proof. exact peer_reencode_l. Qed.
Print Assumptions C49_peer_header_reencode.

(** Any 42 octets are a header. *)
Theorem C49_peer_header_accepts : forall buf, bytes_ok buf -> (exists h n, peerhdr_decode buf = Ok (h, n)) <-> (42 <= length buf)%nat.
Proof. exact peer_accepts_l. Qed.
Print Assumptions C49_peer_header_accepts.

Definition ex_peer : peerhdr := mkPeer 0 128 (mkRD 1 2) (IPv4 0xc0000201) 65001 0x0a000001 5.
Example C49_ex : peer_wf ex_peer /\ ~ v4_like (ph_addr ex_peer) /\
  peer_wire ex_peer = [0; 128; 0; 0; 0; 1; 0; 0; 0; 2; 0; 0; 0; 0; 0; 0; 0; 0; 0; 0; 0; 0; 192; 0; 2; 1; 0; 0; 253; 233; 10; 0; 0; 1; 0; 0; 0; 0; 0; 0; 0; 5].
Proof. split; [split; [reflexivity|]; split; [reflexivity|]; split; [split; reflexivity|]; repeat (split; [reflexivity|]); reflexivity|]. split; [intros []|]. vm_compute. reflexivity. Qed.
Example C49_low_ex : with_addr (with_addr ex_peer (IPv6 1)) (IPv4 1) <> with_addr ex_peer (IPv6 1).
Proof. discriminate. Qed.

(** C50, Termination. *)
Theorem C50_termination_roundtrip : forall m buf, term_ok m -> (length (term_wire m) <= length buf)%nat ->
  term_encode m buf = Ok (length (term_wire m), term_wire m ++ skipn (length (term_wire m)) buf) /\ term_decode (term_wire m) = Ok (m, length (term_wire m)).
Proof. exact term_rt_l. Qed.
Print Assumptions C50_termination_roundtrip.

(** Any sequence of TLVs is understood: the last of each type counts, unknown types are passed over, and fewer than four octets at the end are ignored. *)
Theorem C50_termination_tlvs : forall l tail, Forall term_tlv_ok l -> (length tail < 4)%nat ->
  term_decode (tlvs_wire l ++ tail) = Ok (mkTerm (last_of 0 l) (option_map (fun v => be_val (firstn 2 v)) (last_of 1 l)), length (tlvs_wire l)).
Proof. exact term_decode_tlvs. Qed.
Print Assumptions C50_termination_tlvs.

(** A string of 65536 octets or more does not come back from any octets. *)
Theorem C50_termination_long_refuted : forall m s, tm_str m = Some s -> 65536 <= N.of_nat (length s) -> forall buf k, bytes_ok buf -> term_decode buf <> Ok (m, k).
Proof. exact term_long_l. Qed.
Print Assumptions C50_termination_long_refuted.

(** C50, Initiation. Missing: messages with sysDescr or sysName. *)
Theorem C50_initiation_roundtrip_partial : forall m buf, init_ok m -> in_descr m = None -> in_name m = None -> (length (init_wire m) <= length buf)%nat ->
  init_encode m buf = Ok (length (init_wire m), init_wire m ++ skipn (length (init_wire m)) buf) /\ init_decode (init_wire m) = Ok (m, length (init_wire m)).
Proof. exact init_rt_l. Qed.
Print Assumptions C50_initiation_roundtrip_partial.

(** The decoder understands all of them. *)
Theorem C50_initiation_decode : forall m, init_ok m -> init_decode (init_wire m) = Ok (m, length (init_wire m)).
Proof. exact init_decode_wire. Qed.
Print Assumptions C50_initiation_decode.

(** What is written: all three under type 0, so that the last one present comes back as the string. *)
Theorem C50_initiation_sent : forall m buf, init_ok m -> (length (init_sent m) <= length buf)%nat ->
  init_encode m buf = Ok (length (init_sent m), init_sent m ++ skipn (length (init_sent m)) buf) /\
  init_decode (init_sent m) = Ok (mkInit (later (later (in_str m) (in_descr m)) (in_name m)) None None, length (init_sent m)).
Proof. exact init_sent_l. Qed.
Print Assumptions C50_initiation_sent.

(** No message with sysDescr or sysName comes back. *)
Theorem C50_initiation_refuted : forall m buf, init_ok m -> in_descr m <> None \/ in_name m <> None -> (length (init_sent m) <= length buf)%nat ->
  exists n out, init_encode m buf = Ok (n, out) /\ forall k, init_decode (firstn n out) <> Ok (m, k).
Proof. exact init_refuted_l. Qed.
Print Assumptions C50_initiation_refuted.

(** A buffer with room for the TLV header but not for the string makes the encoder panic. *)
Theorem C50_initiation_room_refuted : forall m s buf, in_str m = Some s -> (4 <= length buf < 4 + length s)%nat -> init_encode m buf = Panic.
Proof. exact init_short_l. Qed.
Print Assumptions C50_initiation_room_refuted.

Example C50_ex : let m := mkTerm (Some [98; 121; 101]) (Some 1) in term_ok m /\ term_wire m = [0; 0; 0; 3; 98; 121; 101; 0; 1; 0; 2; 0; 1] /\
  let i := mkInit (Some [97]) (Some [98; 99]) None in init_ok i /\ init_wire i = [0; 0; 0; 1; 97; 0; 1; 0; 2; 98; 99] /\
  init_encode i (repeat 9 12) = Ok (11%nat, [0; 0; 0; 1; 97; 0; 0; 0; 2; 98; 99; 9]) /\
  init_decode [0; 0; 0; 1; 97; 0; 0; 0; 2; 98; 99] = Ok (mkInit (Some [98; 99]) None None, 11%nat).
Proof.
  cbv zeta. split; [split; [split; reflexivity|reflexivity]|]. split; [vm_compute; reflexivity|]. split; [split; [split; reflexivity|]; split; [split; reflexivity|exact I]|].
  split; [vm_compute; reflexivity|]. split; vm_compute; reflexivity.
Qed.
Example C50_tlvs_ex : Forall term_tlv_ok [(0, [97]); (7, [1; 2; 3]); (1, [0; 2; 9]); (0, [98])].
Proof.
  apply Forall_cons; [split; [split; [split; reflexivity|reflexivity]|discriminate]|].
  apply Forall_cons; [split; [split; [split; reflexivity|discriminate]|discriminate]|].
  apply Forall_cons; [split; [split; [split; reflexivity|discriminate]|intros _; split; [|cbn; lia]]|].
  { apply Forall_cons; [reflexivity|]. apply Forall_cons; [reflexivity|]. apply Forall_cons; [reflexivity|]. apply Forall_nil. }
  apply Forall_cons; [split; [split; [split; reflexivity|reflexivity]|discriminate]|]. apply Forall_nil.
Qed.

(** C51, PeerUp: what was encoded comes back, but for the AS number of an OPEN, which is AS_TRANS if it does not fit (RFC 6793). Missing:
    IPv6 addresses of ::/96, FQDN capabilities (see C22). *)
Theorem C51_peer_up_roundtrip_partial : forall oc m buf, up_wf m -> ~ v4_like (ph_addr (pu_peer m)) -> ~ v4_like (pu_local m) -> (length (up_wire m) <= length buf)%nat ->
  peerup_encode oc m buf = Ok (length (up_wire m), up_wire m ++ behind (is_v4 (ph_addr (pu_peer m)) || is_v4 (pu_local m)) (length (up_wire m)) buf) /\
  forall rest, peerup_decode oc (up_wire m ++ rest) = Ok (up_seen m, length (up_wire m)).
Proof. exact up_rt_l. Qed.
Print Assumptions C51_peer_up_roundtrip_partial.

(** C51, PeerDown. Missing: IPv6 addresses of ::/96. *)
Theorem C51_peer_down_roundtrip_partial : forall oc m buf, down_wf m -> ~ v4_like (ph_addr (pd_peer m)) -> (length (down_wire m) <= length buf)%nat ->
  peerdown_encode oc m buf = Ok (length (down_wire m), down_wire m ++ behind (is_v4 (ph_addr (pd_peer m))) (length (down_wire m)) buf) /\
  forall rest, peerdown_decode oc (down_wire m ++ rest) = Ok (m, length (down_wire m)).
Proof. exact down_rt_l. Qed.
Print Assumptions C51_peer_down_roundtrip_partial.

(** Peers with such an address come back as IPv4 peers. *)
Theorem C51_peer_up_refuted : forall oc m a, up_wf m -> ph_addr (pu_peer m) = IPv6 a -> a < 2 ^ 32 -> ~ v4_like (pu_local m) ->
  peerup_decode oc (up_wire m) =
  Ok (up_seen (mkUp (with_addr (pu_peer m) (IPv4 a)) (pu_local m) (pu_lport m) (pu_rport m) (pu_msg1 m) (pu_msg2 m)), length (up_wire m)).
Proof. exact up_like_l. Qed.
Print Assumptions C51_peer_up_refuted.

Theorem C51_peer_down_refuted : forall oc m a, down_wf m -> ph_addr (pd_peer m) = IPv6 a -> a < 2 ^ 32 ->
  peerdown_decode oc (down_wire m) = Ok (mkDown (with_addr (pd_peer m) (IPv4 a)) (pd_reason m), length (down_wire m)).
Proof. exact down_like_l. Qed.
Print Assumptions C51_peer_down_refuted.

Definition ex_up : peerup := mkUp ex_peer (IPv4 0xc0000202) 179 1025 (mkOpen 65000 180 0x0a000002 [CapRR]) (mkOpen 65001 90 0x0a000001 [CapASN32 65001]).
Example C51_ex : up_wf ex_up /\ ~ v4_like (ph_addr (pu_peer ex_up)) /\ ~ v4_like (pu_local ex_up) /\ length (up_wire ex_up) = 132%nat /\
  peerup_decode true (up_wire ex_up) = Ok (ex_up, 132%nat).
Proof.
  split.
  - split; [apply C49_ex|]. split; [reflexivity|]. split; [reflexivity|]. split; [reflexivity|].
    split; [|split; [|split; vm_compute; discriminate]].
    + split; [reflexivity|]. split; [reflexivity|]. split; [reflexivity|]. apply Forall_cons; [|apply Forall_nil]. split; [split; [exact I|vm_compute; lia]|intros (? & ? & E); discriminate E].
    + split; [reflexivity|]. split; [reflexivity|]. split; [reflexivity|]. apply Forall_cons; [|apply Forall_nil]. split; [split; [reflexivity|vm_compute; lia]|intros (? & ? & E); discriminate E].
  - split; [intros []|]. split; [intros []|]. split; vm_compute; reflexivity.
Qed.
Definition ex_down : peerdown := mkDown ex_peer (RemoteNotif (mkNotif 6 2 0)).
Example C51_down_ex : down_wf ex_down /\ ~ v4_like (ph_addr (pd_peer ex_down)) /\ skipn 42 (down_wire ex_down) = 3 :: repeat 255 16 ++ [0; 23; 3; 6; 2; 0; 0].
Proof. split; [split; [apply C49_ex|split; [reflexivity|split; reflexivity]]|]. split; [intros []|]. vm_compute. reflexivity. Qed.

(** C52: after any history from any table, a peer is in the table as the latest message that concerns it says. *)
Theorem C52_session_history : forall oc t0 bufs k, ascending t0 ->
  up_after k (tab_get k t0) (map (event_of oc) bufs) (tab_get k (session_run oc t0 bufs)).
Proof. exact session_history. Qed.
Print Assumptions C52_session_history.

(** The history determines the entry. *)
Theorem C52_history_determines : forall k s evs r1 r2, up_after k s evs r1 -> up_after k s evs r2 -> r1 = r2.
Proof. exact up_after_det. Qed.
Print Assumptions C52_history_determines.

(** The table stays in order, so that it holds each peer once. *)
Theorem C52_table_ascending : forall oc t bufs, ascending t -> ascending (session_run oc t bufs).
Proof. exact run_asc. Qed.
Print Assumptions C52_table_ascending.

(** Messages other than Route Monitoring are answered as without a session. *)
Theorem C52_session_answers : forall oc t ty b, ty <> 0 -> fst (session_decode oc t (ty :: b)) = bmp_decode oc (ty :: b).
Proof. exact session_result. Qed.
Print Assumptions C52_session_answers.

Example C52_ex : let up := 3 :: up_wire ex_up in let down := 2 :: down_wire ex_down in let k := peer_id ex_peer in
  tab_get k (session_run true [] [up]) = Some ex_up /\ tab_get k (session_run true [] [up; [4; 0]; [3; 1]; [1]]) = Some ex_up /\
  tab_get k (session_run true [] [up; down]) = None /\ tab_get k (session_run true [] [up; down; up]) = Some ex_up /\
  tab_get (mkRD 9 9, ph_addr ex_peer) (session_run true [] [up]) = None /\ ascending [].
Proof. cbv zeta. repeat (split; [vm_compute; reflexivity|]). exact I. Qed.

(** C53 is false. The octets on which the decoder panics, exactly: none at all; a Termination whose last TLV is a reason with less than
    two octets left; an embedded BGP message that does not lie within the message; with overflow checks an embedded length below
    19; and an UPDATE on which the UPDATE decoder panics (C37). *)
Theorem C53_panics_exactly : forall oc buf, bytes_ok buf -> bmp_decode oc buf = Panic <-> bmp_panics oc default_session buf.
Proof. exact bmp_panic_iff. Qed.
Print Assumptions C53_panics_exactly.

Theorem C53_session_panics_exactly : forall oc t buf, bytes_ok buf -> fst (session_decode oc t buf) = Panic <-> bmp_panics oc (session_params t) buf.
Proof. exact session_panic_iff. Qed.
Print Assumptions C53_session_panics_exactly.

Theorem C53_empty_refuted : forall oc, bmp_decode oc [] = Panic.
Proof. exact empty_panics. Qed.
Print Assumptions C53_empty_refuted.

(** Every PeerDown cut inside the body of its NOTIFICATION, *)
Theorem C53_peer_down_refuted : forall oc h body code k, peer_wf h -> (code = 1 \/ code = 3) -> bytes_ok body -> N.of_nat (length body) <= 65516 ->
  (19 <= k < 19 + length body)%nat -> bmp_decode oc (2 :: peer_wire h ++ [code] ++ firstn k (S_Open.frame (MNotification, body))) = Panic.
Proof. exact cut_down. Qed.
Print Assumptions C53_peer_down_refuted.

(** every PeerUp cut inside the body of its first OPEN, *)
Theorem C53_peer_up_refuted : forall oc m body k, up_wf m -> bytes_ok body -> N.of_nat (length body) <= 65516 -> (19 <= k < 19 + length body)%nat ->
  bmp_decode oc (3 :: up_head m ++ firstn k (S_Open.frame (MOpen, body))) = Panic.
Proof. exact cut_up1. Qed.
Print Assumptions C53_peer_up_refuted.

(** and every Route Monitoring message cut inside the body of its UPDATE makes it panic. *)
Theorem C53_route_monitoring_refuted : forall oc h body k, peer_wf h -> bytes_ok body -> N.of_nat (length body) <= 65516 -> (20 <= k < 19 + length body)%nat ->
  bmp_decode oc (0 :: peer_wire h ++ firstn k (S_Open.frame (MUpdate, body))) = Panic.
Proof. exact cut_rmon. Qed.
Print Assumptions C53_route_monitoring_refuted.

Theorem C53_termination_exactly : forall buf, bytes_ok buf -> term_decode buf = Panic <-> term_panics buf.
Proof. exact term_panic_iff. Qed.
Print Assumptions C53_termination_exactly.

(** Initiation messages are decoded without panic. *)
Theorem C53_initiation_partial : forall buf, bytes_ok buf -> init_decode buf <> Panic /\ init_decode buf <> OutOfFuel.
Proof. exact init_no_panic. Qed.
Print Assumptions C53_initiation_partial.

Example C53_ex : bmp_decode false [5; 0; 1; 0; 1; 7] = Panic /\ term_panics [0; 1; 0; 1; 7] /\
  bmp_decode true (2 :: peer_wire ex_peer ++ [1] ++ repeat 255 16 ++ [0; 23; 3; 6; 2]) = Panic /\
  bmp_decode true (2 :: peer_wire ex_peer ++ [1] ++ repeat 255 16 ++ [0; 18; 3; 6; 2]) = Panic /\
  (exists e, bmp_decode true [4; 0; 0; 0; 9; 1] = Err e) /\ (exists e, bmp_decode true (2 :: repeat 0 42) = Err e).
Proof.
  split; [vm_compute; reflexivity|]. split; [exists [], [7], []; split; [reflexivity|split; [apply Forall_nil|cbn; lia]]|].
  split; [vm_compute; reflexivity|]. split; [vm_compute; reflexivity|]. split; eexists; vm_compute; reflexivity.
Qed.

(** C54, BMP: the decoding loops end. *)
Theorem C54_bmp_terminates : forall oc buf, bytes_ok buf -> bmp_decode oc buf <> OutOfFuel.
Proof. exact bmp_nf. Qed.
Print Assumptions C54_bmp_terminates.

Theorem C54_bmp_session_terminates : forall oc t buf, bytes_ok buf -> fst (session_decode oc t buf) <> OutOfFuel.
Proof. exact session_nf. Qed.
Print Assumptions C54_bmp_session_terminates.

(** C67: whole messages, Route Monitoring included. Missing: Statistics Report and Route Mirroring, whose contents are not represented
    and which cannot be encoded, and Initiation messages with more than the string. *)
Theorem C67_message_roundtrip_partial : forall oc m buf, msg_wf m -> msg_sendable m -> (length (msg_wire m) <= length buf)%nat ->
  bmp_encode oc m buf = Ok (length (msg_wire m), msg_wire m ++ behind (msg_zeroes m) (length (msg_wire m)) buf) /\ bmp_decode oc (msg_wire m) = Ok (msg_seen m).
Proof. exact msg_rt_l. Qed.
Print Assumptions C67_message_roundtrip_partial.

Theorem C67_message_decode : forall oc m, msg_wf m -> bmp_decode oc (msg_wire m) = Ok (msg_seen m).
Proof. exact bmp_decode_wire. Qed.
Print Assumptions C67_message_decode.

(** Encoding the two kinds panics. *)
Theorem C67_encode_refuted : forall oc b buf, bmp_encode oc StatisticsReport (b :: buf) = Panic /\ bmp_encode oc RouteMirroring (b :: buf) = Panic.
Proof. exact unimplemented_kinds. Qed.
Print Assumptions C67_encode_refuted.

(** The common header. *)
Theorem C67_common_header_roundtrip : forall h buf, bh_version h = 3 -> bh_length h < 2 ^ 32 -> (5 <= length buf)%nat ->
  bmphdr_encode h buf = Ok (5%nat, bmphdr_wire h ++ skipn 5 buf) /\ forall rest, bmphdr_decode (bmphdr_wire h ++ rest) = Ok (h, 5%nat).
Proof. exact bmphdr_rt_l. Qed.
Print Assumptions C67_common_header_roundtrip.

Theorem C67_common_header_accepts : forall buf, bytes_ok buf ->
  match bmphdr_decode buf with
  | Ok (h, k) => k = 5%nat /\ bh_version h = 3 /\ bh_length h < 2 ^ 32 /\ exists rest, buf = bmphdr_wire h ++ rest
  | Err EInsufficient => (length buf < 5)%nat
  | Err _ => exists v rest, buf = v :: rest /\ v <> 3
  | _ => False
  end.
Proof. exact bmphdr_total. Qed.
Print Assumptions C67_common_header_accepts.

Definition ex_rmon : rmon := mkRmon ex_peer (mkUpd (IPV4U [mkV4 0x0a000000 8]) ANone [AOrigin Igp]).
Example C67_ex : msg_wf (RouteMonitoring ex_rmon) /\ msg_sendable (RouteMonitoring ex_rmon) /\
  skipn 43 (msg_wire (RouteMonitoring ex_rmon)) = repeat 255 16 ++ [0; 29; 2; 0; 0; 0; 4; 64; 1; 1; 0; 8; 10] /\
  bmphdr_decode [3; 0; 0; 0; 6; 4] = Ok (mkBmpHdr 3 6, 5%nat).
Proof.
  split; [|split; [exact I|split; vm_compute; reflexivity]]. split; [|intros []]. split; [apply C49_ex|]. split; [|vm_compute; discriminate].
  split; [right; split; [reflexivity|split]|].
  - apply Forall_cons; [split; [reflexivity|discriminate]|apply Forall_nil].
  - intros _. vm_compute. reflexivity.
  - split; [left; reflexivity|]. split; [|split; vm_compute; discriminate]. apply Forall_cons; [split; [exact I|split; [exact I|vm_compute; discriminate]]|apply Forall_nil].
Qed.

(** C68: after a PeerUp whose second OPEN is the peer's (it carries the peer's BGP identifier), UPDATEs of that peer written under the
    parameters of that OPEN are read back. Missing: UPDATEs under the parameters the two OPENs negotiate. *)
Theorem C68_route_monitoring_after_up_partial : forall oc t0 up m, ascending t0 -> peer_id (rm_peer m) = peer_id (pu_peer up) -> up_wf up ->
  ~ v4_like (ph_addr (pu_peer up)) -> ~ v4_like (pu_local up) ->
  op_rid (pu_msg2 up) = ph_rid (pu_peer up) -> op_rid (pu_msg1 up) <> ph_rid (pu_peer up) ->
  let p := open_session (open_seen (pu_msg2 up)) in rmon_wf p m ->
  let t1 := snd (session_decode oc t0 (3 :: up_wire up)) in
  session_decode oc t1 (0 :: rmon_wire p m) = (Ok (RouteMonitoring (rmon_seen p m)), t1).
Proof. exact session_after_up_l. Qed.
Print Assumptions C68_route_monitoring_after_up_partial.

(** The table is not changed by Route Monitoring; *)
Theorem C68_without_peer_up : forall oc t b, session_decode oc t (0 :: b) =
  ('(m, _) <- rmon_decode_with oc (session_params t) b ;; Ok (RouteMonitoring m), t).
Proof. exact session_rmon. Qed.
Print Assumptions C68_without_peer_up.

(** UPDATEs of a peer that is not up are read with the parameters of the per-peer header. *)
Theorem C68_unknown_peer : forall t h, tab_get (peer_id h) t = None -> session_params t h = default_session h.
Proof. exact session_params_down. Qed.
Print Assumptions C68_unknown_peer.

(** Four-octet AS numbers are assumed whenever the peer offers them, whether or not the other side does, and IPv4 as the session's
    family whatever the peer's address. *)
Theorem C68_negotiation_refuted : forall t h m, tab_get (peer_id h) t = Some m -> op_rid (pu_msg2 m) = ph_rid (pu_peer m) -> op_rid (pu_msg1 m) <> ph_rid (pu_peer m) ->
  (sp_as32 (session_params t h) = true <-> has_asn32 (op_caps (pu_msg2 m))) /\ sp_mode (session_params t h) = ModeV4.
Proof. exact session_as32_l. Qed.
Print Assumptions C68_negotiation_refuted.

Example C68_ex : let up := 3 :: up_wire ex_up in let t1 := snd (session_decode true [] up) in
  sp_as32 (session_params t1 ex_peer) = true /\ ~ has_asn32 (op_caps (pu_msg1 ex_up)) /\
  fst (session_decode true t1 (msg_wire (RouteMonitoring ex_rmon))) = Ok (RouteMonitoring (mkRmon ex_peer (mkUpd (IPV4U [mkV4 0x0a000000 8]) (IPV4U []) [AOrigin Igp]))).
Proof. cbv zeta. split; [vm_compute; reflexivity|]. split; [|vm_compute; reflexivity]. intros [n [H|[]]]. discriminate. Qed.

(** C69: [Eq] and [Ord] of per-peer headers are a lawful equality and order of everything but the timestamp, and [PartialOrd] agrees. *)
Theorem C69_peer_header_order : ord_laws opeerhdr peer_ident /\ partial_agrees opeerhdr.
Proof. exact (conj laws_peer peer_pcmp_eq). Qed.
Print Assumptions C69_peer_header_order.

Example C69_ex : oeq opeerhdr ex_peer (mkPeer 0 128 (mkRD 1 2) (IPv4 0xc0000201) 65001 0x0a000001 6) = true /\
  ocmp opeerhdr ex_peer (with_addr ex_peer (IPv6 0)) = Lt.
Proof. split; reflexivity. Qed.
