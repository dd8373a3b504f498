(** C130, C131: a BMP station. *)
From Verif Require Import Base M_Util M_Prefix M_Nlri M_Cap S_Cap M_Open S_Open M_Session M_Addrs M_Attr M_Update S_Update M_Order M_Bmp S_Bmp S_Station F_Bmp2 F_Station P_Bmp.

(** C130: whatever a router tells, in whatever order and about however many peers, is received as it was sent, message by message, when every
    UPDATE is written as the peer's last OPEN says. *)
Theorem C130_stream : forall oc ms ws rs part fuel, told ms ws rs -> incomplete part -> (length ms <= fuel)%nat ->
  exists t, station oc fuel [] (concat (map bmp_frame ws) ++ part) = (map Ok rs, part, t) /\
    ascending t /\ forall k, up_after k None (map said ms) (tab_get k t).
Proof. exact station_told. Qed.
Print Assumptions C130_stream.
(** C130: it does not matter in which parts the stream arrives: what is left is read with what comes next. *)
Theorem C130_parts : forall oc t s s' rs kept t' rs' kept' t'',
  station oc (length s) t s = (rs, kept, t') -> station oc (length (kept ++ s')) t' (kept ++ s') = (rs', kept', t'') ->
  station oc (length (s ++ s')) t (s ++ s') = (rs ++ rs', kept', t'').
Proof. exact station_parts. Qed.
Print Assumptions C130_parts.
(** C130: a message which cannot be decoded costs that message and nothing else. *)
Theorem C130_survives : forall oc t w s, N.of_nat (length w) + 5 < 2 ^ 32 -> w <> [] ->
  station oc (length (bmp_frame w ++ s)) t (bmp_frame w ++ s) =
  (let '(r, t') := session_decode oc t w in let '(rs, kept, t'') := station oc (length s) t' s in (r :: rs, kept, t'')).
Proof. exact station_step. Qed.
Print Assumptions C130_survives.
Ltac wr := split; [apply C49_ex|]; split; [|vm_compute; discriminate]; split;
  [right; split; [reflexivity|split; [apply Forall_cons; [split; [reflexivity|discriminate]|apply Forall_nil]|intros _; vm_compute; reflexivity]]|];
  split; [left; reflexivity|]; split; [|split; vm_compute; discriminate]; apply Forall_cons; [split; [exact I|split; [exact I|vm_compute; discriminate]]|apply Forall_nil].
(** a router which says that a peer is up, announces a route of it, says that it is down and announces the route again; the route is written
    as the peer's OPEN says first, as the default is then *)
Example C130_ex : let ms := [Initiation (mkInit None None (Some [114])); PeerUp ex_up; RouteMonitoring ex_rmon; PeerDown ex_down; RouteMonitoring ex_rmon] in
  exists ws rs, told ms ws rs /\ nth_error rs 4 = Some (RouteMonitoring (mkRmon ex_peer (mkUpd (IPV4U [mkV4 0x0a000000 8]) (IPV4U []) [AOrigin Igp]))) /\ incomplete [3; 0; 0].
Proof.
  cbv zeta.
  eexists _, _. split; [|split].
  - eapply (told_more [_; _; _; _]); [eapply (told_more [_; _; _]); [eapply (told_more [_; _]); [eapply (told_more [_]); [eapply (told_more []); [apply told_nil|]|]|]|]|].
    + apply sent_other; [discriminate|]. split; [exact I|]. split; [exact I|]. split; reflexivity.
    + apply sent_other; [discriminate|]. split; [apply C51_ex|]. split; intros [].
    + eapply (sent_routes _ _ (Some (up_seen ex_up))); [|wr|intros []]. cbn [map said]. eapply (up_up _ _ [EvNone]); [|reflexivity]. eapply (up_none _ _ []). apply up_start.
    + apply sent_other; [discriminate|]. split; [apply C51_down_ex|intros []].
    + eapply (sent_routes _ _ None); [|wr|intros []]. cbn [map said]. eapply (up_down _ _ [EvNone; EvUp (up_seen ex_up); EvNone]); [|reflexivity].
      eapply (up_none _ _ [_; _]). eapply (up_up _ _ [EvNone]); [|reflexivity]. eapply (up_none _ _ []). apply up_start.
  - vm_compute. reflexivity.
  - exists [1], [0; 6; 1]. split; [reflexivity|]. split; [discriminate|reflexivity].
Qed.

(** C131: how the routes of a peer are read depends on the last message which says that this peer is up or down, and on no other message:
    neither on earlier ones nor on those of other peers. *)
Theorem C131_isolation : forall oc t0 bufs bufs' h b, ascending t0 -> peer_wf h -> ~ v4_like (ph_addr h) ->
  last_word oc (peer_id h) bufs = last_word oc (peer_id h) bufs' ->
  fst (session_decode oc (session_run oc t0 bufs) (0 :: peer_wire h ++ b)) = fst (session_decode oc (session_run oc t0 bufs') (0 :: peer_wire h ++ b)).
Proof. exact peers_apart. Qed.
Print Assumptions C131_isolation.
(** C131: of the per-peer header only the RD and the address have an influence on how the routes are read. *)
Theorem C131_header : forall oc t h h' b, peer_wf h -> peer_wf h' -> ~ v4_like (ph_addr h) -> peer_id h = peer_id h' ->
  routes_of (fst (session_decode oc t (0 :: peer_wire h ++ b))) = routes_of (fst (session_decode oc t (0 :: peer_wire h' ++ b))).
Proof. exact header_ignored. Qed.
Print Assumptions C131_header.
(** C131 is false of the flags, as a consequence: a path of two-octet AS numbers, announced as such by the A flag (RFC 7854 4.2), is read as some
    other path, whatever the path, whenever the session is taken to have four-octet numbers, as it is for every peer which is not up. *)
Theorem C131_legacy_refuted : forall oc t h v, peer_wf h -> ~ v4_like (ph_addr h) -> flag_a h -> sp_as32 (session_params t h) = true ->
  v <> [] -> (length v <= 255)%nat -> Forall (fun x => x < 65536) v ->
  exists m v', fst (session_decode oc t (0 :: peer_wire h ++ S_Open.frame (MUpdate, legacy_update v))) = Ok (RouteMonitoring m) /\
    u_attrs (rm_update m) = [AASPath v'] /\ v' <> v.
Proof. exact legacy_misread. Qed.
Print Assumptions C131_legacy_refuted.
(** C131 is false of the peer type (RFC 7854 4.2, RFC 9069), which tells peers apart: a peer of another type with the same RD and address
    going down takes the session of this one with it. *)
Theorem C131_type_refuted : forall oc t m h, down_wf m -> ~ v4_like (ph_addr (pd_peer m)) -> ascending t ->
  peer_id h = peer_id (pd_peer m) -> ph_type h <> ph_type (pd_peer m) ->
  session_params (snd (session_decode oc t (2 :: down_wire m))) h = default_session h.
Proof. exact type_ignored. Qed.
Print Assumptions C131_type_refuted.
Definition ex_type2 : peerdown := mkDown (mkPeer 2 0 (ph_rd ex_peer) (ph_addr ex_peer) 1 1 1) RemoteClosed.
Example C131_ex : let k := peer_id ex_peer in let up := msg_wire (PeerUp ex_up) in let down := msg_wire (PeerDown ex_down) in
  let other := 3 :: up_wire (mkUp (with_addr ex_peer (IPv6 (2 ^ 120))) (IPv4 1) 179 179 (mkOpen 1 90 7 []) (mkOpen 2 90 8 [])) in
  last_word true k [up; other; down; up; other] = last_word true k [up] /\ last_word true k [up; down] <> last_word true k [up] /\
  concerns true k other = false /\ (exists m, fst (session_decode true [] other) = Ok (PeerUp m)).
Proof. cbv zeta. split; [vm_compute; reflexivity|]. split; [vm_compute; discriminate|]. split; [vm_compute; reflexivity|]. eexists. vm_compute. reflexivity. Qed.
Example C131_header_ex : let h := mkPeer 0 32 (mkRD 1 2) (IPv4 0xc0000201) 7 7 9 in
  peer_wf h /\ flag_a h /\ sp_as32 (session_params [] h) = true /\
  routes_of (fst (session_decode true [] (0 :: peer_wire h ++ S_Open.frame (MUpdate, legacy_update [65001; 65002])))) = Ok (mkUpd (IPV4U []) (IPV4U []) [AASPath [65001 * 65536 + 65002]]) /\
  down_wf ex_type2 /\ ph_type ex_peer <> ph_type (pd_peer ex_type2) /\
  let t := snd (session_decode true [] (3 :: up_wire ex_up)) in tab_get (peer_id ex_peer) t <> None /\
  tab_get (peer_id ex_peer) (snd (session_decode true t (2 :: down_wire ex_type2))) = None.
Proof.
  cbv zeta. split; [repeat split; reflexivity|]. split; [reflexivity|]. split; [reflexivity|]. split; [vm_compute; reflexivity|]. split; [repeat split; reflexivity|].
  split; [vm_compute; discriminate|]. split; vm_compute; [discriminate|reflexivity].
Qed.
