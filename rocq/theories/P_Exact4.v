(** The message header and every BMP message, exactly: C99, C100. *)
From Verif Require Import Base M_Util S_Wire M_Prefix M_Nlri S_Nlri M_Cap S_Cap M_Open M_Session S_Open M_Addrs
  M_Attr M_Update S_Update M_Order M_Bmp S_Bmp S_Exact2 S_Exact3 S_Exact4 F_Exact8.

(** C99: a header gives a type and a body length exactly when it is the marker, a length and that type. *)
Theorem C99_header : forall oc b t n, bytes_ok b -> decode_message_head oc b = Ok (t, n) <->
  exists len r, len < 2 ^ 16 /\ (len < 19 -> oc = false) /\ N.of_nat n + 19 = wrapped len /\
    b = repeat 255 16 ++ be_bytes 2 len ++ [msg_code t] ++ r.
Proof. exact head_exact. Qed.
Print Assumptions C99_header.

Example C99_ex : forall oc r, Forall (fun x => x < 256) r ->
  decode_message_head oc (repeat 255 16 ++ [0; 23; 2] ++ r) = Ok (MUpdate, 4%nat).
Proof.
  intros oc r B. apply C99_header.
  - unfold bytes_ok, repeat. cbn [app]. repeat (apply Forall_cons; [reflexivity|]). exact B.
  - exists 23, r. repeat split; reflexivity || discriminate.
Qed.
(** type 5 (ROUTE-REFRESH) is no type, and one octet of the marker wrong is no header *)
Example C99_ex_none : forall oc t n, decode_message_head oc (repeat 255 16 ++ [0; 23; 5]) <> Ok (t, n) /\
  decode_message_head oc (254 :: repeat 255 15 ++ [0; 23; 2]) <> Ok (t, n).
Proof. intros [] t n; split; intros E; vm_compute in E; discriminate E. Qed.

(** C100: a BMP message decodes to a value exactly when its octets mean it, alone or on a session with remembered peers. *)
Theorem C100_bmp : forall oc b m, bytes_ok b -> bmp_decode oc b = Ok m <-> bmp_reads oc default_session b m.
Proof. exact bmp_exact. Qed.
Print Assumptions C100_bmp.
Theorem C100_session : forall oc t b m, bytes_ok b -> fst (session_decode oc t b) = Ok m <-> bmp_reads oc (session_params t) b m.
Proof. exact session_exact. Qed.
Print Assumptions C100_session.

(** a Termination whose reason TLV is empty: the reason comes from the next TLV header *)
Example C100_ex_term : let b := [5; 0; 0; 0; 2; 104; 105; 0; 1; 0; 0; 0; 7; 0; 0] in
  forall oc, bmp_decode oc b = Ok (Termination (mkTerm (Some [104; 105]) (Some 7))) /\
  bmp_reads oc default_session b (Termination (mkTerm (Some [104; 105]) (Some 7))).
Proof.
  intros b oc. assert (R : bmp_reads oc default_session b (Termination (mkTerm (Some [104; 105]) (Some 7)))).
  { exists 5, [0; 0; 0; 2; 104; 105; 0; 1; 0; 0; 0; 7; 0; 0]. split; [reflexivity|]. split; [reflexivity|].
    apply (term_string (mkTerm None None) [104; 105] [0; 1; 0; 0; 0; 7; 0; 0]); [|reflexivity|].
    { exists [104; 105]. split; [|reflexivity]. apply Forall_cons; [left; reflexivity|]. apply Forall_cons; [left; reflexivity|]. apply Forall_nil. }
    apply (term_reason _ [] [0; 7; 0; 0] 0 7 [0; 0]); [reflexivity|reflexivity|].
    apply (term_other _ 7 [] []); [split; [discriminate|reflexivity]|reflexivity|]. constructor. cbn [length]. lia. }
  split; [|exact R]. apply C100_bmp; [unfold b, bytes_ok; repeat (apply Forall_cons; [reflexivity|]); apply Forall_nil|exact R].
Qed.
(** a Peer Down with the NOTIFICATION sent *)
Example C100_ex_down : let h := mkPeer 0 0 (mkRD 0 0) (IPv4 (10 * 2 ^ 24 + 1)) 65001 (10 * 2 ^ 24 + 1) 5 in
  let b := 2 :: peer_wire h ++ 1 :: repeat 255 16 ++ [0; 21; 3; 6; 2; 88] in
  forall oc, bmp_decode oc b = Ok (PeerDown (mkDown h (AdminClosed (mkNotif 6 2 0)))).
Proof.
  intros h b oc. apply C100_bmp.
  { unfold b, bytes_ok. let x := eval vm_compute in (peer_wire h) in change (peer_wire h) with x.
    unfold repeat. cbn [app]. repeat (apply Forall_cons; [reflexivity|]). apply Forall_nil. }
  exists 2, (peer_wire h ++ 1 :: repeat 255 16 ++ [0; 21; 3; 6; 2; 88]). split; [reflexivity|]. split; [reflexivity|].
  exists 1, (repeat 255 16 ++ [0; 21; 3; 6; 2; 88]). split.
  - split; [|split; [|reflexivity]].
    + vm_compute. repeat split; reflexivity || discriminate.
    + cbn. auto.
  - split; [reflexivity|]. exists [6; 2], [88]. split.
    + exists 21. split; [reflexivity|]. split; [discriminate|]. split; reflexivity.
    + exists []. split; reflexivity.
Qed.
