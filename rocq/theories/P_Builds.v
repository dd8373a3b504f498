(** C135: builds with and without overflow checks (true / false) give the same answers unless the first stops. *)
From Coq Require Import Ascii String.
From Verif Require Import Base M_Util M_Prefix M_Nlri M_Vpls M_Cap M_Open M_Session M_Mvpn M_Evpn M_Flowspec M_Addrs M_Attr M_Update M_Bmp M_State M_Peer S_Open S_Builds F_Builds.
Open Scope N_scope.
Open Scope list_scope.

(** What a user concludes from agreement: an answer, accepted or refused, of the checked build is that of the other;
    and an answer of the unchecked build is the only one the other can give without stopping. *)
Theorem C135_answers : forall A (r s : res A), agrees r s ->
  (forall x, r = Ok x -> s = Ok x) /\ (forall e, r = Err e -> s = Err e) /\
  (forall x, s = Ok x -> r = Ok x \/ r = Panic) /\ (forall e, s = Err e -> r = Err e \/ r = Panic) /\ (s = Panic -> r = Panic).
Proof. exact ag_answers. Qed.
Print Assumptions C135_answers.

(** operations on prefixes *)
Theorem C135_prefixes :
  (forall p a, agrees (v4_in_subnet true p a) (v4_in_subnet false p a)) /\
  (forall p a, agrees (v6_in_subnet true p a) (v6_in_subnet false p a)) /\
  (forall p a, agrees (mac_in_subnet true p a) (mac_in_subnet false p a)) /\
  (forall p, agrees (v4_range_first true p) (v4_range_first false p)) /\
  (forall p, agrees (v6_range_first true p) (v6_range_first false p)) /\
  (forall p, agrees (mac_range_first true p) (mac_range_first false p)) /\
  (forall p, agrees (v4_range_last true p) (v4_range_last false p)) /\
  (forall p, agrees (v6_range_last true p) (v6_range_last false p)) /\
  (forall p, agrees (mac_range_last true p) (mac_range_last false p)) /\
  (forall p q, agrees (v4_contains true p q) (v4_contains false p q)) /\
  (forall p q, agrees (v6_contains true p q) (v6_contains false p q)) /\
  (forall p q, agrees (mac_contains true p q) (mac_contains false p q)) /\
  (forall p q, agrees (net_contains true p q) (net_contains false p q)).
Proof. exact ag_prefixes. Qed.
Print Assumptions C135_prefixes.

(** lists of routes of every family *)
Theorem C135_routes : forall p afi safi buf, agrees (addrs_decode true p afi safi buf) (addrs_decode false p afi safi buf).
Proof. exact ag_addrs. Qed.
Print Assumptions C135_routes.

Theorem C135_routes_sent : forall a buf, agrees (addrs_encode true a buf) (addrs_encode false a buf).
Proof. exact ag_addrs_encode. Qed.
Print Assumptions C135_routes_sent.

(** path attributes *)
Theorem C135_attributes : forall p tc flags len buf, agrees (attr_decode true p tc flags len buf) (attr_decode false p tc flags len buf).
Proof. exact ag_attr. Qed.
Print Assumptions C135_attributes.

Theorem C135_attributes_sent : forall p a buf, agrees (attr_encode true p a buf) (attr_encode false p a buf).
Proof. exact ag_attr_encode. Qed.
Print Assumptions C135_attributes_sent.

(** messages: the header, the body (with what a refused UPDATE leaves in the caller's object), and what is sent *)
Theorem C135_header : forall buf, agrees (decode_message_head true buf) (decode_message_head false buf).
Proof. exact ag_head. Qed.
Print Assumptions C135_header.

Theorem C135_messages : forall p t buf, agrees (message_decode true p t buf) (message_decode false p t buf).
Proof. exact ag_message. Qed.
Print Assumptions C135_messages.

Theorem C135_update_left : forall p buf m, agrees_in (update_decode_in true p buf m) (update_decode_in false p buf m).
Proof. exact ag_update_in. Qed.
Print Assumptions C135_update_left.

Theorem C135_messages_sent : forall p m buf, agrees (message_encode true p m buf) (message_encode false p m buf) /\
  agrees (send_message true p m buf) (send_message false p m buf).
Proof. exact ag_messages_sent. Qed.
Print Assumptions C135_messages_sent.

(** the example client: the exchange, reading messages off the stream, everything it does *)
Theorem C135_exchange : forall p s, agrees (start_active true p s) (start_active false p s).
Proof. exact ag_start. Qed.
Print Assumptions C135_exchange.

Theorem C135_stream : forall cap fuel s, agrees (recv_loop true cap fuel s) (recv_loop false cap fuel s).
Proof. exact ag_recv_loop. Qed.
Print Assumptions C135_stream.

Theorem C135_client : forall fuel p s, same_until (lifecycle true fuel p s) (lifecycle false fuel p s).
Proof. exact ag_lifecycle_f. Qed.
Print Assumptions C135_client.

(** BMP: messages without and within a session *)
Theorem C135_bmp : forall buf, agrees (bmp_decode true buf) (bmp_decode false buf).
Proof. exact ag_bmp. Qed.
Print Assumptions C135_bmp.

Theorem C135_bmp_sent : forall m buf, agrees (bmp_encode true m buf) (bmp_encode false m buf).
Proof. exact ag_bmp_encode. Qed.
Print Assumptions C135_bmp_sent.

Theorem C135_bmp_session : forall peers buf, agrees_in (session_decode true peers buf) (session_decode false peers buf).
Proof. exact ag_session. Qed.
Print Assumptions C135_bmp_session.

(** So the builds differ only where one stops, and there they do differ: every header that announces less than itself. *)
Theorem C135_same_refuted : forall t len rest, len < 19 -> bytes_ok rest ->
  let buf := repeat 255 16 ++ be_bytes 2 len ++ [msg_code t] ++ rest in
  decode_message_head true buf <> decode_message_head false buf.
Proof. exact ag_differs. Qed.
Print Assumptions C135_same_refuted.

(** 10.0.0.0/8 withdrawn; and a labelled route of 20 bits whose label alone is 24 *)
Definition c135_p := params_new 65000 180 ModeV4 0 [].
Example C135_ex :
  (exists m, message_decode true c135_p MUpdate [0; 2; 8; 10; 0; 0] = Ok m /\ message_decode false c135_p MUpdate [0; 2; 8; 10; 0; 0] = Ok m) /\
  message_decode true c135_p MUpdate [0; 2; 99; 10; 0; 0] = message_decode false c135_p MUpdate [0; 2; 99; 10; 0; 0] /\
  addrs_decode true c135_p 1 4 [20; 0; 0; 17] = Panic /\ addrs_decode false c135_p 1 4 [20; 0; 0; 17] <> Panic /\
  fst (lifecycle true 5 c135_p []) = fst (lifecycle false 5 c135_p []).
Proof. vm_compute. repeat split; try discriminate. eexists. split; reflexivity. Qed.
