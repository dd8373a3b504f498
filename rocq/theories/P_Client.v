(** The example client's keepalives (C132). *)
From Verif Require Import Base M_Util S_Wire M_Cap M_Open M_Session S_Cap S_Open M_Addrs S_Addrs M_Attr S_Attr M_Update S_Update M_Peer S_Peer M_Client S_Client F_Client.

(** C132: what the thread writes is the KEEPALIVE message. *)
Theorem C132_octets : send_keepalive = Ok keepalive_wire /\ keepalive_wire = S_Open.frame (MKeepalive, []).
Proof. exact (conj send_keepalive_ok keepalive_frame). Qed.
Print Assumptions C132_octets.
(** The session is kept up exactly when a third of the peer's hold time is no more than our own. *)
Theorem C132_alive_partial : forall oc p m rest, client_open_ok p -> open_wf m -> (length (body_wire p (MsgOpen m)) <= 4096)%nat -> 3 <= op_hold m ->
  exists q, start_active oc p (S_Open.frame (MOpen, body_wire p (MsgOpen m)) ++ rest) =
    Ok (S_Open.frame (MOpen, body_wire p (MsgOpen (our_open p))), q, rest) /\
  (kept_up q (agreed_hold (sp_hold p) (op_hold m)) <-> op_hold m / 3 <= sp_hold p).
Proof. exact session_alive. Qed.
Print Assumptions C132_alive_partial.
(** Otherwise the peer's hold timer expires, whatever the two hold times are. *)
Theorem C132_expires_refuted : forall oc p m rest, client_open_ok p -> open_wf m -> (length (body_wire p (MsgOpen m)) <= 4096)%nat ->
  3 * sp_hold p + 3 <= op_hold m ->
  exists q, start_active oc p (S_Open.frame (MOpen, body_wire p (MsgOpen m)) ++ rest) =
    Ok (S_Open.frame (MOpen, body_wire p (MsgOpen (our_open p))), q, rest) /\
  expires q (agreed_hold (sp_hold p) (op_hold m)).
Proof. exact session_expires. Qed.
Print Assumptions C132_expires_refuted.
(** At most one KEEPALIVE a second: exactly when the peer's hold time is 3 or more. *)
Theorem C132_pace_partial : forall oc p m rest, client_open_ok p -> open_wf m -> (length (body_wire p (MsgOpen m)) <= 4096)%nat ->
  exists q, start_active oc p (S_Open.frame (MOpen, body_wire p (MsgOpen m)) ++ rest) =
    Ok (S_Open.frame (MOpen, body_wire p (MsgOpen (our_open p))), q, rest) /\ (paced q <-> 3 <= op_hold m).
Proof. exact session_paced. Qed.
Print Assumptions C132_pace_partial.
(** Below that, and for hold time 0 with which there are to be none at all, any number of them leaves without a pause. *)
Theorem C132_flood_refuted : forall oc p m rest, client_open_ok p -> open_wf m -> (length (body_wire p (MsgOpen m)) <= 4096)%nat -> op_hold m < 3 ->
  exists q, start_active oc p (S_Open.frame (MOpen, body_wire p (MsgOpen m)) ++ rest) =
    Ok (S_Open.frame (MOpen, body_wire p (MsgOpen (our_open p))), q, rest) /\
  forall n, exists log, keepalive_loop q n = Ok (0, log) /\ length log = n /\ Forall (fun e => e = (0, keepalive_wire)) log.
Proof. exact session_zero. Qed.
Print Assumptions C132_flood_refuted.
(** The client as it is run: it opens the session to any AS, and keeps it up exactly when the peer's hold time is at most 542 seconds. *)
Theorem C132_main : forall oc asn m rest, asn < 2 ^ 32 -> open_wf m -> (length (body_wire (main_params asn) (MsgOpen m)) <= 4096)%nat -> 3 <= op_hold m ->
  exists q, start_active oc (main_params asn) (S_Open.frame (MOpen, body_wire (main_params asn) (MsgOpen m)) ++ rest) =
    Ok (S_Open.frame (MOpen, body_wire (main_params asn) (MsgOpen (our_open (main_params asn)))), q, rest) /\
  (kept_up q (agreed_hold 180 (op_hold m)) <-> op_hold m <= 542).
Proof. exact main_alive. Qed.
Print Assumptions C132_main.

Example C132_ex : let m h := mkOpen 65001 h 0x0a000001 [CapMP SafiIPv4u; CapRR; CapASN32 65001] in
  let p := main_params 4200000000 in
  client_open_ok p /\ (forall h, h < 65536 -> open_wf (m h)) /\ (length (body_wire p (MsgOpen (m 90%N))) <= 4096)%nat /\
  match start_active true p (S_Open.frame (MOpen, body_wire p (MsgOpen (m 90))) ++ [1]) with
  | Ok (_, q, rest) => rest = [1] /\ keepalive_loop q 3 = Ok (90, [(60, keepalive_wire); (30, keepalive_wire); (0, keepalive_wire)])
  | _ => False
  end /\
  (* the peer proposes 600 seconds, 180 are agreed, but the keepalives are 200 seconds apart *)
  match start_active true p (S_Open.frame (MOpen, body_wire p (MsgOpen (m 600)))) with
  | Ok (_, q, _) => keepalive_loop q 2 = Ok (400, [(200, keepalive_wire); (0, keepalive_wire)]) /\ agreed_hold (sp_hold p) 600 = 180
  | _ => False
  end.
Proof.
  cbv zeta. split; [apply main_open_ok; reflexivity|]. split.
  - intros h H. split; [reflexivity|]. split; [exact H|]. split; [reflexivity|].
    repeat (apply Forall_cons; [split; [split; [exact Logic.I || reflexivity|vm_compute; lia]|intros (x & d & X); discriminate X]|]). apply Forall_nil.
  - split; [vm_compute; lia|]. split; vm_compute; auto.
Qed.
