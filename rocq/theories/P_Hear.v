(** C129: what of a session has an influence on what is read and written. *)
From Verif Require Import Base M_Util M_Prefix M_Nlri M_Cap M_Open M_Session M_Addrs M_Attr M_Update M_Peer S_Hear F_Hear.

(** C129: UPDATE messages are read alike on two sessions, whatever octets arrive, exactly if the sessions have the same transport and the same
    size of AS numbers, expect path identifiers in the same families and look for them alike in the others. Nothing else of a session
    (AS number, hold time, router id, other capabilities, what may be sent) has an influence; each of these has. *)
Theorem C129_heard : forall oc p p', (forall buf, update_decode oc p update_new buf = update_decode oc p' update_new buf) <-> hear_alike p p'.
Proof. exact hear_exactly. Qed.
Print Assumptions C129_heard.
(** C129: then every message, every single attribute and every route list is read alike, and so is a whole stream. *)
Theorem C129_messages : forall oc p p' t buf, hear_alike p p' -> message_decode oc p t buf = message_decode oc p' t buf.
Proof. exact message_alike. Qed.
Print Assumptions C129_messages.
Theorem C129_attributes : forall oc p p' tc fl n buf, hear_alike p p' -> attr_decode oc p tc fl n buf = attr_decode oc p' tc fl n buf.
Proof. exact attr_alike. Qed.
Print Assumptions C129_attributes.
Theorem C129_routes : forall oc p p' afi sf buf, hear_alike p p' -> addrs_decode oc p afi sf buf = addrs_decode oc p' afi sf buf.
Proof. exact addrs_alike. Qed.
Print Assumptions C129_routes.
Theorem C129_stream : forall oc p p', hear_alike p p' -> forall fuel s, lifecycle oc fuel p s = lifecycle oc fuel p' s.
Proof. exact lifecycle_alike. Qed.
Print Assumptions C129_stream.
Example C129_heard_ex :
  hear_alike (mkParams 65001 180 ModeV4 true 1 [CapRR; CapAddPath [mkAP 1 1 true true]] false)
             (mkParams 64512 30 ModeV4 true 9 [CapAddPath [mkAP 1 1 false true]; CapBFD] false) /\
  ~ hear_alike (params_new 65001 180 ModeV4 1 []) (params_new 65001 180 ModeV4 1 [CapAddPath [mkAP 1 1 true true]]).
Proof.
  split.
  - split; [reflexivity|]. split; [reflexivity|]. intros afi sf I. unfold pid_families in I. cbn [In] in I.
    repeat (destruct I as [I|I]; [injection I as <- <-; split; reflexivity|]). destruct I.
  - intros (_ & _ & H). specialize (H 1 1 ltac:(now left)). destruct H as [H _]. vm_compute in H. discriminate.
Qed.

(** C129: UPDATE messages are written alike on two sessions exactly if these have the same transport and the same size of AS numbers. *)
Theorem C129_spoken : forall oc p p', (forall m buf, update_encode oc p m buf = update_encode oc p' m buf) <-> speak_alike p p'.
Proof. exact speak_exactly. Qed.
Print Assumptions C129_spoken.
Theorem C129_sent : forall oc p p' m buf, speak_alike p p' -> send_message oc p m buf = send_message oc p' m buf.
Proof. exact send_speak. Qed.
Print Assumptions C129_sent.
(** C129, a consequence: path identifiers are written whether or not ADD-PATH was agreed on. *)
Theorem C129_addpath_ignored : forall oc p m buf, message_encode oc (remove_capability_addpath p) m buf = message_encode oc p m buf.
Proof. exact addpath_speak. Qed.
Print Assumptions C129_addpath_ignored.
Example C129_addpath_ex : let p := params_new 65001 180 ModeV4 1 [] in
  check_addpath_send p 1 1 = false /\
  message_encode true p (MsgUpdate (mkUpd (IPV4UP [mkPid 7 (mkV4 167772160 8)]) ANone [])) (repeat 0 10) = Ok (10%nat, [0; 0; 0; 0; 0; 0; 0; 7; 8; 10]).
Proof. split; vm_compute; reflexivity. Qed.
