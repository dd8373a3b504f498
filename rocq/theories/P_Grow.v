(** C128: a larger buffer does not change what is encoded. *)
From Verif Require Import Base M_Util M_Prefix M_Nlri M_Addrs M_Attr M_Update M_Cap M_Open M_Session M_Peer M_Bmp S_Grow F_Grow.

(** C128: every route list, well formed or not, in both build modes. *)
Theorem C128_routes : forall oc a, same_in_larger (addrs_encode oc a).
Proof. exact l_addrs. Qed.
Print Assumptions C128_routes.

(** C128: every path attribute, on every session. *)
Theorem C128_attribute : forall oc p a, same_in_larger (attr_encode oc p a).
Proof. exact l_attr. Qed.
Print Assumptions C128_attribute.
Example C128_attribute_ex :
  attr_encode true (params_new 65001 180 ModeV4 1 []) (AAggregatorAS 65001 167772161) (repeat 9 7) = Ok (7%nat, [64; 7; 4; 9; 9; 9; 9]) /\
  attr_encode true (params_new 65001 180 ModeV4 1 []) (AAggregatorAS 65001 167772161) (repeat 9 7 ++ [1; 2]) = Ok (7%nat, [64; 7; 4; 9; 9; 9; 9] ++ [1; 2]).
Proof. split; vm_compute; reflexivity. Qed.

(** C128: the body of every BGP message: OPEN, UPDATE, NOTIFICATION, KEEPALIVE. *)
Theorem C128_message : forall oc p m, same_in_larger (message_encode oc p m).
Proof. exact l_message. Qed.
Print Assumptions C128_message.
Example C128_message_ex :
  let m := MsgUpdate (mkUpd (IPV4U [mkV4 167772160 8]) ANone [AOrigin Igp]) in
  let p := params_new 65001 180 ModeV4 1 [] in
  message_encode true p m (repeat 7 10) = Ok (10%nat, [0; 0; 0; 4; 64; 1; 1; 0; 8; 10]) /\
  message_encode true p m (repeat 7 10 ++ [5; 6]) = Ok (10%nat, [0; 0; 0; 4; 64; 1; 1; 0; 8; 10; 5; 6]) /\
  is_ok (message_encode true p m (repeat 7 9)) = false.
Proof. repeat split; vm_compute; reflexivity. Qed.

(** C128: the octets which are sent, and the two functions of a session which write the message header. *)
Theorem C128_sent : forall oc p m, same_in_larger (send_message oc p m).
Proof. exact l_send. Qed.
Print Assumptions C128_sent.
Theorem C128_header : forall oc t n, same_in_larger (send_message_buf oc t n) /\ same_in_larger (prepare_message_buf oc t n).
Proof. exact l_sendbuf. Qed.
Print Assumptions C128_header.
Example C128_sent_ex :
  send_message true (params_new 65001 180 ModeV4 1 []) MsgKeepalive (repeat 3 19) = Ok (repeat 255 16 ++ [0; 19; 4], repeat 255 16 ++ [0; 19; 4]) /\
  send_message true (params_new 65001 180 ModeV4 1 []) MsgKeepalive (repeat 3 20) = Ok (repeat 255 16 ++ [0; 19; 4], repeat 255 16 ++ [0; 19; 4; 3]).
Proof. split; vm_compute; reflexivity. Qed.

(** C128: a capability by itself, if it is one of those which are not copied from a literal. *)
Theorem C128_capability : forall c, cap_literal c = false -> same_in_larger (fill_buffer c).
Proof. exact l_cap. Qed.
Print Assumptions C128_capability.
(** C128 is false of the others: [fill_buffer] panics on every buffer which is longer than the capability. *)
Theorem C128_capability_refuted : forall c, cap_literal c = true -> forall buf x buf', fill_buffer c buf = Ok (x, buf') ->
  forall more, more <> [] -> fill_buffer c (buf ++ more) = Panic.
Proof. exact l_cap_literal. Qed.
Print Assumptions C128_capability_refuted.
Example C128_capability_ex :
  fill_buffer (CapAddPath [mkAP 1 1 true true]) (repeat 0 6) = Ok (tt, [69; 4; 0; 1; 1; 3]) /\
  fill_buffer (CapAddPath [mkAP 1 1 true true]) (repeat 0 7) = Ok (tt, [69; 4; 0; 1; 1; 3; 0]) /\
  fill_buffer CapRR [0; 0] = Ok (tt, [2; 0]) /\ fill_buffer CapRR [0; 0; 0] = Panic.
Proof. repeat split; vm_compute; reflexivity. Qed.

(** C128: a BMP message is the same in a larger buffer; but what follows it is erased if the message has an IPv4 address in a BMP address field. *)
Theorem C128_bmp : forall oc m buf n buf', bmp_encode oc m buf = Ok (n, buf') ->
  forall more, bmp_encode oc m (buf ++ more) = Ok (n, buf' ++ if bmp_clears m then repeat 0 (length more) else more).
Proof. exact l_bmp. Qed.
Print Assumptions C128_bmp.
Example C128_bmp_ex :
  let down a := PeerDown (mkDown (mkPeer 0 0 (mkRD 0 0) a 65001 1 0) BmpDisabled) in
  is_ok (bmp_encode true (down (IPv4 1)) (repeat 7 44)) = true /\ is_ok (bmp_encode true (down (IPv6 1)) (repeat 7 44)) = true /\
  bmp_clears (down (IPv4 1)) = true /\ bmp_clears (down (IPv6 1)) = false.
Proof. repeat split; vm_compute; reflexivity. Qed.
