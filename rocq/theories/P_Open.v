(** OPEN and NOTIFICATION: C31-C35. *)
From Verif Require Import Base M_Util M_Cap M_Open M_Session S_Cap S_Open F_Cap F_Open F_Refute.

(** C31: encoding into any buffer that is large enough succeeds, touches only
    the bytes of the message, and decoding them gives hold time, router id,
    capabilities, and the AS number (AS_TRANS if it needs 32 bits), whatever the
    object decoded into held before. Excluded: capabilities that do not fit an
    optional parameter, and FQDN (see C22). *)
Theorem C31_open_roundtrip : forall m, open_wf m ->
  exists bs, length bs = length (open_wire m) /\
    writes (open_encode m) bs (length (open_wire m)) /\
    forall self, open_decode self bs = Ok (open_seen m).
Proof. exact open_roundtrip. Qed.
Print Assumptions C31_open_roundtrip.

(** The bytes are the RFC wire form whenever the optional parameters fit their
    one-octet length. *)
Theorem C31_open_wire : forall m, open_wf m -> (length (params_wire (op_caps m)) < 256)%nat ->
  writes (open_encode m) (open_wire m) (length (open_wire m)).
Proof. exact open_encode_wire. Qed.
Print Assumptions C31_open_wire.

(** Every decoded OPEN without an FQDN capability can be sent again. *)
Theorem C31_open_reencode : forall self buf m, bytes_ok buf -> open_decode self buf = Ok m ->
  Forall (fun c => ~ is_fqdn c) (op_caps m) -> open_wf m /\ open_seen m = m.
Proof. exact open_reencode. Qed.
Print Assumptions C31_open_reencode.

(** With an FQDN capability the claim is false, whatever the capabilities
    before and after it, whatever the buffer. *)
Theorem C31_open_refuted : forall m pre h d post buf n out, op_caps m = pre ++ CapFQDN h d :: post ->
  Forall cap_sendable pre -> (length (cap_wire (CapFQDN h d)) < 256)%nat ->
  open_encode m buf = Ok (n, out) -> forall self, open_decode self (firstn n out) <> Ok (open_seen m).
Proof. exact open_refuted_all. Qed.
Print Assumptions C31_open_refuted.

Example C31_ex_fqdn : exists n out,
  open_encode (mkOpen 1 180 1 [CapRR; CapFQDN [104] []; CapBFD]) (repeat 0 30) = Ok (n, out) /\
  open_decode open_new (firstn n out) = Err EInsufficient.
Proof. do 2 eexists. split; vm_compute; reflexivity. Qed.
Example C31_ex :
  let m := mkOpen 70000 180 (ip4_new 10 0 0 1) [CapMP SafiIPv4u; CapASN32 70000; CapRR] in
  open_wf m /\
  open_wire m = [4; 91; 160; 0; 180; 10; 0; 0; 1; 20; 2; 6; 1; 4; 0; 1; 0; 1;
                 2; 6; 65; 4; 0; 1; 17; 112; 2; 2; 2; 0] /\
  open_encode m (repeat 0 30) = Ok (30%nat, open_wire m) /\
  open_decode open_new (open_wire m) = Ok (mkOpen 23456 180 (ip4_new 10 0 0 1) [CapMP SafiIPv4u; CapASN32 70000; CapRR]).
Proof.
  split.
  - split; [reflexivity|]. split; [reflexivity|]. split; [reflexivity|].
    repeat apply Forall_cons; try apply Forall_nil;
      (split; [split; [vm_compute; auto|vm_compute; lia]|intros (h & d & H); discriminate]).
  - repeat split; reflexivity.
Qed.

(** C32: never a panic, always an answer (the model's loops do not run out of
    fuel); the answer does not depend on the object; what is accepted has
    fields in range. *)
Theorem C32_open_decode_total : forall self buf,
  match open_decode self buf with
  | Ok m => bytes_ok buf ->
      op_as m < 65536 /\ op_hold m < 65536 /\ op_rid m < 2 ^ 32 /\ Forall cap_fits (op_caps m)
  | Err _ => True
  | _ => False
  end.
Proof. exact open_decode_total. Qed.
Print Assumptions C32_open_decode_total.
Theorem C32_open_decode_fresh : forall s1 s2 buf, open_decode s1 buf = open_decode s2 buf.
Proof. exact open_decode_self. Qed.
Print Assumptions C32_open_decode_fresh.
Example C32_ex : open_decode open_new [4; 0; 1; 0; 9; 1; 2; 3; 4; 6; 2; 4; 200; 0; 2; 0] =
    Ok (mkOpen 1 9 (ip4_new 1 2 3 4) [CapRR]) /\
  open_decode open_new [4; 0; 1; 0; 9; 1; 2; 3; 4; 6; 2; 4; 200] = Err EInsufficient /\
  open_decode open_new [3; 0; 1; 0; 9; 1; 2; 3; 4; 0] = Err EOther.
Proof. repeat split; reflexivity. Qed.

(** C33 is false: a buffer that ends where a capability should begin (or one
    byte later) makes the encoder panic (open.rs:101-102). *)
Theorem C33_open_encode_refuted : forall m pre c post buf, open_wf m -> op_caps m = pre ++ c :: post ->
  (length buf = 10 + length (params_wire pre) \/ length buf = 11 + length (params_wire pre))%nat ->
  open_encode m buf = Panic.
Proof. exact open_encode_refuted_all. Qed.
Print Assumptions C33_open_encode_refuted.

(** Total for every message (in range or not) when the buffer is shorter than
    the fixed part or holds the whole message. *)
Theorem C33_open_encode_total_partial : forall m buf,
  ((length buf < 10)%nat \/ (10 + length (params_wire (op_caps m)) <= length buf)%nat) ->
  match open_encode m buf with Ok _ | Err _ => True | _ => False end.
Proof. exact open_encode_total. Qed.
Print Assumptions C33_open_encode_total_partial.

(** In between, for sendable capabilities: panic exactly when the buffer ends
    within the two-byte header of the first capability that does not fit. *)
Theorem C33_open_encode_exact : forall m buf, open_wf m ->
  (10 <= length buf < 10 + length (params_wire (op_caps m)))%nat ->
  exists pre c post, op_caps m = pre ++ c :: post /\
    (10 + length (params_wire pre) <= length buf < 10 + length (params_wire (pre ++ [c])))%nat /\
    open_encode m buf =
      (if Nat.ltb (length buf) (10 + length (params_wire pre) + 2) then Panic else Err EInsufficient).
Proof. exact open_encode_exact. Qed.
Print Assumptions C33_open_encode_exact.
Example C33_ex :
  let m := mkOpen 1 180 1 [CapRR; CapBFD] in
  open_wf m /\ length (params_wire (op_caps m)) = 8%nat /\
  open_encode m (repeat 0 9) = Err EInsufficient /\ open_encode m (repeat 0 15) = Panic /\
  open_encode m (repeat 0 16) = Err EInsufficient /\ is_ok (open_encode m (repeat 0 18)) = true.
Proof.
  split.
  - split; [reflexivity|]. split; [reflexivity|]. split; [reflexivity|].
    repeat apply Forall_cons; try apply Forall_nil;
      (split; [split; [vm_compute; auto|vm_compute; lia]|intros (h & d & H); discriminate]).
  - repeat split; reflexivity.
Qed.

(** C34: the octet is the length modulo 256 *)
Theorem C34_open_optlen : forall m, open_wf m ->
  exists bs, writes (open_encode m) bs (length bs) /\
    nth_error bs 9 = Some (N.of_nat (length bs - 10) mod 256).
Proof. exact open_optlen. Qed.
Print Assumptions C34_open_optlen.
Theorem C34_open_optlen_fits : forall m, open_wf m -> (length (params_wire (op_caps m)) < 256)%nat ->
  exists bs, writes (open_encode m) bs (length bs) /\
    nth_error bs 9 = Some (N.of_nat (length bs - 10)).
Proof. exact open_optlen_fits. Qed.
Print Assumptions C34_open_optlen_fits.
(** so it is always wrong when the capabilities need more than 255 octets *)
Theorem C34_open_optlen_refuted : forall m bs, open_wf m -> (256 <= length (params_wire (op_caps m)))%nat ->
  writes (open_encode m) bs (length bs) -> nth_error bs 9 <> Some (N.of_nat (length bs - 10)).
Proof. exact open_optlen_refuted_all. Qed.
Print Assumptions C34_open_optlen_refuted.
Example C34_ex : length (params_wire (repeat (CapMP SafiEVPN) 32)) = 256%nat /\
  open_caplen (repeat (CapMP SafiEVPN) 32) = 0 /\ open_caplen (repeat (CapMP SafiEVPN) 31) = 248.
Proof. repeat split; reflexivity. Qed.

(** C35 *)
Theorem C35_notification : forall m, notif_wf m ->
  writes (notif_encode m) (notif_wire m) 4%nat /\
  forall self, notif_decode self (notif_wire m) = Ok m.
Proof. exact (fun m H => conj (notif_encode_ok m H) (fun self => notif_decode_ok self m H)). Qed.
Print Assumptions C35_notification.
Theorem C35_notification_total : forall m buf,
  match notif_decode m buf with Ok _ | Err _ => True | _ => False end /\
  match notif_encode m buf with Ok _ | Err _ => True | _ => False end.
Proof. exact (fun m buf => conj (notif_total m buf) (notif_enc_total m buf)). Qed.
Print Assumptions C35_notification_total.
(** Independent of the previous contents unless the body is exactly two bytes
    long, in which case the old data is kept. *)
Theorem C35_notification_fresh : forall s1 s2 buf, length buf <> 2%nat ->
  notif_decode s1 buf = notif_decode s2 buf.
Proof. exact notif_self. Qed.
Print Assumptions C35_notification_fresh.
Theorem C35_notification_stale_refuted : forall self a b,
  notif_decode self [a; b] = Ok (mkNotif a b (nt_data self)).
Proof. exact notif_two. Qed.
Print Assumptions C35_notification_stale_refuted.
Example C35_ex : notif_encode (mkNotif 6 2 258) [9; 9; 9; 9; 9] = Ok (4%nat, [6; 2; 1; 2; 9]) /\
  notif_decode (mkNotif 0 0 77) [6; 2; 1; 2] = Ok (mkNotif 6 2 258) /\
  notif_decode (mkNotif 0 0 77) [6; 2] = Ok (mkNotif 6 2 77).
Proof. repeat split; reflexivity. Qed.
