(** Property theorems: FlowSpec rules (C21). *)
From Verif Require Import Base M_Util S_Wire M_Prefix S_Prefix M_Nlri S_Nlri M_Vpls M_Flowspec S_Flowspec F_Flowspec.

(** C21, items: an operator/value item writes exactly its RFC 8955 form, and reading that form -
    whether or not it carries the end-of-list bit, whatever follows - gives the item back. *)
Theorem C21_val_item x : fv_value x < 2 ^ 32 ->
  writes (fsval_enc x) (val_wire false x) (length (val_wire false x)) /\
  forall last rest, fsval_dec (val_wire last x ++ rest) = Ok (x, length (val_wire last x)).
Proof. exact (fun H => conj (writes_val x H) (fun e rest => val_dec e x rest H)). Qed.
Print Assumptions C21_val_item.
Example C21_val_item_ex : fsval_enc (mkFsVal true false true false 1025) [0;0;0;0] = Ok (3%nat, [82;4;1;0]) /\
  fsval_dec [210;4;1] = Ok (mkFsVal true false true false 1025, 3%nat).
Proof. split; reflexivity. Qed.

Theorem C21_mask_item x : fm_value x < 2 ^ 32 ->
  writes (fsmask_enc x) (mask_wire false x) (length (mask_wire false x)) /\
  forall last rest, fsmask_dec (mask_wire last x ++ rest) = Ok (x, length (mask_wire last x)).
Proof. exact (fun H => conj (writes_mask x H) (fun e rest => mask_dec e x rest H)). Qed.
Print Assumptions C21_mask_item.
Example C21_mask_item_ex : fsmask_enc (mkFsMask false true true 65536) [9;9;9;9;9] = Ok (5%nat, [35;0;1;0;0]).
Proof. reflexivity. Qed.

(** C21, item lists: a list of items writes the concatenation of the forms with the end-of-list bit
    on the last one, and decodes back, for lists of any length. *)
Theorem C21_val_list v : Forall (fun x => fv_value x < 2 ^ 32) v ->
  writes (vec_enc fsvalop v) (vec_wire val_wire v) (length (vec_wire val_wire v)) /\
  vec_dec fsvalop (vec_wire val_wire v) = Ok (v, length (vec_wire val_wire v)).
Proof. exact (fun H => conj (writes_vec _ _ _ _ val_ok v H) (vec_dec_ok _ _ _ _ val_ok v H)). Qed.
Print Assumptions C21_val_list.
Example C21_val_list_ex : vec_enc fsvalop [mkFsVal false false false true 6; mkFsVal true true false false 300] [0;0;0;0;0;0] =
  Ok (5%nat, [1;6;212;1;44;0]).
Proof. reflexivity. Qed.

Theorem C21_mask_list v : Forall (fun x => fm_value x < 2 ^ 32) v ->
  writes (vec_enc fsmaskop v) (vec_wire mask_wire v) (length (vec_wire mask_wire v)) /\
  vec_dec fsmaskop (vec_wire mask_wire v) = Ok (v, length (vec_wire mask_wire v)).
Proof. exact (fun H => conj (writes_vec _ _ _ _ mask_ok v H) (vec_dec_ok _ _ _ _ mask_ok v H)). Qed.
Print Assumptions C21_mask_list.
Example C21_mask_list_ex : vec_dec fsmaskop [1;2;194;4] = Ok ([mkFsMask false false true 2; mkFsMask true true false 4], 4%nat).
Proof. reflexivity. Qed.

(** C21, rules, decoding: the RFC form of an operator rule is always understood. *)
Theorem C21_rule_decode {T} (it : fsitem T) (wf : T -> Prop) (W : T -> list N) r rest :
  fs_wf wf r -> ~ is_pfx r -> (length (fs_body W r) <= 4095)%nat ->
  fs_decode it (fs_wire W r ++ rest) = Ok (r, length (fs_wire W r)).
Proof. exact (fs_decode_oper it wf W r rest). Qed.
Print Assumptions C21_rule_decode.
Example C21_rule_decode_ex : fs_decode (fs4 true) [5;5;2;25;130;53;77] =
  Ok (FsPortDst [mkFsVal false false true false 25; mkFsVal false false true false 53], 6%nat).
Proof. reflexivity. Qed.

(** C21, rules, partial (operator rules of IPv4 FlowSpec; the other address kinds have the same encoder):
    the round trip holds when the lengths of the items happen to add up, that is when the announced
    length (computed item by item with sizes that differ from the sizes written) is off by exactly
    the one octet that the encoder adds; e.g. a single value below 256.  Missing: all other operator
    rules, for which it fails (next theorem). *)
Theorem C21_rule_partial oc (r : flowspec addrV4) :
  fs_wf v4_wf r -> ~ is_pfx r -> skew r = 1%nat -> (length (fs_body fs4_wire r) <= 4094)%nat ->
  writes (fs_encode (fs4 oc) r) (fs_wire fs4_wire r) (length (fs_wire fs4_wire r)) /\
  forall rest, fs_decode (fs4 oc) (fs_wire fs4_wire r ++ rest) = Ok (r, length (fs_wire fs4_wire r)).
Proof. exact (fun H P S L => conj (writes_fs _ _ _ (fs4_wr oc) r H S L)
  (fun rest => fs_decode_oper _ _ _ r rest H P (Nat.le_trans _ _ _ L (Nat.le_succ_diag_r 4094)))). Qed.
Print Assumptions C21_rule_partial.
Example C21_rule_partial_ex : let r := FsDscp [mkFsVal false false false true 46; mkFsVal true true false false 4660] in
  fs_wf v4_wf r /\ ~ is_pfx r /\ skew r = 1%nat /\ fs_encode (fs4 true) r (repeat 0 8) = Ok (7%nat, [6;11;1;46;212;18;52;0]).
Proof. cbv zeta. split; [repeat (apply Forall_cons; [reflexivity|]); apply Forall_nil|]. split; [intros []|]. split; reflexivity. Qed.

(** C21 refuted for operator rules: whenever the sizes do not add up by luck, the bytes written do
    not decode to the rule - not the bytes reported as written, not the whole buffer. *)
Theorem C21_rule_refuted oc (r : flowspec addrV4) buf n out q :
  fs_wf v4_wf r -> ~ is_pfx r -> skew r <> 1%nat -> (length (fs_body fs4_wire r) + 3 <= length buf)%nat ->
  fs_encode (fs4 oc) r buf = Ok (n, out) ->
  fs_decode (fs4 oc) (firstn n out) <> Ok (r, q) /\ fs_decode (fs4 oc) out <> Ok (r, q).
Proof. exact (fs_refuted _ _ _ (fs4_wr oc) r buf n out q). Qed.
Print Assumptions C21_rule_refuted.
(** two protocols: length 4 announced, 5 written; one 16-bit port: 5 announced, 4 written *)
Example C21_rule_refuted_ex :
  fs_encode (fs4 true) (FsProto [mkFsVal false false false true 6; mkFsVal false false false true 17]) (repeat 0 8) =
    Ok (6%nat, [4;3;1;6;129;17;0;0]) /\ fs_decode (fs4 true) [4;3;1;6;129;17] = Panic /\
  fs_encode (fs4 true) (FsPortDst [mkFsVal false false false true 8080]) (repeat 0 8) = Ok (5%nat, [5;5;145;31;144;0;0;0]) /\
  fs_decode (fs4 true) [5;5;145;31;144] = Panic.
Proof. repeat split; reflexivity. Qed.

(** C21, prefix rules, partial: source and destination rules (IPv4; IPv6 with the library's own offset
    octet) decode to themselves (bits beyond the last octet dropped), but the number of octets
    reported as consumed is one too many. *)
Theorem C21_prefix4_partial oc (r : flowspec addrV4) : fs_wf v4_wf r -> is_pfx r -> (length (fs_body fs4_wire r) <= 4094)%nat ->
  writes (fs_encode (fs4 oc) r) (fs_wire fs4_wire r) (length (fs_wire fs4_wire r)) /\
  forall rest, fs_decode (fs4 oc) (fs_wire fs4_wire r ++ rest) = Ok (fs_map v4_trunc r, S (length (fs_wire fs4_wire r))).
Proof. exact (fun H P L => conj (writes_fs _ _ _ (fs4_wr oc) r H (ltac:(destruct r; try contradiction; reflexivity)) L)
  (fun rest => fs_decode_pfx _ _ _ _ (fs4_rd oc) r rest H P (Nat.le_trans _ _ _ L (Nat.le_succ_diag_r 4094)))). Qed.
Print Assumptions C21_prefix4_partial.
Example C21_prefix4_partial_ex : fs_encode (fs4 true) (FsDst (mkV4 3232235520 16)) (repeat 0 6) = Ok (5%nat, [4;1;16;192;168;0]) /\
  fs_decode (fs4 true) [4;1;16;192;168] = Ok (FsDst (mkV4 3232235520 16), 6%nat).
Proof. split; reflexivity. Qed.
Theorem C21_prefix6_partial oc (r : flowspec fs6) : fs_wf fs6_wf r -> is_pfx r -> (length (fs_body fs6_wire r) <= 4094)%nat ->
  writes (fs_encode (fs6i oc) r) (fs_wire fs6_wire r) (length (fs_wire fs6_wire r)) /\
  forall rest, fs_decode (fs6i oc) (fs_wire fs6_wire r ++ rest) = Ok (fs_map fs6_trunc r, S (length (fs_wire fs6_wire r))).
Proof. exact (fun H P L => conj (writes_fs _ _ _ (fs6_wr oc) r H (ltac:(destruct r; try contradiction; reflexivity)) L)
  (fun rest => fs_decode_pfx _ _ _ _ (fs6_rd oc) r rest H P (Nat.le_trans _ _ _ L (Nat.le_succ_diag_r 4094)))). Qed.
Print Assumptions C21_prefix6_partial.
Example C21_prefix6_partial_ex : fs_decode (fs6i true) [6;2;16;0;254;128;0] = Ok (FsSrc (mkFs6 (mkV6 (65152 * 2 ^ 112) 16) 0), 7%nat).
Proof. reflexivity. Qed.

(** C21 refuted for lists of prefix rules: because of the wrong count, a list whose first two
    rules are prefix rules never decodes back. *)
Theorem C21_prefix_list_refuted oc r1 r2 l q buf : fs_wf v4_wf r1 -> fs_wf v4_wf r2 -> is_pfx r1 -> is_pfx r2 ->
  Forall (fun r => fs_wf v4_wf r /\ skew r = 1%nat /\ (length (fs_body fs4_wire r) <= 4094)%nat) l ->
  (length (flat_map (fs_wire fs4_wire) (r1 :: r2 :: l)) <= length buf)%nat ->
  exists n out, encode_bgpaddritems_to (fs_encode (fs4 oc)) (r1 :: r2 :: l) buf = Ok (n, out) /\
    decode_bgpaddritems_from (fs_decode (fs4 oc)) (firstn n out) <> Ok (map (fs_map v4_trunc) (r1 :: r2 :: l), q).
Proof. exact (fs4_list_refuted oc r1 r2 l q buf). Qed.
Print Assumptions C21_prefix_list_refuted.
Example C21_prefix_list_refuted_ex : decode_bgpaddritems_from (fs_decode (fs4 true)) [4;1;16;192;168; 4;2;16;10;1] = Err EOther.
Proof. reflexivity. Qed.

(** C21 refuted for VPN prefix rules (FSV4U): the encoder writes two zero octets where the decoder
    reads the length, so no source or destination rule is ever decoded, in either build mode. *)
Theorem C21_fsv4_refuted oc r buf : fs_wf (withrd_wf v4_wf) r -> is_pfx r -> (20 <= length buf)%nat ->
  exists n out, fs_encode (fsv4 oc) r buf = Ok (n, out) /\
    (forall x, fs_decode (fsv4 oc) (firstn n out) <> Ok x) /\ (forall x, fs_decode (fsv4 oc) out <> Ok x).
Proof. exact (fsv4_refuted oc r buf). Qed.
Print Assumptions C21_fsv4_refuted.
Example C21_fsv4_refuted_ex : let r := FsDst (mkWRD (mkV4 167772160 8) (mkRD 100 1)) in fs_wf (withrd_wf v4_wf) r /\
  fs_encode (fsv4 true) r (repeat 0 13) = Ok (13%nat, [12;1;0;0;0;0;0;100;0;0;0;1;10]).
Proof. cbv zeta. split; [|reflexivity]. cbn [fs_wf]. split; [split; reflexivity|]. split; [reflexivity|]. cbn [wrd_prefix v4_len]. discriminate. Qed.
