(** C08-C16, C54-C56, C62: NLRI lists. *)
From Verif Require Import Base BaseFacts M_Util M_Prefix S_Prefix M_Nlri S_Nlri F_Nlri F_Nlri2.

(** IPv4 prefix lists: exact bytes, frame, count; decoding returns the list. *)
Theorem C08_v4_nlri : forall oc v buf, Forall v4_wf v -> (length (items_wire v4_wire v) <= length buf)%nat ->
  encode_bgpitems_to oc v4_to_bits v buf =
    Ok (length (items_wire v4_wire v), items_wire v4_wire v ++ skipn (length (items_wire v4_wire v)) buf) /\
  decode_bgpitems_from oc v4_from_bits (items_wire v4_wire v) = Ok (map v4_trunc v, length (items_wire v4_wire v)) /\
  (Forall v4_clean v -> map v4_trunc v = v).
Proof. exact C08_l. Qed.
Print Assumptions C08_v4_nlri.
Example C08_ex : Forall v4_wf [mkV4 0x0a000000 8; mkV4 0xc0a80180 25; mkV4 0 0] /\
  items_wire v4_wire [mkV4 0x0a000000 8; mkV4 0xc0a80180 25; mkV4 0 0] = [8; 10; 25; 192; 168; 1; 128; 0] /\
  decode_bgpitems_from true v4_from_bits [8; 10; 25; 192; 168; 1; 128; 0] = Ok ([mkV4 0x0a000000 8; mkV4 0xc0a80180 25; mkV4 0 0], 8%nat).
Proof. repeat split; repeat constructor; vm_compute; congruence. Qed.

Theorem C09_v6_nlri : forall oc v buf, Forall v6_wf v -> (length (items_wire v6_wire v) <= length buf)%nat ->
  encode_bgpitems_to oc v6_to_bits v buf =
    Ok (length (items_wire v6_wire v), items_wire v6_wire v ++ skipn (length (items_wire v6_wire v)) buf) /\
  decode_bgpitems_from oc v6_from_bits (items_wire v6_wire v) = Ok (map v6_trunc v, length (items_wire v6_wire v)) /\
  (Forall v6_clean v -> map v6_trunc v = v).
Proof. exact C09_l. Qed.
Print Assumptions C09_v6_nlri.
Example C09_ex : Forall v6_wf [mkV6 0x20010db8000000000000000000000000 32; mkV6 1 128] /\
  items_wire v6_wire [mkV6 0x20010db8000000000000000000000000 32; mkV6 1 128] =
    [32; 0x20; 1; 0x0d; 0xb8; 128; 0;0;0;0;0;0;0;0;0;0;0;0;0;0;0;1].
Proof. repeat split; repeat constructor; vm_compute; congruence. Qed.

(** Decoding loses nothing. *)
Theorem C10_v4_lossless : forall oc oc' l v n buf, bytes_ok l -> decode_bgpitems_from oc v4_from_bits l = Ok (v, n) ->
  (length l <= length buf)%nat -> encode_bgpitems_to oc' v4_to_bits v buf = Ok (length l, l ++ skipn (length l) buf).
Proof. exact C10_v4_l. Qed.
Print Assumptions C10_v4_lossless.
Theorem C10_v6_lossless : forall oc oc' l v n buf, bytes_ok l -> decode_bgpitems_from oc v6_from_bits l = Ok (v, n) ->
  (length l <= length buf)%nat -> encode_bgpitems_to oc' v6_to_bits v buf = Ok (length l, l ++ skipn (length l) buf).
Proof. exact C10_v6_l. Qed.
Print Assumptions C10_v6_lossless.
Example C10_ex : decode_bgpitems_from true v4_from_bits [20; 10; 11; 0xff] = Ok ([mkV4 0x0a0bff00 20], 4%nat) /\
  encode_bgpitems_to false v4_to_bits [mkV4 0x0a0bff00 20] (repeat 7 6) = Ok (4%nat, [20; 10; 11; 0xff; 7; 7]).
Proof. split; reflexivity. Qed.

(** ADD-PATH lists. *)
Theorem C11_v4_addpath : forall oc v buf, Forall (fun x => pid x < 2 ^ 32 /\ v4_wf (pid_nlri x)) v ->
  (length (pid_items_wire v4_wire v) <= length buf)%nat ->
  encode_pathid_bgpitems_to oc v4_to_bits v buf =
    Ok (length (pid_items_wire v4_wire v), pid_items_wire v4_wire v ++ skipn (length (pid_items_wire v4_wire v)) buf) /\
  decode_pathid_bgpitems_from oc v4_from_bits (pid_items_wire v4_wire v) =
    Ok (map (fun x => mkPid (pid x) (v4_trunc (pid_nlri x))) v, length (pid_items_wire v4_wire v)) /\
  (Forall (fun x => v4_clean (pid_nlri x)) v -> map (fun x => mkPid (pid x) (v4_trunc (pid_nlri x))) v = v).
Proof. exact C11_v4_l. Qed.
Print Assumptions C11_v4_addpath.
Theorem C11_v6_addpath : forall oc v buf, Forall (fun x => pid x < 2 ^ 32 /\ v6_wf (pid_nlri x)) v ->
  (length (pid_items_wire v6_wire v) <= length buf)%nat ->
  encode_pathid_bgpitems_to oc v6_to_bits v buf =
    Ok (length (pid_items_wire v6_wire v), pid_items_wire v6_wire v ++ skipn (length (pid_items_wire v6_wire v)) buf) /\
  decode_pathid_bgpitems_from oc v6_from_bits (pid_items_wire v6_wire v) =
    Ok (map (fun x => mkPid (pid x) (v6_trunc (pid_nlri x))) v, length (pid_items_wire v6_wire v)) /\
  (Forall (fun x => v6_clean (pid_nlri x)) v -> map (fun x => mkPid (pid x) (v6_trunc (pid_nlri x))) v = v).
Proof. exact C11_v6_l. Qed.
Print Assumptions C11_v6_addpath.
Example C11_ex : pid_items_wire v4_wire [mkPid 258 (mkV4 0x0a000000 8); mkPid 3 (mkV4 0 0)] = [0; 0; 1; 2; 8; 10; 0; 0; 0; 3; 0] /\
  decode_pathid_bgpitems_from true v4_from_bits [0; 0; 1; 2; 8; 10; 0; 0; 0; 3; 0] =
    Ok ([mkPid 258 (mkV4 0x0a000000 8); mkPid 3 (mkV4 0 0)], 11%nat).
Proof. split; reflexivity. Qed.

(** Plain lists account for every byte. *)
Theorem C12_v4_all_bytes : forall oc l v n, bytes_ok l -> decode_bgpitems_from oc v4_from_bits l = Ok (v, n) ->
  n = length l /\ l = items_wire v4_wire v.
Proof. exact C12_v4_l. Qed.
Print Assumptions C12_v4_all_bytes.
Theorem C12_v6_all_bytes : forall oc l v n, bytes_ok l -> decode_bgpitems_from oc v6_from_bits l = Ok (v, n) ->
  n = length l /\ l = items_wire v6_wire v.
Proof. exact C12_v6_l. Qed.
Print Assumptions C12_v6_all_bytes.
Theorem C12_labeled_all_bytes : forall oc l, bytes_ok l ->
  (forall v n, decode_bgpitems_from oc (labeled_extract v4_from_bits) l = Ok (v, n) -> n = length l) /\
  (forall v n, decode_bgpitems_from oc (labeled_extract v6_from_bits) l = Ok (v, n) -> n = length l) /\
  (forall v n, decode_bgpitems_from oc (labeled_extract (withrd_extract v4_from_bits)) l = Ok (v, n) -> n = length l) /\
  (forall v n, decode_bgpitems_from oc (labeled_extract (withrd_extract v6_from_bits)) l = Ok (v, n) -> n = length l).
Proof.
  exact (fun oc l Hb => conj (fun v n => items_consume_all oc _ l v n (lab4_bounded oc) Hb)
    (conj (fun v n => items_consume_all oc _ l v n (lab6_bounded oc) Hb)
    (conj (fun v n => items_consume_all oc _ l v n (vpn4_bounded oc) Hb)
          (fun v n => items_consume_all oc _ l v n (vpn6_bounded oc) Hb)))).
Qed.
Print Assumptions C12_labeled_all_bytes.
(** ADD-PATH lists do not: up to four trailing bytes are dropped silently ... *)
Theorem C12_addpath_refuted : forall oc v trail,
  Forall (fun x => pid x < 2 ^ 32 /\ v4_wf (pid_nlri x)) v -> (1 <= length trail <= 4)%nat ->
  exists r n, decode_pathid_bgpitems_from oc v4_from_bits (pid_items_wire v4_wire v ++ trail) = Ok (r, n) /\
    length r = length v /\ (n < length (pid_items_wire v4_wire v ++ trail))%nat.
Proof. exact C12_refuted_all. Qed.
Print Assumptions C12_addpath_refuted.
(** ... but never more than four, and everything before them is accounted for. *)
Theorem C12_v4_addpath_exact : forall oc l v n, bytes_ok l -> decode_pathid_bgpitems_from oc v4_from_bits l = Ok (v, n) ->
  exists trail, l = pid_items_wire v4_wire v ++ trail /\ (length trail <= 4)%nat /\ n = length (pid_items_wire v4_wire v).
Proof. exact C12_pid4_l. Qed.
Print Assumptions C12_v4_addpath_exact.
Theorem C12_v6_addpath_exact : forall oc l v n, bytes_ok l -> decode_pathid_bgpitems_from oc v6_from_bits l = Ok (v, n) ->
  exists trail, l = pid_items_wire v6_wire v ++ trail /\ (length trail <= 4)%nat /\ n = length (pid_items_wire v6_wire v).
Proof. exact C12_pid6_l. Qed.
Print Assumptions C12_v6_addpath_exact.
Theorem C12_addpath_dropped : forall oc v trail, Forall (fun x => pid x < 2 ^ 32 /\ v4_wf (pid_nlri x)) v -> (length trail <= 4)%nat ->
  decode_pathid_bgpitems_from oc v4_from_bits (pid_items_wire v4_wire v ++ trail) =
    Ok (map (fun x => mkPid (pid x) (v4_trunc (pid_nlri x))) v, length (pid_items_wire v4_wire v)).
Proof. exact C12_pid_drop4_l. Qed.
Print Assumptions C12_addpath_dropped.
Example C12_ex : decode_bgpitems_from true v4_from_bits [8; 10; 24; 1] = Err EOther.
Proof. reflexivity. Qed.

(** Label stacks. *)
Theorem C13_labels : forall oc ls buf rest, stack_wf ls -> 24 * N.of_nat (length ls) < 256 ->
  (length (stack_wire ls) <= length buf)%nat ->
  labels_set ls buf = Ok ((24 * N.of_nat (length ls), length (stack_wire ls)), stack_wire ls ++ skipn (length (stack_wire ls)) buf) /\
  labels_extract oc (24 * N.of_nat (length ls)) (stack_wire ls ++ rest) = Ok (ls, length (stack_wire ls)).
Proof. exact labels_rt. Qed.
Print Assumptions C13_labels.
Example C13_ex : stack_wf [16; 1048575; 3] /\ stack_wire [16; 1048575; 3] = [0; 1; 0; 255; 255; 240; 0; 0; 49] /\
  labels_extract true 72 [0; 1; 0; 255; 255; 240; 0; 0; 49] = Ok ([16; 1048575; 3], 9%nat).
Proof.
  repeat split; try discriminate; repeat constructor; try (vm_compute; reflexivity);
    unfold stack_ending; cbn [In]; intros H; repeat destruct H as [H|H]; try discriminate; auto.
Qed.
(** The conditions matter: a reserved label above the bottom cuts the stack. *)
Example C13_reserved_inside : labels_extract true 48 (stack_wire [3; 16]) = Ok ([3], 3%nat).
Proof. reflexivity. Qed.

(** Labeled unicast. *)
Theorem C14_labeled_v4 : forall oc v buf, Forall (fun x => labeled_wf v4_wf x /\ fits (labeled_wire v4_wire) x) v ->
  (length (items_wire (labeled_wire v4_wire) v) <= length buf)%nat -> let w := items_wire (labeled_wire v4_wire) v in
  encode_bgpitems_to oc (labeled_set v4_to_bits) v buf = Ok (length w, w ++ skipn (length w) buf) /\
  decode_bgpitems_from oc (labeled_extract v4_from_bits) w =
    Ok (map (fun x => mkLab (v4_trunc (lab_prefix x)) (lab_labels x)) v, length w) /\
  (Forall (fun x => v4_clean (lab_prefix x)) v -> map (fun x => mkLab (v4_trunc (lab_prefix x)) (lab_labels x)) v = v).
Proof. exact C14_v4_l. Qed.
Print Assumptions C14_labeled_v4.
Theorem C14_labeled_v6 : forall oc v buf, Forall (fun x => labeled_wf v6_wf x /\ fits (labeled_wire v6_wire) x) v ->
  (length (items_wire (labeled_wire v6_wire) v) <= length buf)%nat -> let w := items_wire (labeled_wire v6_wire) v in
  encode_bgpitems_to oc (labeled_set v6_to_bits) v buf = Ok (length w, w ++ skipn (length w) buf) /\
  decode_bgpitems_from oc (labeled_extract v6_from_bits) w =
    Ok (map (fun x => mkLab (v6_trunc (lab_prefix x)) (lab_labels x)) v, length w) /\
  (Forall (fun x => v6_clean (lab_prefix x)) v -> map (fun x => mkLab (v6_trunc (lab_prefix x)) (lab_labels x)) v = v).
Proof. exact C14_v6_l. Qed.
Print Assumptions C14_labeled_v6.
Example C14_ex : items_wire (labeled_wire v4_wire) [mkLab (mkV4 0x0a000000 8) [100; 200]] = [56; 0; 6; 64; 0; 12; 129; 10] /\
  decode_bgpitems_from true (labeled_extract v4_from_bits) [56; 0; 6; 64; 0; 12; 129; 10] = Ok ([mkLab (mkV4 0x0a000000 8) [100; 200]], 8%nat).
Proof. split; reflexivity. Qed.
(** A route without labels (constructor [Labeled::new_nl]) is not recovered: 16.1.3.3/32 without
    labels comes back as label 65552 and prefix 3.0.0.0/8. *)
Example C14_no_labels : encode_bgpitems_to true (labeled_set v4_to_bits) [mkLab (mkV4 0x10010303 32) []] (repeat 0 5) = Ok (5%nat, [32; 16; 1; 3; 3]) /\
  decode_bgpitems_from false (labeled_extract v4_from_bits) [32; 16; 1; 3; 3] = Ok ([mkLab (mkV4 0x03000000 8) [65552]], 5%nat).
Proof. split; reflexivity. Qed.

(** VPN routes. *)
Theorem C15_vpnv4 : forall oc v buf, Forall (fun x => labeled_wf (withrd_wf v4_wf) x /\ fits (labeled_wire (withrd_wire v4_wire)) x) v ->
  let w := items_wire (labeled_wire (withrd_wire v4_wire)) v in
  (length w <= length buf)%nat ->
  encode_bgpitems_to oc (labeled_set (withrd_set v4_to_bits)) v buf = Ok (length w, w ++ skipn (length w) buf) /\
  decode_bgpitems_from oc (labeled_extract (withrd_extract v4_from_bits)) w = Ok (map (vpn_nm v4_trunc) v, length w) /\
  (Forall (fun x => v4_clean (wrd_prefix (lab_prefix x))) v -> map (vpn_nm v4_trunc) v = v).
Proof. exact (fun oc v buf => C15_gen oc _ _ _ _ _ v4_clean v buf (v4_codec oc) trunc4_id). Qed.
Print Assumptions C15_vpnv4.
Theorem C15_vpnv6 : forall oc v buf, Forall (fun x => labeled_wf (withrd_wf v6_wf) x /\ fits (labeled_wire (withrd_wire v6_wire)) x) v ->
  let w := items_wire (labeled_wire (withrd_wire v6_wire)) v in
  (length w <= length buf)%nat ->
  encode_bgpitems_to oc (labeled_set (withrd_set v6_to_bits)) v buf = Ok (length w, w ++ skipn (length w) buf) /\
  decode_bgpitems_from oc (labeled_extract (withrd_extract v6_from_bits)) w = Ok (map (vpn_nm v6_trunc) v, length w) /\
  (Forall (fun x => v6_clean (wrd_prefix (lab_prefix x))) v -> map (vpn_nm v6_trunc) v = v).
Proof. exact (fun oc v buf => C15_gen oc _ _ _ _ _ v6_clean v buf (v6_codec oc) trunc6_id). Qed.
Print Assumptions C15_vpnv6.
Example C15_ex : items_wire (labeled_wire (withrd_wire v4_wire)) [mkLab (mkWRD (mkV4 0x0a010000 16) (mkRD 100 7)) [500]] =
    [104; 0; 31; 65; 0; 0; 0; 100; 0; 0; 0; 7; 10; 1] /\
  decode_bgpitems_from true (labeled_extract (withrd_extract v4_from_bits)) [104; 0; 31; 65; 0; 0; 0; 100; 0; 0; 0; 7; 10; 1] =
    Ok ([mkLab (mkWRD (mkV4 0x0a010000 16) (mkRD 100 7)) [500]], 14%nat).
Proof. split; reflexivity. Qed.

(** Route distinguishers. *)
Theorem C16_rd_encode : forall r buf rest, rd_wf r -> (8 <= length buf)%nat ->
  encode_rd_to r buf = Ok (8%nat, rd_wire r ++ skipn 8 buf) /\ decode_rd_from (rd_wire r ++ rest) = Ok (r, 8%nat).
Proof. exact rd_rt. Qed.
Print Assumptions C16_rd_encode.
Theorem C16_rd_decode : forall l buf, bytes_ok l -> (8 <= length buf)%nat ->
  if (Nat.leb 8 (length l))%bool then
    exists r, rd_wf r /\ decode_rd_from l = Ok (r, 8%nat) /\ encode_rd_to r buf = Ok (8%nat, firstn 8 l ++ skipn 8 buf)
  else exists e, decode_rd_from l = Err e.
Proof. exact rd_dec. Qed.
Print Assumptions C16_rd_decode.
Example C16_ex : rd_wf (mkRD 0x10a00 0x00010064) /\ rd_wire (mkRD 0x10a00 0x00010064) = [0; 1; 10; 0; 0; 1; 0; 100].
Proof. repeat split; vm_compute; congruence. Qed.

(** Termination of the list loops: the model's fuel is never exhausted, i.e. every iteration
    makes progress, on every input and in both build modes. *)
Theorem C54_nlri_terminates : forall oc l,
  decode_bgpitems_from oc v4_from_bits l <> OutOfFuel /\ decode_bgpitems_from oc v6_from_bits l <> OutOfFuel /\
  decode_pathid_bgpitems_from oc v4_from_bits l <> OutOfFuel /\ decode_pathid_bgpitems_from oc v6_from_bits l <> OutOfFuel /\
  decode_bgpitems_from oc (labeled_extract v4_from_bits) l <> OutOfFuel /\
  decode_bgpitems_from oc (labeled_extract v6_from_bits) l <> OutOfFuel /\
  decode_bgpitems_from oc (labeled_extract (withrd_extract v4_from_bits)) l <> OutOfFuel /\
  decode_bgpitems_from oc (labeled_extract (withrd_extract v6_from_bits)) l <> OutOfFuel /\
  decode_pathid_bgpitems_from oc (labeled_extract v4_from_bits) l <> OutOfFuel /\
  decode_pathid_bgpitems_from oc (labeled_extract v6_from_bits) l <> OutOfFuel /\
  decode_pathid_bgpitems_from oc (labeled_extract (withrd_extract v4_from_bits)) l <> OutOfFuel /\
  decode_pathid_bgpitems_from oc (labeled_extract (withrd_extract v6_from_bits)) l <> OutOfFuel.
Proof. exact C54_l. Qed.
Print Assumptions C54_nlri_terminates.

(** Prefix lists on arbitrary bytes: panics exactly in builds with overflow checks when the
    decoder reaches a length octet of 249..255. *)
Theorem C55_v4_panic_exact : forall oc l, bytes_ok l ->
  (is_panic (decode_bgpitems_from oc v4_from_bits l) = true <->
   oc = true /\ exists v b post, Forall v4_wf v /\ l = items_wire v4_wire v ++ b :: post /\ 249 <= b).
Proof. exact C55_v4_l. Qed.
Print Assumptions C55_v4_panic_exact.
Theorem C55_v6_panic_exact : forall oc l, bytes_ok l ->
  (is_panic (decode_bgpitems_from oc v6_from_bits l) = true <->
   oc = true /\ exists v b post, Forall v6_wf v /\ l = items_wire v6_wire v ++ b :: post /\ 249 <= b).
Proof. exact C55_v6_l. Qed.
Print Assumptions C55_v6_panic_exact.
Theorem C55_addpath_release : forall l, bytes_ok l -> is_panic (decode_pathid_bgpitems_from false v4_from_bits l) = false /\
  is_panic (decode_pathid_bgpitems_from false v6_from_bits l) = false.
Proof. exact C55_pid_l. Qed.
Print Assumptions C55_addpath_release.
Theorem C55_v4_addpath_exact : forall oc l, bytes_ok l ->
  (is_panic (decode_pathid_bgpitems_from oc v4_from_bits l) = true <->
   oc = true /\ exists v i b post, Forall (fun x => pid x < 2 ^ 32 /\ v4_wf (pid_nlri x)) v /\ length i = 4%nat /\
     l = pid_items_wire v4_wire v ++ i ++ b :: post /\ 249 <= b).
Proof. exact C55_pid4_l. Qed.
Print Assumptions C55_v4_addpath_exact.
Theorem C55_v6_addpath_exact : forall oc l, bytes_ok l ->
  (is_panic (decode_pathid_bgpitems_from oc v6_from_bits l) = true <->
   oc = true /\ exists v i b post, Forall (fun x => pid x < 2 ^ 32 /\ v6_wf (pid_nlri x)) v /\ length i = 4%nat /\
     l = pid_items_wire v6_wire v ++ i ++ b :: post /\ 249 <= b).
Proof. exact C55_pid6_l. Qed.
Print Assumptions C55_v6_addpath_exact.
(** so the claim as stated is false of every list of prefixes followed by such an octet: *)
Theorem C55_total_refuted : forall b post, 249 <= b -> bytes_ok (b :: post) ->
  (forall v, Forall v4_wf v -> bytes_ok (items_wire v4_wire v) -> decode_bgpitems_from true v4_from_bits (items_wire v4_wire v ++ b :: post) = Panic) /\
  (forall v, Forall v6_wf v -> bytes_ok (items_wire v6_wire v) -> decode_bgpitems_from true v6_from_bits (items_wire v6_wire v ++ b :: post) = Panic).
Proof. exact C55_refuted_all. Qed.
Print Assumptions C55_total_refuted.
Example C55_ex : Forall v4_wf [mkV4 0x0a000000 8] /\ bytes_ok (items_wire v4_wire [mkV4 0x0a000000 8]) /\
  decode_bgpitems_from true v4_from_bits [8; 10; 250; 1] = Panic /\
  decode_bgpitems_from false v4_from_bits [8; 10; 250; 1] = Err EOther /\
  decode_pathid_bgpitems_from true v4_from_bits [0; 0; 0; 1; 8; 10; 0; 0; 0; 2; 249] = Panic.
Proof. split; [apply Forall_cons; [split; [reflexivity|discriminate]|apply Forall_nil]|]. split; [apply bytes_okb_ok; reflexivity|]. repeat split; reflexivity. Qed.

(** Labeled routes on arbitrary bytes: any number of label entries none of
    which ends the stack, followed by less than one entry, panics in both build
    modes and all four families, as long as the announced length goes on. *)
Theorem C56_total_refuted : forall oc bits E tl, bytes_ok (bits :: concat E ++ tl) ->
  Forall (fun e => length e = 3%nat /\ forall b0 b1 b2, e = [b0; b1; b2] -> ~ entry_ends b0 b1 b2) E ->
  24 * N.of_nat (length E) < bits -> (length tl < 3)%nat ->
  decode_bgpitems_from oc (labeled_extract v4_from_bits) (bits :: concat E ++ tl) = Panic /\
  decode_bgpitems_from oc (labeled_extract v6_from_bits) (bits :: concat E ++ tl) = Panic /\
  decode_bgpitems_from oc (labeled_extract (withrd_extract v4_from_bits)) (bits :: concat E ++ tl) = Panic /\
  decode_bgpitems_from oc (labeled_extract (withrd_extract v6_from_bits)) (bits :: concat E ++ tl) = Panic.
Proof. exact C56_refuted_all. Qed.
Print Assumptions C56_total_refuted.
(** With overflow checks a labeled item decodes without panic exactly when its label stack is
    complete within the announced length and the buffer. *)
Theorem C56_labeled_exact : forall bits buf, bits < 256 -> bytes_ok buf ->
  (is_panic (decode_bgpitem_from true (labeled_extract v4_from_bits) (bits :: buf)) = false <-> exists k, stack_complete bits buf k) /\
  (is_panic (decode_bgpitem_from true (labeled_extract v6_from_bits) (bits :: buf)) = false <-> exists k, stack_complete bits buf k).
Proof. exact C56_lu_l. Qed.
Print Assumptions C56_labeled_exact.
Theorem C56_vpn_exact : forall bits buf, bits < 256 -> bytes_ok buf ->
  (is_panic (decode_bgpitem_from true (labeled_extract (withrd_extract v4_from_bits)) (bits :: buf)) = false <->
   exists k, stack_complete bits buf k /\ (64 + 24 * N.of_nat k <= bits \/ (length buf < 3 * k + 8)%nat)) /\
  (is_panic (decode_bgpitem_from true (labeled_extract (withrd_extract v6_from_bits)) (bits :: buf)) = false <->
   exists k, stack_complete bits buf k /\ (64 + 24 * N.of_nat k <= bits \/ (length buf < 3 * k + 8)%nat)).
Proof. exact C56_vpn_l. Qed.
Print Assumptions C56_vpn_exact.
(** Without overflow checks a complete stack is enough. *)
Theorem C56_release_complete : forall bits buf k, bits < 256 -> bytes_ok buf -> stack_complete bits buf k ->
  is_panic (decode_bgpitem_from false (labeled_extract v4_from_bits) (bits :: buf)) = false /\
  is_panic (decode_bgpitem_from false (labeled_extract v6_from_bits) (bits :: buf)) = false /\
  is_panic (decode_bgpitem_from false (labeled_extract (withrd_extract v4_from_bits)) (bits :: buf)) = false /\
  is_panic (decode_bgpitem_from false (labeled_extract (withrd_extract v6_from_bits)) (bits :: buf)) = false.
Proof. exact C56_release_l. Qed.
Print Assumptions C56_release_complete.
(** ... and exactly the stacks that end within the buffer, counting the remaining
    bits modulo 256, are read without panic. *)
Theorem C56_release_exact : forall bits buf, bits < 256 -> bytes_ok buf ->
  (is_panic (decode_bgpitem_from false (labeled_extract v4_from_bits) (bits :: buf)) = false <-> exists k, stack_read bits buf k) /\
  (is_panic (decode_bgpitem_from false (labeled_extract v6_from_bits) (bits :: buf)) = false <-> exists k, stack_read bits buf k) /\
  (is_panic (decode_bgpitem_from false (labeled_extract (withrd_extract v4_from_bits)) (bits :: buf)) = false <-> exists k, stack_read bits buf k) /\
  (is_panic (decode_bgpitem_from false (labeled_extract (withrd_extract v6_from_bits)) (bits :: buf)) = false <-> exists k, stack_read bits buf k).
Proof. exact C56_release_exact_l. Qed.
Print Assumptions C56_release_exact.
Example C56_ex_cut : Forall (fun e => length e = 3%nat /\ forall b0 b1 b2, e = [b0; b1; b2] -> ~ entry_ends b0 b1 b2) [[0; 1; 0]] /\
  decode_bgpitems_from true (labeled_extract v4_from_bits) [56; 0; 1; 0; 0; 2] = Panic /\
  stack_read 8 (concat (repeat [0; 1; 0] 9) ++ [0; 1; 1]) 10.
Proof.
  assert (NE : ~ entry_ends 0 1 0).
  { intros [H|H]; [|discriminate]. unfold stack_ending in H. cbn in H. repeat (destruct H as [H|H]; [discriminate|]). try discriminate; try contradiction. }
  split; [apply Forall_cons; [|apply Forall_nil]; split; [reflexivity|]; intros b0 b1 b2 H; injection H as <- <- <-; exact NE|].
  split; [reflexivity|]. cbn [repeat concat app].
  repeat (apply sr_more; [reflexivity|exact NE|]; cbn). apply sr_last; [reflexivity|right; reflexivity].
Qed.
Example C56_ex : stack_complete 32 [0; 1; 1; 10] 1 /\
  decode_bgpitem_from true (labeled_extract v4_from_bits) [32; 0; 1; 1; 10] = Ok (mkLab (mkV4 0x0a000000 8) [16], 5%nat).
Proof. split; [apply sc_last; [discriminate|right; reflexivity]|reflexivity]. Qed.

(** Each accepted item occupies exactly the octets its length octet announces. *)
Theorem C62_prefix_framing : forall oc l, bytes_ok l ->
  (forall x n, decode_bgpitem_from oc v4_from_bits l = Ok (x, n) -> announced l n) /\
  (forall x n, decode_bgpitem_from oc v6_from_bits l = Ok (x, n) -> announced l n).
Proof. exact C62_prefix_l. Qed.
Print Assumptions C62_prefix_framing.
(** Labeled/VPN items: with overflow checks ... *)
Theorem C62_labeled_framing : forall l, bytes_ok l ->
  (forall x n, decode_bgpitem_from true (labeled_extract v4_from_bits) l = Ok (x, n) -> announced l n) /\
  (forall x n, decode_bgpitem_from true (labeled_extract v6_from_bits) l = Ok (x, n) -> announced l n) /\
  (forall x n, decode_bgpitem_from true (labeled_extract (withrd_extract v4_from_bits)) l = Ok (x, n) -> announced l n) /\
  (forall x n, decode_bgpitem_from true (labeled_extract (withrd_extract v6_from_bits)) l = Ok (x, n) -> announced l n).
Proof. exact C62_labeled_l. Qed.
Print Assumptions C62_labeled_framing.
(** ... but not in release builds: the bit counter wraps around, and each time it does 32
    octets more than announced are read. *)
Theorem C62_release_exact : forall bits buf, bytes_ok (bits :: buf) ->
  (forall x n, decode_bgpitem_from false (labeled_extract v4_from_bits) (bits :: buf) = Ok (x, n) ->
     exists m, n = (S (prefix_octets bits) + 32 * m)%nat /\
       24 * N.of_nat (length (lab_labels x)) <= bits + 256 * N.of_nat m < 24 * N.of_nat (length (lab_labels x)) + 256) /\
  (forall x n, decode_bgpitem_from false (labeled_extract v6_from_bits) (bits :: buf) = Ok (x, n) ->
     exists m, n = (S (prefix_octets bits) + 32 * m)%nat /\
       24 * N.of_nat (length (lab_labels x)) <= bits + 256 * N.of_nat m < 24 * N.of_nat (length (lab_labels x)) + 256) /\
  (forall x n, decode_bgpitem_from false (labeled_extract (withrd_extract v4_from_bits)) (bits :: buf) = Ok (x, n) ->
     exists m, n = (S (prefix_octets bits) + 32 * m)%nat /\
       24 * N.of_nat (length (lab_labels x)) + 64 <= bits + 256 * N.of_nat m < 24 * N.of_nat (length (lab_labels x)) + 64 + 256) /\
  (forall x n, decode_bgpitem_from false (labeled_extract (withrd_extract v6_from_bits)) (bits :: buf) = Ok (x, n) ->
     exists m, n = (S (prefix_octets bits) + 32 * m)%nat /\
       24 * N.of_nat (length (lab_labels x)) + 64 <= bits + 256 * N.of_nat m < 24 * N.of_nat (length (lab_labels x)) + 64 + 256).
Proof. exact C62_release_exact_l. Qed.
Print Assumptions C62_release_exact.
(** So whenever labels (and route distinguisher) take more bits than announced, the item is
    misframed. *)
Theorem C62_release_refuted : forall bits buf, bytes_ok (bits :: buf) ->
  (forall x n, decode_bgpitem_from false (labeled_extract v4_from_bits) (bits :: buf) = Ok (x, n) ->
     bits < 24 * N.of_nat (length (lab_labels x)) -> ~ announced (bits :: buf) n) /\
  (forall x n, decode_bgpitem_from false (labeled_extract v6_from_bits) (bits :: buf) = Ok (x, n) ->
     bits < 24 * N.of_nat (length (lab_labels x)) -> ~ announced (bits :: buf) n) /\
  (forall x n, decode_bgpitem_from false (labeled_extract (withrd_extract v4_from_bits)) (bits :: buf) = Ok (x, n) ->
     bits < 24 * N.of_nat (length (lab_labels x)) + 64 -> ~ announced (bits :: buf) n) /\
  (forall x n, decode_bgpitem_from false (labeled_extract (withrd_extract v6_from_bits)) (bits :: buf) = Ok (x, n) ->
     bits < 24 * N.of_nat (length (lab_labels x)) + 64 -> ~ announced (bits :: buf) n).
Proof. exact C62_release_refuted_l. Qed.
Print Assumptions C62_release_refuted.
Example C62_ex : decode_bgpitem_from true (labeled_extract v4_from_bits) [32; 0; 1; 1; 10; 99] = Ok (mkLab (mkV4 0x0a000000 8) [16], 5%nat)
  /\ announced [32; 0; 1; 1; 10; 99] 5.
Proof. split; [reflexivity|]. do 2 eexists. split; [reflexivity|]. split; [reflexivity|]. cbn. repeat constructor. Qed.
(** accepted in release although one entry of 24 bits does not fit the 8 announced ones *)
Example C62_ex_release : exists x,
  decode_bgpitem_from false (labeled_extract v4_from_bits) (8 :: concat (repeat [0; 0; 16] 9) ++ [0; 0; 17; 10; 0; 0]) = Ok (x, 34%nat) /\
  length (lab_labels x) = 10%nat /\ prefix_octets 8 = 1%nat.
Proof. eexists. repeat split; vm_compute; reflexivity. Qed.
