(** C17, C19: VPLS and MDT NLRI. *)
From Verif Require Import Base BaseFacts M_Util M_Prefix S_Prefix M_Nlri S_Nlri M_Vpls S_Vpls F_Nlri F_Vpls.

(** C17 is false for every non-empty list: whatever the items, if encoding
    succeeds, decoding the reported number of bytes does not give the list back
    (the two length octets of each item are not counted, afi/mod.rs:267). *)
Theorem C17_vpls_refuted : forall oc v buf n out m, v <> [] ->
  encode_long_bgpitems_to l2a_pack v buf = Ok (n, out) ->
  decode_long_bgpitems_from (l2a_extract oc) (firstn n out) <> Ok (v, m).
Proof. exact vpls_refuted. Qed.
Print Assumptions C17_vpls_refuted.

(** What holds: the decoder returns the list from its RFC 4761 wire form; *)
Theorem C17_vpls_decode : forall oc v, Forall l2a_wf v ->
  decode_long_bgpitems_from (l2a_extract oc) (flat_map (long_wire l2a_wire) v) =
  Ok (v, length (flat_map (long_wire l2a_wire) v)).
Proof. exact vpls_list_decode. Qed.
Print Assumptions C17_vpls_decode.
(** a single item is encoded as its wire form (with the count two too small); *)
Theorem C17_vpls_single_partial : forall x, l2a_wf x ->
  writes (encode_long_bgpitems_to l2a_pack [x]) (long_wire l2a_wire x) (length (long_wire l2a_wire x) - 2)%nat.
Proof. exact vpls_single_count. Qed.
Print Assumptions C17_vpls_single_partial.
(** the fixed-size [BgpL2] round trips. *)
Theorem C17_l2_roundtrip : forall x, l2_wf x -> writes (l2_encode x) (l2_wire x) 14%nat /\
  forall rest, l2_decode (l2_wire x ++ rest) = Ok (x, 14%nat).
Proof. exact l2_roundtrip. Qed.
Print Assumptions C17_l2_roundtrip.

Example C17_ex :
  let x := mkL2A (mkRD 65536 7) 1 2 3 [100] in
  l2a_wf x /\
  long_wire l2a_wire x = [0; 17; 0; 1; 0; 0; 0; 0; 0; 7; 0; 1; 0; 2; 0; 3; 0; 6; 65] /\
  decode_long_bgpitems_from (l2a_extract true) (long_wire l2a_wire x) = Ok ([x], 19%nat) /\
  encode_long_bgpitems_to l2a_pack [x] (repeat 9 20) = Ok (17%nat, long_wire l2a_wire x ++ [9]) /\
  decode_long_bgpitems_from (l2a_extract true) (firstn 17 (long_wire l2a_wire x)) = Panic.
Proof.
  split; [|repeat split; reflexivity].
  split; [split; reflexivity|]. split; [reflexivity|]. split; [reflexivity|]. split; [reflexivity|].
  split; [|reflexivity]. split; [discriminate|]. split; [|constructor].
  constructor; [reflexivity|constructor].
Qed.

(** C19: IPv4 MDT lists, with and without RD. *)
Theorem C19_mdt4 : forall oc v buf, Forall mdt4_wf v ->
  (length (items_wire mdt4_wire v) <= length buf)%nat ->
  encode_bgpitems_to oc mdt4_set v buf =
    Ok (length (items_wire mdt4_wire v), items_wire mdt4_wire v ++ skipn (length (items_wire mdt4_wire v)) buf) /\
  decode_bgpitems_from oc mdt4_extract (items_wire mdt4_wire v) =
    Ok (map mdt4_trunc v, length (items_wire mdt4_wire v)).
Proof. exact (fun oc v buf => codec_lists oc _ _ _ _ _ (mdt4_codec oc) v buf). Qed.
Print Assumptions C19_mdt4.
Theorem C19_mdt4_rd : forall oc v buf, Forall (withrd_wf mdt4_wf) v ->
  (length (items_wire (withrd_wire mdt4_wire) v) <= length buf)%nat ->
  encode_bgpitems_to oc (withrd_set mdt4_set) v buf =
    Ok (length (items_wire (withrd_wire mdt4_wire) v),
        items_wire (withrd_wire mdt4_wire) v ++ skipn (length (items_wire (withrd_wire mdt4_wire) v)) buf) /\
  decode_bgpitems_from oc (withrd_extract mdt4_extract) (items_wire (withrd_wire mdt4_wire) v) =
    Ok (map (fun x => mkWRD (mdt4_trunc (wrd_prefix x)) (wrd_rd x)) v, length (items_wire (withrd_wire mdt4_wire) v)).
Proof. exact (fun oc v buf => codec_lists oc _ _ _ _ _ (mdt4_rd_codec oc) v buf). Qed.
Print Assumptions C19_mdt4_rd.
(** Nothing is lost when no host bits are set. *)
Theorem C19_mdt4_clean : forall x, v4_wf (mdt4_addr x) -> v4_clean (mdt4_addr x) -> mdt4_trunc x = x.
Proof. exact mdt4_trunc_id. Qed.
Print Assumptions C19_mdt4_clean.

(** IPv6: up to prefix length 126 without RD, 63 with RD. *)
Theorem C19_mdt6_partial : forall oc v buf, Forall (fun x => mdt6_wf x /\ v6_len (mdt6_addr x) <= 126) v ->
  (length (items_wire mdt6_wire v) <= length buf)%nat ->
  encode_bgpitems_to oc mdt6_set v buf =
    Ok (length (items_wire mdt6_wire v), items_wire mdt6_wire v ++ skipn (length (items_wire mdt6_wire v)) buf) /\
  decode_bgpitems_from oc mdt6_extract (items_wire mdt6_wire v) =
    Ok (map mdt6_trunc v, length (items_wire mdt6_wire v)).
Proof. exact (fun oc v buf => codec_lists oc _ _ _ _ _ (mdt6_codec oc) v buf). Qed.
Print Assumptions C19_mdt6_partial.
Theorem C19_mdt6_rd_partial : forall oc v buf,
  Forall (fun x => withrd_wf mdt6_wf x /\ v6_len (mdt6_addr (wrd_prefix x)) <= 63) v ->
  (length (items_wire (withrd_wire mdt6_wire) v) <= length buf)%nat ->
  encode_bgpitems_to oc (withrd_set mdt6_set) v buf =
    Ok (length (items_wire (withrd_wire mdt6_wire) v),
        items_wire (withrd_wire mdt6_wire) v ++ skipn (length (items_wire (withrd_wire mdt6_wire) v)) buf) /\
  decode_bgpitems_from oc (withrd_extract mdt6_extract) (items_wire (withrd_wire mdt6_wire) v) =
    Ok (map (fun x => mkWRD (mdt6_trunc (wrd_prefix x)) (wrd_rd x)) v, length (items_wire (withrd_wire mdt6_wire) v)).
Proof. exact (fun oc v buf => codec_lists oc _ _ _ _ _ (mdt6_rd_codec oc) v buf). Qed.
Print Assumptions C19_mdt6_rd_partial.
Theorem C19_mdt6_clean : forall x, v6_wf (mdt6_addr x) -> v6_clean (mdt6_addr x) -> mdt6_trunc x = x.
Proof. exact mdt6_trunc_id. Qed.
Print Assumptions C19_mdt6_clean.

(** Beyond, the claim is false: without RD, lengths 127 and 128 are never
    decoded (or cannot be encoded at all); *)
Theorem C19_mdt6_refuted : forall oc oc' x buf b n out rest, mdt6_wf x -> 127 <= v6_len (mdt6_addr x) ->
  mdt6_set oc x buf = Ok (b, n, out) -> mdt6_extract oc' b rest = Err EOther.
Proof. exact mdt6_refuted. Qed.
Print Assumptions C19_mdt6_refuted.
(** with RD, lengths from 64 on cannot be encoded when overflow checks are on. *)
Theorem C19_mdt6_rd_refuted : forall x buf, mdt6_wf (wrd_prefix x) -> 64 <= v6_len (mdt6_addr (wrd_prefix x)) ->
  is_ok (withrd_set mdt6_set true x buf) = false.
Proof. exact withrd6_refuted. Qed.
Print Assumptions C19_mdt6_rd_refuted.

Example C19_ex :
  let x := mkWRD (mkMdt4 (mkV4 (ip4_new 10 1 2 3) 32) (ip4_new 239 1 1 1)) (mkRD 1 2) in
  withrd_wf mdt4_wf x /\
  items_wire (withrd_wire mdt4_wire) [x] = [128; 0; 0; 0; 1; 0; 0; 0; 2; 10; 1; 2; 3; 239; 1; 1; 1] /\
  decode_bgpitems_from true (withrd_extract mdt4_extract) (items_wire (withrd_wire mdt4_wire) [x]) = Ok ([x], 17%nat).
Proof. split; [|split; reflexivity]. repeat split; try reflexivity. Qed.
Example C19_ex6 :
  let x := mkMdt6 (mkV6 (be_val [32; 1; 13; 184; 0; 0; 0; 0; 0; 0; 0; 0; 0; 0; 0; 0]) 32) 5 in
  mdt6_set true x (repeat 0 20) = Ok (160, 20%nat, [32; 1; 13; 184; 0; 0; 0; 0; 0; 0; 0; 0; 0; 0; 0; 0; 0; 0; 0; 5]) /\
  mdt6_set true (mkMdt6 (mkV6 1 128) 5) (repeat 0 32) = Panic /\
  is_ok (mdt6_set false (mkMdt6 (mkV6 1 128) 5) (repeat 0 32)) = true.
Proof. repeat split; reflexivity. Qed.
