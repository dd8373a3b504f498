(** Proofs about the NLRI codecs. *)
From Verif Require Import Base BaseFacts M_Util S_Wire F_Util M_Prefix S_Prefix M_Nlri S_Nlri.
Ltac Zify.zify_post_hook ::= idtac.

(** * Generic codec facts *)

(** [st] writes exactly [W x]; [ex] reads [W x] back as [nm x], ignoring what follows. *)
Definition codec_ok {T} (oc : bool) (ex : extractor T) (st : setter T) (wf : T -> Prop)
  (W : T -> N * list N) (nm : T -> T) : Prop :=
  forall x, wf x ->
    writes (st oc x) (snd (W x)) (fst (W x), length (snd (W x))) /\
    forall rest, ex oc (fst (W x)) (snd (W x) ++ rest) = Ok (nm x, length (snd (W x))).

(** whatever [ex] accepts is the wire form of the value returned *)
Definition codec_inj {T} (oc : bool) (ex : extractor T) (wf : T -> Prop) (W : T -> N * list N) : Prop :=
  forall bits buf x n, bits < 256 -> bytes_ok buf -> ex oc bits buf = Ok (x, n) ->
    wf x /\ W x = (bits, firstn n buf) /\ (n <= length buf)%nat.

Lemma decode_bgpitem_ok {T} oc (ex : extractor T) st wf W nm x rest :
  codec_ok oc ex st wf W nm -> wf x ->
  decode_bgpitem_from oc ex ((fst (W x) :: snd (W x)) ++ rest) = Ok (nm x, S (length (snd (W x)))).
Proof.
  intros H Hx. destruct (H x Hx) as [_ H2]. unfold decode_bgpitem_from. cbn [app].
  change (idx (fst (W x) :: snd (W x) ++ rest) 0) with (Ok (fst (W x))). rewrite bind_ok.
  rewrite rfrom_ok by (cbn; lia). rewrite bind_ok. cbn [skipn]. rewrite H2, bind_ok.
  now rewrite Nat.add_1_r.
Qed.

(** * dec_loop *)
Lemma dec_loop_step {T} (step : list N -> res (T * nat)) fuel buf p :
  (p < length buf)%nat ->
  dec_loop step (S fuel) buf p =
  ('(x, n) <- step (skipn p buf) ;; '(v, q) <- dec_loop step fuel buf (p + n) ;; Ok (x :: v, q)).
Proof.
  intros H. cbn [dec_loop]. apply Nat.ltb_lt in H as H'. rewrite H'.
  rewrite rfrom_ok by lia. now rewrite bind_ok.
Qed.
Lemma dec_loop_end {T} (step : list N -> res (T * nat)) fuel buf p :
  (length buf <= p)%nat -> dec_loop step (S fuel) buf p = Ok ([], p).
Proof. intros H. cbn [dec_loop]. apply Nat.ltb_ge in H as H'. now rewrite H'. Qed.

(** Decoding a concatenation of encodings. *)
Lemma dec_loop_concat {T} (step : list N -> res (T * nat)) (E : T -> list N) (nm : T -> T) v :
  (forall x rest, In x v -> step (E x ++ rest) = Ok (nm x, length (E x))) ->
  (forall x, In x v -> (1 <= length (E x))%nat) ->
  forall pre fuel, (length (flat_map E v) < fuel)%nat ->
  dec_loop step fuel (pre ++ flat_map E v) (length pre) = Ok (map nm v, (length pre + length (flat_map E v))%nat).
Proof.
  induction v as [|x v IH]; intros Hs Hl pre fuel Hf; (destruct fuel as [|fuel]; [lia|]).
  - cbn [flat_map map]. rewrite dec_loop_end by (rewrite app_length; cbn; lia). cbn. f_equal. f_equal. lia.
  - pose proof (Hl x (or_introl eq_refl)) as Hx. cbn [flat_map] in *. rewrite app_length in Hf.
    rewrite dec_loop_step by (rewrite !app_length; lia).
    rewrite skipn_app_exact by reflexivity. rewrite Hs by now left. rewrite bind_ok.
    rewrite app_assoc. replace (length pre + length (E x))%nat with (length (pre ++ E x)) by now rewrite app_length.
    rewrite IH by (try lia; intros; try apply Hs; try apply Hl; now right).
    rewrite bind_ok. cbn [map]. rewrite !app_length. do 2 f_equal. lia.
Qed.

(** What a successful run means: the bytes split into consecutive items. *)
Inductive parsed {T} (step : list N -> res (T * nat)) : list N -> list T -> Prop :=
| parsed_nil : parsed step [] []
| parsed_cons buf x n v : step buf = Ok (x, n) -> buf <> [] ->
    parsed step (skipn n buf) v -> parsed step buf (x :: v).

Lemma dec_loop_inv {T} (step : list N -> res (T * nat)) :
  forall fuel buf p v q, dec_loop step fuel buf p = Ok (v, q) -> (p <= length buf)%nat ->
  (forall b x n, step b = Ok (x, n) -> (n <= length b)%nat) ->
  parsed step (skipn p buf) v /\ q = length buf.
Proof.
  induction fuel as [|fuel IH]; intros buf p v q H Hp Hn; [discriminate|].
  destruct (Nat.ltb p (length buf)) eqn:E.
  - apply Nat.ltb_lt in E. rewrite dec_loop_step in H by lia.
    apply bind_Ok_inv in H as [[x n] [H1 H]]. apply bind_Ok_inv in H as [[v' q'] [H2 H]].
    injection H as <- <-. pose proof (Hn _ _ _ H1) as Hl. rewrite skipn_length in Hl.
    apply IH in H2 as [H2 ->]; [|lia|auto]. split; [|reflexivity].
    econstructor; [exact H1| |now rewrite skipn_skipn'].
    intros C. apply (f_equal (@length N)) in C. rewrite skipn_length in C. cbn in C. lia.
  - apply Nat.ltb_ge in E. rewrite dec_loop_end in H by lia. injection H as <- <-.
    replace p with (length buf) by lia. rewrite skipn_all. split; [constructor|reflexivity].
Qed.

Lemma dec_loop_fuel {T} (step : list N -> res (T * nat)) :
  (forall b x n, step b = Ok (x, n) -> (1 <= n)%nat) ->
  (forall b, step b <> OutOfFuel) ->
  forall fuel buf p, (length buf - p < fuel)%nat -> dec_loop step fuel buf p <> OutOfFuel.
Proof.
  intros H1 H2. induction fuel as [|fuel IH]; intros buf p Hf; [lia|].
  destruct (Nat.ltb p (length buf)) eqn:E.
  - apply Nat.ltb_lt in E. rewrite dec_loop_step by lia.
    destruct (step (skipn p buf)) as [[x n]|e| |] eqn:Es; cbn [bind]; try discriminate.
    + specialize (IH buf (p + n)%nat). pose proof (H1 _ _ _ Es).
      destruct (dec_loop step fuel buf (p + n)) as [[v q]|e| |]; cbn [bind]; try discriminate.
      intros _. apply IH; [lia|reflexivity].
    + intros _. now apply (H2 (skipn p buf)).
  - apply Nat.ltb_ge in E. rewrite dec_loop_end by lia. discriminate.
Qed.

(** * encoders *)
Lemma writes_at_on_from0 {A} p (e : Enc A) bs a : writes e bs a -> writes_at p (on_from p e) bs a.
Proof. apply writes_on_from. Qed.

Lemma writes_enc_items {T} oc (st : setter T) (W : T -> N * list N) v :
  (forall x, In x v -> writes (st oc x) (snd (W x)) (fst (W x), length (snd (W x)))) ->
  forall p, writes_at p (enc_items oc st v p) (items_wire W v) (p + length (items_wire W v))%nat.
Proof.
  induction v as [|x v IH]; intros H p; cbn [enc_items items_wire flat_map].
  - eapply writes_at_eq; [apply writes_at_ret| | | ]; cbn; auto. 
  - change ((fst (W x) :: snd (W x)) ++ flat_map (fun x => fst (W x) :: snd (W x)) v)
      with (fst (W x) :: (snd (W x) ++ items_wire W v)).
    intros buf Hb. cbn [length] in Hb. rewrite app_length in Hb. unfold ebind.
    pose proof (writes_on_from (p + 1) _ _ _ (H x (or_introl eq_refl))) as Hw.
    rewrite Hw by lia. cbn beta iota.
    rewrite (writes_at_set_idx p (fst (W x))) by (cbn [length]; rewrite length_splice by lia; lia).
    cbn beta iota.
    replace (splice p [fst (W x)] (splice (p + 1) (snd (W x)) buf)) with (splice p ([fst (W x)] ++ snd (W x)) buf)
      by (symmetry; apply (splice_splice_adj_rev p [fst (W x)]); cbn [length]; lia).
    rewrite (IH (fun y Hy => H y (or_intror Hy))).
    2:{ rewrite length_splice by (cbn [app length]; lia). lia. }
    replace (p + (length (snd (W x)) + 1))%nat with (p + length ([fst (W x)] ++ snd (W x)))%nat by (cbn [app length]; lia).
    rewrite splice_splice_adj by (cbn [app length]; lia).
    cbn [app length]. rewrite app_length. do 2 f_equal. lia.
Qed.

Lemma writes_encode_bgpitems {T} oc (st : setter T) (W : T -> N * list N) v :
  (forall x, In x v -> writes (st oc x) (snd (W x)) (fst (W x), length (snd (W x)))) ->
  writes (encode_bgpitems_to oc st v) (items_wire W v) (length (items_wire W v)).
Proof. intros H. apply (writes_enc_items oc st W v H 0). Qed.

(** * Prefixes *)
Lemma bits_bytes_ok oc bits : bits <= 248 -> bits_bytes oc bits = Ok (prefix_octets bits).
Proof. intros H. unfold bits_bytes. rewrite uadd_ok by (change (2 ^ 8) with 256; lia). reflexivity. Qed.
Lemma prefix_octets_spec bits : 8 * N.of_nat (prefix_octets bits) < bits + 8 /\ bits <= 8 * N.of_nat (prefix_octets bits).
Proof.
  unfold prefix_octets. rewrite N2Nat.id.
  pose proof (N.div_mod (bits + 7) 8 ltac:(lia)). pose proof (N.mod_lt (bits + 7) 8 ltac:(lia)).
  revert H H0. generalize ((bits + 7) / 8) ((bits + 7) mod 8). intros. lia.
Qed.
Lemma prefix_octets_le bits K : bits <= 8 * N.of_nat K -> (prefix_octets bits <= K)%nat.
Proof. pose proof (prefix_octets_spec bits). generalize dependent (prefix_octets bits). intros. lia. Qed.
Lemma prefix_octets_0 bits : prefix_octets bits = 0%nat -> bits = 0.
Proof. pose proof (prefix_octets_spec bits). generalize dependent (prefix_octets bits). intros. subst. lia. Qed.

Lemma fill_zeroed_ok K n buf : (n <= K)%nat -> (n <= length buf)%nat ->
  fill_zeroed K n buf = Ok (firstn n buf ++ repeat 0 (K - n)).
Proof.
  intros H1 H2. unfold fill_zeroed. apply Nat.leb_le in H1. rewrite H1.
  rewrite rslice_ok by lia. cbn [bind]. unfold sub. now rewrite Nat.sub_0_r.
Qed.
Lemma be_val_zeros n : be_val (repeat 0 n) = 0.
Proof. induction n; [reflexivity|]. cbn [repeat]. rewrite be_val_cons, IHn. lia. Qed.
Lemma bytes_ok_zeros n : bytes_ok (repeat 0 n).
Proof. induction n; constructor; auto. now unfold is_byte. Qed.

Lemma be_val_keep K k a : (k <= K)%nat -> a < 2 ^ (8 * N.of_nat K) ->
  be_val (firstn k (be_bytes K a) ++ repeat 0 (K - k)) =
  a / 2 ^ (8 * N.of_nat K - 8 * N.of_nat k) * 2 ^ (8 * N.of_nat K - 8 * N.of_nat k).
Proof.
  intros H Ha. replace K with (k + (K - k))%nat at 1 by lia.
  rewrite be_bytes_split, firstn_app_exact by apply length_be_bytes.
  rewrite be_val_app, repeat_length, be_val_zeros, N.add_0_r.
  replace (8 * N.of_nat K - 8 * N.of_nat k) with (8 * N.of_nat (K - k)) by lia. f_equal.
  apply be_val_be_bytes. apply N.div_lt_upper_bound; [apply pow2_nz|].
  rewrite <- N.pow_add_r. replace (8 * N.of_nat (K - k) + 8 * N.of_nat k) with (8 * N.of_nat K) by lia. exact Ha.
Qed.

Lemma keep_all_octets w a : w mod 8 = 0 -> keep_octets w w a = a.
Proof.
  intros H. unfold keep_octets. replace (w - 8 * N.of_nat (prefix_octets w)) with 0.
  - change (2 ^ 0) with 1. now rewrite N.div_1_r, N.mul_1_r.
  - pose proof (proj2 (prefix_octets_spec w)) as H1. revert H1. generalize (prefix_octets w). clear. intros. lia.
Qed.

(** shared shape of the two prefix extractors *)
Definition pfx_from (oc : bool) (K : nat) (dec : list N -> res N) (bits : N) (buf : list N) : res ((N * N) * nat) :=
  bytes <- bits_bytes oc bits ;;
  if ((8 * N.of_nat K <? bits) || Nat.ltb (length buf) bytes)%bool then Err EOther else
  if bits =? 0 then a <- dec (repeat 0 K) ;; Ok ((a, 0), 0%nat) else
  bf <- fill_zeroed K bytes buf ;;
  a <- dec bf ;;
  Ok ((a, bits), bytes).

Lemma v4_from_bits_pfx oc bits buf :
  v4_from_bits oc bits buf = ('(p, n) <- pfx_from oc 4 decode_addrv4_from bits buf ;; Ok (mkV4 (fst p) (snd p), n)).
Proof.
  unfold v4_from_bits, pfx_from. rewrite bind_assoc. destruct (bits_bytes oc bits); cbn [bind]; auto.
  change (8 * N.of_nat 4) with 32.
  destruct (_ || _)%bool; [reflexivity|]. destruct (bits =? 0).
  - destruct (decode_addrv4_from (repeat 0 4)); reflexivity.
  - destruct (fill_zeroed 4 a buf); cbn [bind]; auto. destruct (decode_addrv4_from a0); reflexivity.
Qed.
Lemma v6_from_bits_pfx oc bits buf :
  v6_from_bits oc bits buf = ('(p, n) <- pfx_from oc 16 decode_addrv6_from bits buf ;; Ok (mkV6 (fst p) (snd p), n)).
Proof.
  unfold v6_from_bits, pfx_from. rewrite bind_assoc. destruct (bits_bytes oc bits); cbn [bind]; auto.
  change (8 * N.of_nat 16) with 128.
  destruct (_ || _)%bool; [reflexivity|]. destruct (bits =? 0).
  - destruct (decode_addrv6_from (repeat 0 16)); reflexivity.
  - destruct (fill_zeroed 16 a buf); cbn [bind]; auto. destruct (decode_addrv6_from a0); reflexivity.
Qed.

Definition dec_spec (K : nat) (dec : list N -> res N) : Prop :=
  forall l, bytes_ok l -> length l = K -> dec l = Ok (be_val l).
Lemma dec_spec4 : dec_spec 4 decode_addrv4_from.
Proof. intros l H Hl. rewrite decode_addrv4_ok by lia. now rewrite firstn_all2 by lia. Qed.
Lemma dec_spec6 : dec_spec 16 decode_addrv6_from.
Proof. intros l H Hl. rewrite decode_addrv6_ok; [|now apply Forall_firstn|lia]. now rewrite firstn_all2 by lia. Qed.

Lemma pfx_from_val oc K dec bits buf : dec_spec K dec -> (K <= 16)%nat -> bits <= 8 * N.of_nat K ->
  bytes_ok (firstn (prefix_octets bits) buf) -> (prefix_octets bits <= length buf)%nat ->
  pfx_from oc K dec bits buf =
  Ok ((be_val (firstn (prefix_octets bits) buf ++ repeat 0 (K - prefix_octets bits)), bits), prefix_octets bits).
Proof.
  intros Hd HK Hb Hby Hl. unfold pfx_from. rewrite bits_bytes_ok by lia. cbn [bind].
  replace (8 * N.of_nat K <? bits) with false by (symmetry; apply N.ltb_ge; lia).
  replace (Nat.ltb (length buf) (prefix_octets bits)) with false by (symmetry; apply Nat.ltb_ge; lia). cbn [orb].
  pose proof (prefix_octets_le bits K Hb) as Hk.
  destruct (bits =? 0) eqn:E.
  - apply N.eqb_eq in E. subst. change (prefix_octets 0) with 0%nat. cbn [firstn app]. rewrite Nat.sub_0_r.
    rewrite Hd; [reflexivity| apply bytes_ok_zeros | apply repeat_length].
  - rewrite fill_zeroed_ok by lia. cbn [bind]. rewrite Hd; [reflexivity| |].
    + apply bytes_ok_app; [exact Hby|apply bytes_ok_zeros].
    + rewrite app_length, repeat_length, firstn_length. lia.
Qed.

Lemma pfx_from_inv oc K dec bits buf r : (K <= 16)%nat -> bits < 256 ->
  pfx_from oc K dec bits buf = Ok r -> bits <= 8 * N.of_nat K /\ (prefix_octets bits <= length buf)%nat.
Proof.
  intros HK Hb H. unfold pfx_from in H. apply bind_Ok_inv in H as [n [H1 H]].
  destruct ((8 * N.of_nat K <? bits) || Nat.ltb (length buf) n)%bool eqn:E; [discriminate|].
  apply orb_false_iff in E as [E1 E2]. apply N.ltb_ge in E1. apply Nat.ltb_ge in E2.
  split; [exact E1|]. rewrite bits_bytes_ok in H1 by lia. injection H1 as <-. exact E2.
Qed.

Lemma pfx_from_panic oc K dec bits buf : dec_spec K dec -> (K <= 16)%nat -> bits < 256 -> bytes_ok buf ->
  (is_panic (pfx_from oc K dec bits buf) = true <-> oc = true /\ 249 <= bits) /\
  pfx_from oc K dec bits buf <> OutOfFuel.
Proof.
  intros Hd HK Hb Hby.
  destruct (N.leb 249 bits) eqn:E.
  - apply N.leb_le in E. unfold pfx_from, bits_bytes, uadd.
    replace (bits + 7 <? 2 ^ 8) with false by (symmetry; apply N.ltb_ge; change (2 ^ 8) with 256; lia).
    destruct oc; cbn [bind].
    + split; [|discriminate]. split; auto.
    + replace (8 * N.of_nat K <? bits) with true by (symmetry; apply N.ltb_lt; lia). cbn.
      split; [|discriminate]. split; intros; [discriminate|]. now destruct H.
  - apply N.leb_gt in E.
    destruct (8 * N.of_nat K <? bits) eqn:E1.
    { unfold pfx_from. rewrite bits_bytes_ok by lia. cbn [bind]. rewrite E1. cbn. split; [|discriminate].
      split; [discriminate|lia]. }
    destruct (Nat.ltb (length buf) (prefix_octets bits)) eqn:E2.
    { unfold pfx_from. rewrite bits_bytes_ok by lia. cbn [bind]. rewrite E1, E2. cbn. split; [|discriminate].
      split; [discriminate|lia]. }
    apply N.ltb_ge in E1. apply Nat.ltb_ge in E2.
    rewrite pfx_from_val; auto; [|now apply Forall_firstn]. split; [|discriminate].
    split; [discriminate|lia].
Qed.

Lemma v4_codec oc : codec_ok oc v4_from_bits v4_to_bits v4_wf v4_wire v4_trunc.
Proof.
  intros [a len] [Ha Hl]. cbn [v4_addr v4_len v4_wire fst snd] in *.
  pose proof (prefix_octets_le len 4 Hl) as Hk.
  assert (Hlen : length (firstn (prefix_octets len) (be_bytes 4 a)) = prefix_octets len)
    by (rewrite firstn_length, length_be_bytes; lia).
  split.
  - unfold v4_to_bits. cbn [v4_len v4_addr]. destruct (len =? 0) eqn:E.
    + apply N.eqb_eq in E. subst. cbn. apply writes_at_ret.
    + rewrite bits_bytes_ok by lia. intros buf Hb. unfold elift, ebind.
      unfold octets4. rewrite rslice_ok by (rewrite ?length_be_bytes; lia).
      unfold sub. rewrite Nat.sub_0_r. cbn [skipn].
      rewrite (writes_at_write_at 0) by lia. unfold eret. now rewrite Hlen.
  - intros rest. rewrite v4_from_bits_pfx. rewrite (pfx_from_val oc 4 _ len _ dec_spec4); try lia.
    2:{ rewrite firstn_app_exact by exact Hlen. apply Forall_firstn, be_bytes_ok. }
    2:{ rewrite app_length; lia. }
    cbn [bind fst snd]. rewrite firstn_app_exact by exact Hlen. rewrite Hlen.
    rewrite be_val_keep by (auto; lia). reflexivity.
Qed.
Lemma v6_codec oc : codec_ok oc v6_from_bits v6_to_bits v6_wf v6_wire v6_trunc.
Proof.
  intros [a len] [Ha Hl]. cbn [v6_addr v6_len v6_wire fst snd] in *.
  pose proof (prefix_octets_le len 16 Hl) as Hk.
  assert (Hlen : length (firstn (prefix_octets len) (be_bytes 16 a)) = prefix_octets len)
    by (rewrite firstn_length, length_be_bytes; lia).
  split.
  - unfold v6_to_bits. cbn [v6_len v6_addr]. destruct (len =? 0) eqn:E.
    + apply N.eqb_eq in E. subst. change (prefix_octets 0) with 0%nat. cbn [firstn length]. apply writes_at_ret.
    + rewrite bits_bytes_ok by lia. intros buf Hb. unfold elift, ebind.
      unfold octets16. rewrite rslice_ok by (rewrite ?length_be_bytes; lia).
      unfold sub. rewrite Nat.sub_0_r. cbn [skipn].
      rewrite (writes_at_write_at 0) by lia. unfold eret. now rewrite Hlen.
  - intros rest. rewrite v6_from_bits_pfx. rewrite (pfx_from_val oc 16 _ len _ dec_spec6); try lia.
    2:{ rewrite firstn_app_exact by exact Hlen. apply Forall_firstn, be_bytes_ok. }
    2:{ rewrite app_length; lia. }
    cbn [bind fst snd]. rewrite firstn_app_exact by exact Hlen. rewrite Hlen.
    rewrite be_val_keep by (auto; lia). reflexivity.
Qed.

Lemma pfx_reenc K bits buf : bits <= 8 * N.of_nat K -> (prefix_octets bits <= length buf)%nat -> bytes_ok buf ->
  let a := be_val (firstn (prefix_octets bits) buf ++ repeat 0 (K - prefix_octets bits)) in
  a < 2 ^ (8 * N.of_nat K) /\ firstn (prefix_octets bits) (be_bytes K a) = firstn (prefix_octets bits) buf.
Proof.
  intros Hb Hl Hby a. pose proof (prefix_octets_le bits K Hb) as Hk.
  set (L := firstn (prefix_octets bits) buf ++ repeat 0 (K - prefix_octets bits)) in *.
  assert (HL : length L = K) by (unfold L; rewrite app_length, repeat_length, firstn_length; lia).
  assert (HB : bytes_ok L) by (apply bytes_ok_app; [now apply Forall_firstn|apply bytes_ok_zeros]).
  split.
  - unfold a. pose proof (be_val_bound L HB) as Hbd. now rewrite HL in Hbd.
  - unfold a. rewrite <- HL at 1. rewrite be_bytes_be_val by auto. unfold L.
    apply firstn_app_exact. rewrite firstn_length. lia.
Qed.
Lemma v4_inj oc : codec_inj oc v4_from_bits v4_wf v4_wire.
Proof.
  intros bits buf x n Hb Hby H. rewrite v4_from_bits_pfx in H.
  apply bind_Ok_inv in H as [[[a l] m] [H1 H]]. cbn [fst snd] in H. injection H as <- <-.
  destruct (pfx_from_inv oc 4 _ bits buf _ ltac:(lia) Hb H1) as [Hk Hl].
  rewrite (pfx_from_val oc 4 _ bits _ dec_spec4) in H1; auto; try lia; [|now apply Forall_firstn].
  pose proof (pfx_reenc 4 bits buf Hk Hl Hby) as HR. cbv zeta in HR.
  apply (f_equal (fun r => match r with Ok x => x | _ => ((0, 0), 0%nat) end)) in H1.
  apply pair_equal_spec in H1 as [H1 <-]. apply pair_equal_spec in H1 as [Ha <-].
  rewrite Ha in HR. destruct HR as [HR Hf].
  unfold v4_wf, v4_wire. cbn [v4_addr v4_len]. rewrite Hf. repeat split; auto.
Qed.
Lemma v6_inj oc : codec_inj oc v6_from_bits v6_wf v6_wire.
Proof.
  intros bits buf x n Hb Hby H. rewrite v6_from_bits_pfx in H.
  apply bind_Ok_inv in H as [[[a l] m] [H1 H]]. cbn [fst snd] in H. injection H as <- <-.
  destruct (pfx_from_inv oc 16 _ bits buf _ ltac:(lia) Hb H1) as [Hk Hl].
  rewrite (pfx_from_val oc 16 _ bits _ dec_spec6) in H1; auto; try lia; [|now apply Forall_firstn].
  pose proof (pfx_reenc 16 bits buf Hk Hl Hby) as HR. cbv zeta in HR.
  apply (f_equal (fun r => match r with Ok x => x | _ => ((0, 0), 0%nat) end)) in H1.
  apply pair_equal_spec in H1 as [H1 <-]. apply pair_equal_spec in H1 as [Ha <-].
  rewrite Ha in HR. destruct HR as [HR Hf].
  unfold v6_wf, v6_wire. cbn [v6_addr v6_len]. rewrite Hf. repeat split; auto.
Qed.

(** * Route distinguishers *)
Lemma length_rd_wire r : length (rd_wire r) = 8%nat.
Proof. unfold rd_wire. now rewrite app_length, !length_be_bytes. Qed.
Lemma writes_encode_rd r : writes (encode_rd_to r) (rd_wire r) 8%nat.
Proof.
  unfold encode_rd_to, rd_wire. eapply writes_at_bind; [apply writes_setn_u32|].
  rewrite length_be_bytes. eapply writes_at_map.
  - apply writes_on_slice; [now rewrite length_be_bytes|lia|apply writes_setn_u32].
  - reflexivity.
Qed.
Lemma decode_rd_ok l : bytes_ok (firstn 8 l) -> (8 <= length l)%nat ->
  decode_rd_from l = Ok (mkRD (be_val (firstn 4 l)) (be_val (sub l 4 8)), 8%nat).
Proof.
  intros Hb Hl. unfold decode_rd_from. apply Nat.leb_le in Hl as Hl'. rewrite Hl'.
  rewrite !rslice_ok by lia. cbn [bind].
  assert (Hb4 : bytes_ok (sub l 0 4)).
  { unfold sub. cbn [skipn]. replace (firstn (4 - 0) l) with (firstn 4 (firstn 8 l)) by (rewrite firstn_firstn; reflexivity).
    now apply Forall_firstn. }
  assert (Hb8 : bytes_ok (sub l 4 8)).
  { unfold sub. change (8 - 4)%nat with 4%nat. rewrite firstn_skipn_comm. now apply Forall_skipn. }
  rewrite getn_u32_ok by (auto; rewrite length_sub; lia). cbn [bind].
  rewrite getn_u32_ok by (auto; rewrite length_sub; lia). cbn [bind].
  rewrite !firstn_all2 by (rewrite length_sub; lia). reflexivity.
Qed.
Lemma decode_rd_wire r rest : rd_wf r -> decode_rd_from (rd_wire r ++ rest) = Ok (r, 8%nat).
Proof.
  intros [H1 H2]. rewrite decode_rd_ok.
  - unfold rd_wire. rewrite <- app_assoc, firstn_app_exact by apply length_be_bytes.
    rewrite sub_app_exact by (rewrite ?app_length, ?length_be_bytes; lia).
    rewrite !be_val_be_bytes by (exact H1 || exact H2). now destruct r.
  - rewrite firstn_app_exact by apply length_rd_wire. apply bytes_ok_app; apply be_bytes_ok.
  - rewrite app_length, length_rd_wire. lia.
Qed.
Lemma decode_rd_short l : (length l < 8)%nat -> decode_rd_from l = Err EOther.
Proof. intros H. unfold decode_rd_from. apply Nat.leb_gt in H. now rewrite H. Qed.
Lemma decode_rd_inv l r n : bytes_ok l -> decode_rd_from l = Ok (r, n) ->
  rd_wf r /\ n = 8%nat /\ (8 <= length l)%nat /\ rd_wire r = firstn 8 l.
Proof.
  intros Hb H. destruct (Nat.leb 8 (length l)) eqn:E.
  2:{ apply Nat.leb_gt in E. rewrite decode_rd_short in H by lia. discriminate. }
  apply Nat.leb_le in E. rewrite decode_rd_ok in H by (auto; now apply Forall_firstn).
  apply (f_equal (fun r => match r with Ok x => x | _ => (mkRD 0 0, 0%nat) end)) in H.
  apply pair_equal_spec in H as [<- <-].
  pose proof (be_val_bound (firstn 4 l) (Forall_firstn _ _ _ Hb)) as B1.
  pose proof (be_val_bound (sub l 4 8) (Forall_sub _ _ _ _ Hb)) as B2.
  rewrite firstn_length in B1. rewrite length_sub in B2 by lia.
  replace (Nat.min 4 (length l)) with 4%nat in B1 by lia.
  repeat split; auto; cbn [rdh rdl].
  unfold rd_wire. cbn [rdh rdl].
  replace 4%nat with (length (firstn 4 l)) at 1 by (rewrite firstn_length; lia).
  rewrite be_bytes_be_val by now apply Forall_firstn.
  replace 4%nat with (length (sub l 4 8)) at 2 by (rewrite length_sub; lia).
  rewrite be_bytes_be_val by now apply Forall_sub.
  unfold sub. change (8 - 4)%nat with 4%nat. rewrite firstn_skipn_comm.
  change (4 + 4)%nat with 8%nat. rewrite <- (firstn_skipn 4 (firstn 8 l)) at 2. f_equal.
  rewrite firstn_firstn. reflexivity.
Qed.

(** * Label stacks *)
Lemma label_val b0 b1 b2 : b0 < 256 -> b1 < 256 -> b2 < 256 ->
  N.lor (N.lor (cast 32 (N.shiftl b0 12)) (cast 32 (N.shiftl b1 4))) (N.shiftr b2 4) = be_val [b0; b1; b2] / 16.
Proof.
  intros H0 H1 H2. unfold cast. rewrite !N.shiftl_mul_pow2, N.shiftr_div_pow2.
  change (2 ^ 12) with 4096. change (2 ^ 4) with 16. change (2 ^ 32) with 4294967296.
  rewrite !N.mod_small by lia.
  assert (E : N.lor (b0 * 4096) (b1 * 16) = (b0 * 256 + b1) * 16).
  { rewrite (lor_disj 12); [lia| |change (2 ^ 12) with 4096; lia].
    change (2 ^ 12) with 4096. apply N.mod_mul. lia. }
  rewrite E. rewrite (lor_disj 4).
  - replace (be_val [b0; b1; b2]) with (((b0 * 256 + b1) * 16) * 16 + b2).
    2:{ unfold be_val. cbn [fold_left]. lia. }
    rewrite N.div_add_l by lia. reflexivity.
  - change (2 ^ 4) with 16. apply N.mod_mul. lia.
  - change (2 ^ 4) with 16. apply N.div_lt_upper_bound; lia.
Qed.

Lemma be_bytes_3 n : be_bytes 3 n = [(n / 65536) mod 256; (n / 256) mod 256; n mod 256].
Proof. cbn -[N.div N.modulo]. now rewrite N.div_1_r. Qed.
Lemma length_stack ls : length (stack_wire ls) = (3 * length ls)%nat.
Proof.
  induction ls as [|l ls IH]; [reflexivity|]. destruct ls as [|l' ls]; [reflexivity|].
  change (stack_wire (l :: l' :: ls)) with (be_bytes 3 (l * 16) ++ stack_wire (l' :: ls)).
  rewrite app_length, IH, length_be_bytes. cbn [length]. lia.
Qed.
Lemma bytes_ok_stack ls : bytes_ok (stack_wire ls).
Proof.
  induction ls as [|l ls IH]; [constructor|]. destruct ls as [|l' ls]; [apply be_bytes_ok|].
  change (stack_wire (l :: l' :: ls)) with (be_bytes 3 (l * 16) ++ stack_wire (l' :: ls)).
  apply bytes_ok_app; [apply be_bytes_ok|exact IH].
Qed.
Lemma label_ends_iff l : label_ends l = true <-> stack_ending l.
Proof.
  unfold label_ends, stack_ending. rewrite !orb_true_iff, !N.eqb_eq. cbn [In].
  split; intros H; intuition auto.
Qed.

(** one turn of the label loop, on three given bytes *)
Lemma labels_loop_step oc fuel left buf p b0 b1 b2 post pre :
  buf = pre ++ [b0; b1; b2] ++ post -> p = length pre -> 0 < left ->
  b0 < 256 -> b1 < 256 -> b2 < 256 ->
  labels_loop oc (S fuel) left buf p =
  (left' <- usub oc 8 left 24 ;;
   let l := be_val [b0; b1; b2] / 16 in
   if label_ends l then Ok ([l], (p + 3)%nat) else
   if negb (N.land b2 1 =? 0) then Ok ([l], (p + 3)%nat) else
   '(v, q) <- labels_loop oc fuel left' buf (p + 3) ;; Ok (l :: v, q)).
Proof.
  intros -> -> Hl H0 H1 H2. cbn [labels_loop].
  apply N.ltb_lt in Hl. rewrite Hl.
  assert (I : forall i, (i < 3)%nat -> idx (pre ++ [b0; b1; b2] ++ post) (length pre + i) = idx [b0; b1; b2] i).
  { intros i Hi. rewrite <- idx_skipn, skipn_app_exact by reflexivity. now rewrite idx_app_l by (cbn; lia). }
  pose proof (I 0%nat ltac:(lia)) as I0. rewrite Nat.add_0_r in I0. rewrite I0.
  change (idx [b0; b1; b2] 0) with (Ok b0). cbn [bind].
  rewrite (I 1%nat) by lia. change (idx [b0; b1; b2] 1) with (Ok b1). cbn [bind].
  rewrite (I 2%nat) by lia. change (idx [b0; b1; b2] 2) with (Ok b2). cbn [bind].
  rewrite label_val by auto.
  replace (length pre + 3 - 1)%nat with (length pre + 2)%nat by lia.
  rewrite (I 2%nat) by lia. change (idx [b0; b1; b2] 2) with (Ok b2). reflexivity.
Qed.

Lemma label_entry l s : l < 2 ^ 20 -> s < 16 ->
  exists b0 b1 b2, be_bytes 3 (l * 16 + s) = [b0; b1; b2] /\ b0 < 256 /\ b1 < 256 /\ b2 < 256 /\
    be_val [b0; b1; b2] / 16 = l /\ N.land b2 1 = N.land s 1.
Proof.
  intros Hl Hs. change (2 ^ 20) with 1048576 in Hl.
  pose proof (be_val_be_bytes 3 (l * 16 + s)) as Hv. pose proof (be_bytes_ok 3 (l * 16 + s)) as Hb.
  rewrite be_bytes_3 in *. do 3 eexists. split; [reflexivity|].
  inversion_clear Hb as [|? ? X0 Hb']. inversion_clear Hb' as [|? ? X1 Hb]. inversion_clear Hb as [|? ? X2 _].
  unfold is_byte in *. repeat split; auto.
  - rewrite Hv by (change (2 ^ (8 * N.of_nat 3)) with 16777216; lia).
    rewrite N.add_comm, N.div_add by lia. rewrite N.div_small by lia. lia.
  - change 1 with (N.ones 1) at 1 2. rewrite !N.land_ones. change (2 ^ 1) with 2.
    assert (E2 : ((l * 16 + s) mod 256) mod 2 = (l * 16 + s) mod 2) by (apply (mod_mod_pow2 _ 1 8); lia).
    rewrite E2.
    replace (l * 16 + s) with (s + (l * 8) * 2) by lia. apply N.mod_add. lia.
Qed.

Lemma labels_loop_wire oc ls : stack_wf ls -> forall fuel left pre rest,
  (length ls < fuel)%nat -> 24 * N.of_nat (length ls) <= left ->
  labels_loop oc fuel left (pre ++ stack_wire ls ++ rest) (length pre) = Ok (ls, (length pre + 3 * length ls)%nat).
Proof.
  induction ls as [|l ls IH]; intros (Hne & Hb & He); [congruence|]. intros fuel left pre rest Hf Hl.
  destruct fuel as [|fuel]; [cbn in Hf; lia|]. inversion_clear Hb as [|? ? Hl20 Hb'].
  destruct ls as [|l' ls].
  - destruct (label_entry l 1 Hl20 ltac:(lia)) as (b0 & b1 & b2 & E & H0 & H1 & H2 & Hv & Hs).
    cbn [stack_wire]. rewrite E.
    rewrite (labels_loop_step oc fuel left _ _ b0 b1 b2 rest pre) by (auto; cbn [length] in Hl; lia).
    rewrite usub_ok by (cbn [length] in Hl; lia). cbn [bind]. rewrite Hv, Hs. cbn zeta.
    change (negb (N.land 1 1 =? 0)) with true. destruct (label_ends l); reflexivity.
  - cbn [removelast] in He. inversion_clear He as [|? ? Hne0 He'].
    destruct (label_entry l 0 Hl20 ltac:(lia)) as (b0 & b1 & b2 & E & H0 & H1 & H2 & Hv & Hs).
    rewrite N.add_0_r in E.
    change (stack_wire (l :: l' :: ls)) with (be_bytes 3 (l * 16) ++ stack_wire (l' :: ls)).
    rewrite E, <- app_assoc. 
    rewrite (labels_loop_step oc fuel left _ _ b0 b1 b2 (stack_wire (l' :: ls) ++ rest) pre) by (auto; cbn [length] in Hl; lia).
    rewrite usub_ok by (cbn [length] in Hl; lia). cbn [bind]. rewrite Hv, Hs. cbn zeta.
    destruct (label_ends l) eqn:El; [apply label_ends_iff in El; contradiction|].
    change (negb (N.land 0 1 =? 0)) with false.
    rewrite app_assoc. replace (length pre + 3)%nat with (length (pre ++ [b0; b1; b2])) by (rewrite app_length; reflexivity).
    rewrite IH.
    + cbn [bind]. rewrite app_length. cbn [length]. do 2 f_equal. lia.
    + split; [congruence|]. split; auto.
    + cbn [length] in *. lia.
    + cbn [length] in *. lia.
Qed.
Lemma labels_extract_wire oc ls bits rest : stack_wf ls -> 24 * N.of_nat (length ls) <= bits ->
  labels_extract oc bits (stack_wire ls ++ rest) = Ok (ls, (3 * length ls)%nat).
Proof.
  intros H Hb. unfold labels_extract. apply (labels_loop_wire oc ls H _ bits [] rest); auto.
  rewrite app_length, length_stack. lia.
Qed.

Lemma writes_labels_write v : forall p,
  writes_at p (labels_write v p) (flat_map (fun l => be_bytes 3 (l * 16)) v) (p + 3 * length v)%nat.
Proof.
  induction v as [|l v IH]; intros p; cbn [labels_write flat_map].
  - eapply writes_at_eq; [apply writes_at_ret| | |]; cbn; auto; lia.
  - rewrite be_bytes_3. 
    eapply writes_at_eq with (bs' := [_] ++ [_] ++ [_] ++ flat_map (fun l => be_bytes 3 (l * 16)) v).
    + eapply writes_at_bind; [apply writes_at_set_idx|].
      eapply writes_at_bind; [apply writes_at_set_idx|].
      eapply writes_at_bind.
      * replace (p + 2)%nat with (p + length [cast 8 (N.shiftr l 12)] + length [N.land (N.shiftr l 4) 255])%nat by (cbn; lia).
        apply writes_at_set_idx.
      * eapply writes_at_eq; [apply (IH (p + 3)%nat)| | |]; try reflexivity; cbn; lia.
    + reflexivity.
    + cbn [app]. unfold cast. rewrite !land_255, !N.shiftr_div_pow2, N.shiftl_mul_pow2.
      change (2 ^ 8) with 256. change (2 ^ 12) with 4096. change (2 ^ 4) with 16.
      change 256 with (2 ^ 8). rewrite (mod_mod_pow2 (l * 16) 8 32) by lia.
      f_equal; [|f_equal; f_equal]; change (2 ^ 8) with 256.
      * replace 65536 with (4096 * 16) by lia. rewrite N.div_mul_cancel_r by lia. reflexivity.
      * replace 256 with (16 * 16) at 1 by lia. rewrite N.div_mul_cancel_r by lia. reflexivity.
    + cbn [length]. lia.
Qed.

Lemma stack_wire_last ls l : flat_map (fun l => be_bytes 3 (l * 16)) (ls ++ [l]) =
   (flat_map (fun l => be_bytes 3 (l * 16)) ls ++ firstn 2 (be_bytes 3 (l * 16))) ++ [(l * 16) mod 256] /\
  stack_wire (ls ++ [l]) =
   (flat_map (fun l => be_bytes 3 (l * 16)) ls ++ firstn 2 (be_bytes 3 (l * 16))) ++ [N.lor ((l * 16) mod 256) 1].
Proof.
  split.
  - rewrite flat_map_app. cbn [flat_map]. rewrite app_nil_r, <- app_assoc. f_equal. rewrite be_bytes_3. reflexivity.
  - assert (B : be_bytes 3 (l * 16 + 1) = firstn 2 (be_bytes 3 (l * 16)) ++ [N.lor ((l * 16) mod 256) 1]).
    { rewrite !be_bytes_3. cbn [firstn app].
      assert (E : forall k, 0 < k -> (l * 16 + 1) / (16 * k) = (l * 16) / (16 * k)).
      { intros k Hk. rewrite <- !N.div_div by lia. f_equal.
        rewrite N.add_comm, N.div_add, N.div_mul by lia. reflexivity. }
      replace 65536 with (16 * 4096) by lia. replace (N.div (l * 16 + 1) 256) with (N.div (l * 16 + 1) (16 * 16)) by (f_equal; lia).
      rewrite !E by lia. f_equal. f_equal. f_equal.
      assert (M : (l * 16) mod 256 = (l mod 16) * 16).
      { replace 256 with (16 * 16) by lia. apply N.mul_mod_distr_r; lia. }
      pose proof (N.mod_lt l 16 ltac:(lia)) as HM.
      rewrite M, (lor_disj 1).
      + rewrite <- M. rewrite N.add_mod by lia. rewrite M. change (1 mod 256) with 1.
        apply N.mod_small. revert HM. generalize (l mod 16). intros; lia.
      + change (2 ^ 1) with 2. replace (l mod 16 * 16) with (l mod 16 * 8 * 2) by lia. apply N.mod_mul. lia.
      + reflexivity. }
    induction ls as [|l0 ls IH].
    + cbn [app stack_wire flat_map]. exact B.
    + assert (S : stack_wire ((l0 :: ls) ++ [l]) = be_bytes 3 (l0 * 16) ++ stack_wire (ls ++ [l])).
      { cbn [app]. destruct (ls ++ [l]) eqn:E; [destruct ls; discriminate|reflexivity]. }
      rewrite S, IH. cbn [flat_map]. now rewrite <- !app_assoc.
Qed.

Lemma writes_labels_set ls :
  writes (labels_set ls) (stack_wire ls) (cast 8 (N.of_nat (3 * length ls) * 8), (3 * length ls)%nat).
Proof.
  destruct ls as [|l0 ls0] eqn:E0.
  { apply writes_at_ret. }
  rewrite <- E0. assert (Hne : ls <> []) by congruence. clear E0 l0 ls0.
  destruct (exists_last Hne) as [ls' [l El]]. destruct (stack_wire_last ls' l) as [E1 E2].
  assert (U : labels_set ls = (curpos <~ labels_write ls 0 ;;
      upd_idx (curpos - 1) (fun b => N.lor b 1) ;;; eret (cast 8 (N.of_nat curpos * 8), curpos))).
  { destruct ls; [congruence|reflexivity]. }
  rewrite U, El, E2. set (A := flat_map _ ls' ++ _) in *.
  assert (HA : length A = (3 * length ls' + 2)%nat).
  { unfold A. rewrite app_length, be_bytes_3. cbn [firstn length]. f_equal. clear.
    induction ls'; cbn [flat_map]; [reflexivity|]. rewrite app_length, IHls', length_be_bytes. cbn [length]. lia. }
  intros buf Hb. rewrite app_length in Hb. cbn [length] in Hb. unfold ebind.
  rewrite (writes_labels_write (ls' ++ [l]) 0) by (rewrite E1, app_length; cbn [length]; lia).
  rewrite E1. rewrite app_length. cbn [length]. 
  replace (0 + 3 * (length ls' + 1) - 1)%nat with (length A) by lia.
  unfold upd_idx.
  assert (Hn : nth_error (splice 0 (A ++ [(l * 16) mod 256]) buf) (length A) = Some ((l * 16) mod 256)).
  { unfold splice. cbn [firstn app]. rewrite <- app_assoc, nth_error_app2 by lia. rewrite Nat.sub_diag. reflexivity. }
  rewrite Hn. unfold eret. f_equal. 
  pose proof (splice_over 0 A [(l * 16) mod 256] [] [N.lor ((l * 16) mod 256) 1] buf eq_refl ltac:(cbn [length]; lia)) as HS.
  rewrite !app_nil_r in HS. rewrite Nat.add_0_l in HS. rewrite HS. reflexivity.
Qed.

(** * Labeled items, items with RD *)
Lemma labeled_codec {T} oc (ex : extractor T) st wf W nm : codec_ok oc ex st wf W nm ->
  codec_ok oc (labeled_extract ex) (labeled_set st)
    (fun x => labeled_wf wf x /\ fits (labeled_wire W) x) (labeled_wire W)
    (fun x => mkLab (nm (lab_prefix x)) (lab_labels x)).
Proof.
  intros H [p ls] [[Hs Hp] Hf]. unfold fits, labeled_wire in *. cbn [lab_prefix lab_labels fst snd] in *.
  destruct (H p Hp) as [H1 H2].
  assert (C8 : cast 8 (N.of_nat (3 * length ls) * 8) = 24 * N.of_nat (length ls)).
  { unfold cast. change (2 ^ 8) with 256. rewrite N.mod_small by lia. lia. }
  split.
  - unfold labeled_set. cbn [lab_prefix lab_labels].
    eapply writes_at_bind; [apply writes_labels_set|]. cbn beta iota. rewrite length_stack.
    eapply writes_at_map; [apply writes_on_from, H1|].
    intros buf _. cbn beta iota. rewrite C8. unfold ebind, elift.
    rewrite uadd_ok by (change (2 ^ 8) with 256; lia). unfold eret. rewrite app_length, length_stack. reflexivity.
  - intros rest. unfold labeled_extract. rewrite <- app_assoc.
    rewrite labels_extract_wire by (auto; lia). cbn [bind]. rewrite C8.
    rewrite usub_ok by lia. cbn [bind].
    rewrite rfrom_ok by (rewrite app_length, length_stack; lia). cbn [bind].
    rewrite skipn_app_exact by apply length_stack.
    replace (24 * N.of_nat (length ls) + fst (W p) - 24 * N.of_nat (length ls)) with (fst (W p)) by lia.
    rewrite H2. cbn [bind]. now rewrite app_length, length_stack.
Qed.
Lemma withrd_codec {T} oc (ex : extractor T) st wf W nm : codec_ok oc ex st wf W nm ->
  codec_ok oc (withrd_extract ex) (withrd_set st)
    (fun x => withrd_wf wf x /\ fits (withrd_wire W) x) (withrd_wire W)
    (fun x => mkWRD (nm (wrd_prefix x)) (wrd_rd x)).
Proof.
  intros H [p r] [[Hs Hp] Hf]. unfold fits, withrd_wire in *. cbn [wrd_prefix wrd_rd fst snd] in *.
  destruct (H p Hp) as [H1 H2]. split.
  - unfold withrd_set. cbn [wrd_prefix wrd_rd].
    eapply writes_at_bind; [apply writes_encode_rd|]. rewrite length_rd_wire.
    eapply writes_at_map; [apply writes_on_from, H1|].
    intros buf _. cbn beta iota. change (cast 8 (N.of_nat 8 * 8)) with 64. unfold ebind, elift.
    rewrite uadd_ok by (change (2 ^ 8) with 256; lia). unfold eret. rewrite app_length, length_rd_wire. reflexivity.
  - intros rest. unfold withrd_extract. rewrite <- app_assoc.
    replace (Nat.ltb (length (rd_wire r ++ snd (W p) ++ rest)) 8) with false
      by (symmetry; apply Nat.ltb_ge; rewrite app_length, length_rd_wire; lia).
    rewrite rslice_ok by (rewrite ?app_length, ?length_rd_wire; lia). cbn [bind].
    unfold sub. change (8 - 0)%nat with 8%nat. cbn [skipn]. rewrite firstn_app_exact by apply length_rd_wire.
    rewrite <- (app_nil_r (rd_wire r)) at 1. rewrite decode_rd_wire by auto. cbn [bind].
    change (cast 8 (N.of_nat 8 * 8)) with 64. rewrite usub_ok by lia. cbn [bind].
    rewrite rfrom_ok by (rewrite app_length, length_rd_wire; lia). cbn [bind].
    rewrite skipn_app_exact by apply length_rd_wire.
    replace (64 + fst (W p) - 64) with (fst (W p)) by lia.
    rewrite H2. cbn [bind]. now rewrite app_length, length_rd_wire.
Qed.

(** * Whole lists *)
Lemma items_wire_flat {T} (W : T -> N * list N) v : items_wire W v = flat_map (fun x => fst (W x) :: snd (W x)) v.
Proof. reflexivity. Qed.

Lemma items_decode {T} oc (ex : extractor T) st wf W nm v : codec_ok oc ex st wf W nm -> Forall wf v ->
  decode_bgpitems_from oc ex (items_wire W v) = Ok (map nm v, length (items_wire W v)).
Proof.
  intros H Hv. rewrite Forall_forall in Hv. unfold decode_bgpitems_from.
  apply (dec_loop_concat _ (fun x => fst (W x) :: snd (W x)) nm v) with (pre := []).
  - intros x rest Hx. apply (decode_bgpitem_ok oc ex st wf W nm); auto.
  - intros; cbn; lia.
  - rewrite items_wire_flat. lia.
Qed.
Lemma items_encode {T} oc (ex : extractor T) st wf W nm v : codec_ok oc ex st wf W nm -> Forall wf v ->
  writes (encode_bgpitems_to oc st v) (items_wire W v) (length (items_wire W v)).
Proof.
  intros H Hv. rewrite Forall_forall in Hv. apply writes_encode_bgpitems. intros x Hx. apply H. auto.
Qed.

Lemma decode_bgpitem_inv {T} oc (ex : extractor T) wf W buf x n : codec_inj oc ex wf W -> bytes_ok buf ->
  decode_bgpitem_from oc ex buf = Ok (x, n) ->
  wf x /\ (1 <= n <= length buf)%nat /\ firstn n buf = fst (W x) :: snd (W x) /\ fst (W x) < 256.
Proof.
  intros Hi Hb H. unfold decode_bgpitem_from in H. destruct buf as [|b buf]; [discriminate|].
  change (idx (b :: buf) 0) with (Ok b) in H. rewrite bind_ok, rfrom_ok, bind_ok in H by (cbn; lia).
  cbn [skipn] in H. apply bind_Ok_inv in H as [[y m] [H1 H]].
  apply (f_equal (fun r => match r with Ok x => x | _ => (y, 0%nat) end)) in H.
  apply pair_equal_spec in H as [-> <-]. inversion_clear Hb as [|? ? Hb0 Hb'].
  destruct (Hi b buf x m Hb0 Hb' H1) as (Hw & HW & Hm). split; [auto|].
  rewrite HW. cbn [fst snd length]. rewrite Nat.add_1_r. cbn [firstn]. repeat split; auto; lia.
Qed.

Lemma items_inv {T} oc (ex : extractor T) wf W l v n : codec_inj oc ex wf W -> bytes_ok l ->
  decode_bgpitems_from oc ex l = Ok (v, n) ->
  Forall wf v /\ items_wire W v = l /\ n = length l /\ Forall (fits W) v.
Proof.
  intros Hi Hb H. unfold decode_bgpitems_from in H.
  assert (G : forall fuel p v n, dec_loop (decode_bgpitem_from oc ex) fuel l p = Ok (v, n) -> (p <= length l)%nat ->
     Forall wf v /\ items_wire W v = skipn p l /\ n = length l /\ Forall (fits W) v).
  { clear H v n. induction fuel as [|fuel IH]; intros p v n H Hp; [discriminate|].
    destruct (Nat.ltb p (length l)) eqn:E.
    - apply Nat.ltb_lt in E. rewrite dec_loop_step in H by lia.
      apply bind_Ok_inv in H as [[x m] [H1 H]]. apply bind_Ok_inv in H as [[v' q'] [H2 H]].
      injection H as <- <-.
      apply (decode_bgpitem_inv oc ex wf W) in H1 as (Hw & Hm & Hf & Hft); auto; [|now apply Forall_skipn].
      rewrite skipn_length in Hm. apply IH in H2 as (Hv & HW & Hq & Hfv); [|lia]. repeat split; auto.
      cbn [items_wire flat_map]. rewrite <- Hf. fold (items_wire W v'). rewrite HW, <- skipn_skipn'. apply firstn_skipn.
    - apply Nat.ltb_ge in E. rewrite dec_loop_end in H by lia. injection H as <- <-.
      rewrite skipn_all2 by lia. repeat split; auto; lia. }
  apply (G _ 0%nat v n H). lia.
Qed.

(** path-id lists *)
Lemma writes_enc_pathid_items {T} oc (st : setter T) (W : T -> N * list N) v :
  (forall x, In x v -> writes (st oc (pid_nlri x)) (snd (W (pid_nlri x))) (fst (W (pid_nlri x)), length (snd (W (pid_nlri x))))) ->
  forall p, writes_at p (enc_pathid_items oc st v p) (pid_items_wire W v) (p + length (pid_items_wire W v))%nat.
Proof.
  induction v as [|x v IH]; intros H p; cbn [enc_pathid_items].
  - eapply writes_at_eq; [apply writes_at_ret| | | ]; cbn; auto.
  - set (b := fst (W (pid_nlri x))). set (bs := snd (W (pid_nlri x))).
    eapply writes_at_eq with (bs' := be_bytes 4 (pid x) ++ ([b] ++ bs) ++ pid_items_wire W v).
    4: reflexivity. 2: reflexivity.
    2:{ cbn [pid_items_wire flat_map]. fold b bs. rewrite <- !app_assoc. reflexivity. }
    eapply writes_at_bind; [apply writes_on_from, writes_setn_u32|]. rewrite length_be_bytes.
    intros buf Hb. rewrite !app_length in Hb. cbn [length] in Hb.
    specialize (H x (or_introl eq_refl)) as Hx. fold b bs in Hx.
    unfold ebind at 1. rewrite (writes_on_from (p + 4 + 1) _ _ _ Hx) by lia.
    unfold ebind. rewrite (writes_at_set_idx (p + 4) b) by (cbn [length]; rewrite length_splice by lia; lia).
    rewrite (splice_splice_adj_rev (p + 4) [b]) by (cbn [length]; lia).
    rewrite (IH (fun y Hy => H y (or_intror Hy))).
    2:{ rewrite length_splice by (cbn [app length]; lia). lia. }
    replace (p + 4 + (length bs + 1))%nat with (p + 4 + length ([b] ++ bs))%nat by (cbn [app length]; lia).
    rewrite splice_splice_adj by (cbn [app length]; lia).
    cbn [app length pid_items_wire flat_map]. fold b bs. rewrite !app_length, length_be_bytes. cbn [length].
    fold (pid_items_wire W v). rewrite ?app_length. do 2 f_equal. lia.
Qed.

Lemma dec_pathid_step {T} oc (ex : extractor T) fuel buf p :
  (p + 4 < length buf)%nat ->
  dec_pathid_loop oc ex (S fuel) buf p =
  (pathid <- getn_u32 (skipn p buf) ;;
   '(x, n) <- decode_bgpitem_from oc ex (skipn (p + 4) buf) ;;
   '(v, q) <- dec_pathid_loop oc ex fuel buf (p + 4 + n) ;; Ok (mkPid pathid x :: v, q)).
Proof.
  intros H. cbn [dec_pathid_loop]. apply Nat.ltb_lt in H as H'. rewrite H'.
  rewrite rfrom_ok by lia. rewrite bind_ok. rewrite rfrom_ok by lia. reflexivity.
Qed.
Lemma dec_pathid_end {T} oc (ex : extractor T) fuel buf p :
  (length buf <= p + 4)%nat -> dec_pathid_loop oc ex (S fuel) buf p = Ok ([], p).
Proof. intros H. cbn [dec_pathid_loop]. apply Nat.ltb_ge in H as H'. now rewrite H'. Qed.

Lemma pid_items_decode {T} oc (ex : extractor T) st wf W nm v : codec_ok oc ex st wf W nm ->
  Forall (fun x => pid x < 2 ^ 32 /\ wf (pid_nlri x)) v ->
  forall trail, (length trail <= 4)%nat ->
  decode_pathid_bgpitems_from oc ex (pid_items_wire W v ++ trail) =
    Ok (map (fun x => mkPid (pid x) (nm (pid_nlri x))) v, length (pid_items_wire W v)).
Proof.
  intros H Hv trail Ht. unfold decode_pathid_bgpitems_from.
  assert (G : forall v, Forall (fun x => pid x < 2 ^ 32 /\ wf (pid_nlri x)) v -> forall pre fuel,
    (length (pid_items_wire W v) < fuel)%nat ->
    dec_pathid_loop oc ex fuel (pre ++ pid_items_wire W v ++ trail) (length pre) =
    Ok (map (fun x => mkPid (pid x) (nm (pid_nlri x))) v, (length pre + length (pid_items_wire W v))%nat)).
  { clear v Hv. induction v as [|x v IH]; intros Hv pre fuel Hf; (destruct fuel as [|fuel]; [lia|]).
    - cbn [pid_items_wire flat_map map app]. rewrite dec_pathid_end by (rewrite app_length; lia). cbn [length]. do 2 f_equal. lia.
    - inversion_clear Hv as [|? ? [Hp Hw] Hv'].
      destruct (H (pid_nlri x) Hw) as [_ Hx].
      set (E := be_bytes 4 (pid x) ++ fst (W (pid_nlri x)) :: snd (W (pid_nlri x))).
      assert (EE : pid_items_wire W (x :: v) = E ++ pid_items_wire W v) by reflexivity.
      assert (LE : length E = (4 + S (length (snd (W (pid_nlri x)))))%nat) by (unfold E; rewrite app_length, length_be_bytes; reflexivity).
      rewrite EE, <- !app_assoc. rewrite EE, app_length in Hf.
      rewrite dec_pathid_step by (rewrite !app_length; lia).
      rewrite skipn_app_exact by reflexivity. unfold E at 1. rewrite <- app_assoc, getn_u32_be by exact Hp. cbn [bind].
      replace (skipn (length pre + 4) (pre ++ E ++ pid_items_wire W v ++ trail))
        with ((fst (W (pid_nlri x)) :: snd (W (pid_nlri x))) ++ pid_items_wire W v ++ trail).
      2:{ rewrite <- skipn_skipn', skipn_app_exact by reflexivity. unfold E.
          rewrite <- app_assoc, skipn_app_exact by apply length_be_bytes. reflexivity. }
      rewrite (decode_bgpitem_ok oc ex st wf W nm) by auto. cbn [bind].
      rewrite app_assoc. replace (length pre + 4 + S (length (snd (W (pid_nlri x)))))%nat with (length (pre ++ E)) by (rewrite app_length; lia).
      rewrite IH by (auto; lia). cbn [bind map]. rewrite !app_length. do 2 f_equal. lia. }
  apply (G v Hv [] _). rewrite app_length. lia.
Qed.

Lemma pid_items_inv {T} oc (ex : extractor T) wf W l v n : codec_inj oc ex wf W -> bytes_ok l ->
  decode_pathid_bgpitems_from oc ex l = Ok (v, n) ->
  Forall (fun x => pid x < 2 ^ 32 /\ wf (pid_nlri x)) v /\
  exists trail, l = pid_items_wire W v ++ trail /\ (length trail <= 4)%nat /\ n = length (pid_items_wire W v).
Proof.
  intros Hi Hb H. unfold decode_pathid_bgpitems_from in H.
  assert (G : forall fuel p v n, dec_pathid_loop oc ex fuel l p = Ok (v, n) -> (p <= length l)%nat ->
     Forall (fun x => pid x < 2 ^ 32 /\ wf (pid_nlri x)) v /\
     exists trail, skipn p l = pid_items_wire W v ++ trail /\ (length trail <= 4)%nat /\ n = (p + length (pid_items_wire W v))%nat).
  { clear H v n. induction fuel as [|fuel IH]; intros p v n H Hp; [discriminate|].
    destruct (Nat.ltb (p + 4) (length l)) eqn:E.
    - apply Nat.ltb_lt in E. rewrite dec_pathid_step in H by lia.
      rewrite getn_u32_ok in H by (try apply Forall_skipn; auto; rewrite skipn_length; lia). cbn [bind] in H.
      apply bind_Ok_inv in H as [[x m] [H1 H]]. apply bind_Ok_inv in H as [[v' q'] [H2 H]].
      apply (f_equal (fun r => match r with Ok x => x | _ => ([], 0%nat) end)) in H.
      apply pair_equal_spec in H as [<- <-].
      apply (decode_bgpitem_inv oc ex wf W) in H1 as (Hw & Hm & Hf & _); auto; [|now apply Forall_skipn].
      rewrite skipn_length in Hm. apply IH in H2 as (Hv & trail & HW & Ht & Hq); [|lia].
      set (P := be_val (firstn 4 (skipn p l))) in *.
      assert (L4 : length (firstn 4 (skipn p l)) = 4%nat) by (rewrite firstn_length, skipn_length; lia).
      assert (B4 : bytes_ok (firstn 4 (skipn p l))) by (apply Forall_firstn, Forall_skipn, Hb).
      assert (HP : be_bytes 4 P = firstn 4 (skipn p l)).
      { unfold P. rewrite <- L4 at 1. apply be_bytes_be_val. exact B4. }
      assert (EE : pid_items_wire W (mkPid P x :: v') = be_bytes 4 P ++ (fst (W x) :: snd (W x)) ++ pid_items_wire W v').
      { cbn [pid_items_wire flat_map pid pid_nlri]. now rewrite <- app_assoc. }
      assert (LE : length (fst (W x) :: snd (W x)) = m) by (rewrite <- Hf, firstn_length, skipn_length; lia).
      split.
      + constructor; auto. cbn [pid pid_nlri]. split; auto. pose proof (be_val_bound _ B4) as HB. rewrite L4 in HB. exact HB.
      + exists trail. rewrite EE. split; [|split; [auto|]].
        * rewrite <- !app_assoc, <- HW, HP, <- Hf.
          rewrite <- (skipn_skipn' m (p + 4)). rewrite firstn_skipn. rewrite <- (skipn_skipn' 4 p). now rewrite firstn_skipn.
        * rewrite !app_length, length_be_bytes, LE. lia.
    - apply Nat.ltb_ge in E. rewrite dec_pathid_end in H by lia. injection H as <- <-.
      split; [constructor|]. exists (skipn p l). cbn. rewrite skipn_length. repeat split; auto; lia. }
  apply (G _ 0%nat v n H). lia.
Qed.

(** * Termination, progress *)
Definition fuel_ok {T} (oc : bool) (ex : extractor T) : Prop := forall bits buf, ex oc bits buf <> OutOfFuel.
Lemma decode_bgpitem_progress {T} oc (ex : extractor T) b x n : decode_bgpitem_from oc ex b = Ok (x, n) -> (1 <= n)%nat.
Proof.
  unfold decode_bgpitem_from. intros H. apply bind_Ok_inv in H as [y [_ H]]. apply bind_Ok_inv in H as [s [_ H]].
  apply bind_Ok_inv in H as [[z m] [_ H]]. injection H as <- <-. lia.
Qed.
Lemma decode_bgpitem_fuel {T} oc (ex : extractor T) b : fuel_ok oc ex -> decode_bgpitem_from oc ex b <> OutOfFuel.
Proof.
  intros H. unfold decode_bgpitem_from, idx, rfrom. destruct (nth_error b 0); cbn [bind]; [|discriminate].
  destruct (Nat.leb 1 (length b)); cbn [bind]; [|discriminate].
  specialize (H n (skipn 1 b)). destruct (ex oc n (skipn 1 b)) as [[x m]| | |]; cbn [bind]; congruence.
Qed.
Lemma decode_bgpitems_fuel {T} oc (ex : extractor T) b : fuel_ok oc ex -> decode_bgpitems_from oc ex b <> OutOfFuel.
Proof.
  intros H. apply dec_loop_fuel; [| |lia].
  - intros b' x n. apply decode_bgpitem_progress.
  - intros b'. now apply decode_bgpitem_fuel.
Qed.
Lemma decode_pathid_fuel {T} oc (ex : extractor T) b : fuel_ok oc ex -> decode_pathid_bgpitems_from oc ex b <> OutOfFuel.
Proof.
  intros H. unfold decode_pathid_bgpitems_from.
  assert (G : forall fuel p, (length b - p < fuel)%nat -> dec_pathid_loop oc ex fuel b p <> OutOfFuel).
  { induction fuel as [|fuel IH]; intros p Hf; [lia|].
    destruct (Nat.ltb (p + 4) (length b)) eqn:E.
    - apply Nat.ltb_lt in E. rewrite dec_pathid_step by lia.
      destruct (getn_u32_cases (skipn p b)) as [[v [-> _]]|[-> _]]; cbn [bind]; [|discriminate].
      pose proof (decode_bgpitem_fuel oc ex (skipn (p + 4) b) H).
      destruct (decode_bgpitem_from oc ex (skipn (p + 4) b)) as [[x n]| | |] eqn:Ed; cbn [bind]; try congruence.
      specialize (IH (p + 4 + n)%nat ltac:(lia)).
      destruct (dec_pathid_loop oc ex fuel b (p + 4 + n)) as [[w q]| | |]; cbn [bind]; congruence.
    - apply Nat.ltb_ge in E. rewrite dec_pathid_end by lia. discriminate. }
  apply G. lia.
Qed.

Lemma pfx_fuel oc K dec bits buf : (forall l, dec l <> OutOfFuel) -> pfx_from oc K dec bits buf <> OutOfFuel.
Proof.
  intros Hd. unfold pfx_from, bits_bytes.
  assert (U : uadd oc 8 bits 7 <> OutOfFuel) by (unfold uadd; destruct (bits + 7 <? 2 ^ 8), oc; discriminate).
  destruct (uadd oc 8 bits 7); cbn [bind]; try congruence.
  destruct (_ || _)%bool; [discriminate|]. destruct (bits =? 0).
  - specialize (Hd (repeat 0 K)); destruct (dec (repeat 0 K)); cbn [bind]; congruence.
  - unfold fill_zeroed, rslice. destruct (Nat.leb _ K); cbn [bind]; [|discriminate].
    destruct (_ && _)%bool; cbn [bind]; [|discriminate].
    match goal with |- context [dec ?l] => specialize (Hd l); destruct (dec l); cbn [bind]; congruence end.
Qed.
Lemma decode_addrv4_fuel l : decode_addrv4_from l <> OutOfFuel.
Proof.
  destruct (Nat.leb 4 (length l)) eqn:E; [apply Nat.leb_le in E; rewrite decode_addrv4_ok by lia|
    apply Nat.leb_gt in E; rewrite decode_addrv4_short by lia]; discriminate.
Qed.
Lemma idx_fuel {A} (l : list A) i : idx l i <> OutOfFuel.
Proof. unfold idx. destruct (nth_error l i); discriminate. Qed.
Lemma decode_addrv6_fuel l : decode_addrv6_from l <> OutOfFuel.
Proof.
  destruct (Nat.leb 16 (length l)) eqn:E; [|apply Nat.leb_gt in E; rewrite decode_addrv6_short by lia; discriminate].
  unfold decode_addrv6_from. 
  repeat first [ discriminate
    | match goal with |- context [if ?b then _ else _] => destruct b end
    | match goal with |- context [getn_u16 ?l] => destruct (getn_u16_cases l) as [[? [-> _]]|[-> _]]; cbn [bind] end
    | match goal with |- context [rslice ?l ?a ?b] => unfold rslice at 1; destruct (_ && _)%bool; cbn [bind] end ].
Qed.
Lemma v4_fuel oc : fuel_ok oc v4_from_bits.
Proof.
  intros bits buf. rewrite v4_from_bits_pfx. pose proof (pfx_fuel oc 4 _ bits buf decode_addrv4_fuel).
  destruct (pfx_from _ _ _ _ _) as [[? ?]| | |]; cbn [bind]; congruence.
Qed.
Lemma v6_fuel oc : fuel_ok oc v6_from_bits.
Proof.
  intros bits buf. rewrite v6_from_bits_pfx. pose proof (pfx_fuel oc 16 _ bits buf decode_addrv6_fuel).
  destruct (pfx_from _ _ _ _ _) as [[? ?]| | |]; cbn [bind]; congruence.
Qed.
Lemma usub_fuel oc w a b : usub oc w a b <> OutOfFuel.
Proof. unfold usub. destruct (b <=? a), oc; discriminate. Qed.
Lemma labels_loop_fuel oc : forall fuel left buf p, (length buf - p < fuel)%nat -> labels_loop oc fuel left buf p <> OutOfFuel.
Proof.
  induction fuel as [|fuel IH]; intros left buf p H; [lia|]. cbn [labels_loop].
  destruct (0 <? left); [|discriminate].
  destruct (idx buf p) eqn:E0; cbn [bind]; try congruence. 2: now apply idx_fuel in E0.
  apply idx_Ok_inv in E0 as [E0 _].
  destruct (idx buf (p + 1)) eqn:E1; cbn [bind]; try congruence. 2: now apply idx_fuel in E1.
  destruct (idx buf (p + 2)) eqn:E2; cbn [bind]; try congruence. 2: now apply idx_fuel in E2.
  pose proof (usub_fuel oc 8 left 24). destruct (usub oc 8 left 24); cbn [bind]; try congruence.
  match goal with |- context [label_ends ?e] => generalize e; intros lv end.
  destruct (label_ends lv); [discriminate|].
  destruct (idx buf (p + 3 - 1)) eqn:E3; cbn [bind]; try congruence. 2: now apply idx_fuel in E3.
  destruct (negb _); [discriminate|].
  specialize (IH a2 buf (p + 3)%nat ltac:(lia)).
  destruct (labels_loop oc fuel a2 buf (p + 3)) as [[? ?]| | |]; cbn [bind]; congruence.
Qed.
Lemma labeled_fuel {T} oc (ex : extractor T) : fuel_ok oc ex -> fuel_ok oc (labeled_extract ex).
Proof.
  intros H bits buf. unfold labeled_extract, labels_extract.
  pose proof (labels_loop_fuel oc (S (length buf)) bits buf 0 ltac:(lia)).
  destruct (labels_loop _ _ _ _ _) as [[l n]| | |]; cbn [bind]; try congruence.
  pose proof (usub_fuel oc 8 bits (cast 8 (N.of_nat n * 8))). destruct (usub _ _ _ _); cbn [bind]; try congruence.
  unfold rfrom. destruct (Nat.leb _ _); cbn [bind]; [|discriminate].
  specialize (H a (skipn n buf)). destruct (ex oc a (skipn n buf)) as [[? ?]| | |]; cbn [bind]; congruence.
Qed.
Lemma decode_rd_fuel l : decode_rd_from l <> OutOfFuel.
Proof.
  unfold decode_rd_from. destruct (Nat.leb 8 (length l)); [|discriminate].
  unfold rslice. destruct (_ && _)%bool; cbn [bind]; [|discriminate].
  match goal with |- context [getn_u32 ?l] => destruct (getn_u32_cases l) as [[? [-> _]]|[-> _]]; cbn [bind]; [|discriminate] end.
  destruct (_ && _)%bool; cbn [bind]; [|discriminate].
  match goal with |- context [getn_u32 ?l] => destruct (getn_u32_cases l) as [[? [-> _]]|[-> _]]; cbn [bind]; discriminate end.
Qed.
Lemma withrd_fuel {T} oc (ex : extractor T) : fuel_ok oc ex -> fuel_ok oc (withrd_extract ex).
Proof.
  intros H bits buf. unfold withrd_extract. destruct (Nat.ltb _ _); [discriminate|].
  unfold rslice. destruct (_ && _)%bool; cbn [bind]; [|discriminate].
  pose proof (decode_rd_fuel (sub buf 0 8)). destruct (decode_rd_from (sub buf 0 8)) as [[r n]| | |]; cbn [bind]; try congruence.
  pose proof (usub_fuel oc 8 bits (cast 8 (N.of_nat n * 8))). destruct (usub _ _ _ _); cbn [bind]; try congruence.
  unfold rfrom. destruct (Nat.leb _ _); cbn [bind]; [|discriminate].
  specialize (H a (skipn n buf)). destruct (ex oc a (skipn n buf)) as [[? ?]| | |]; cbn [bind]; congruence.
Qed.

(** * Panics *)
Definition panic_at_249 {T} (oc : bool) (ex : extractor T) : Prop := forall bits buf, bits < 256 -> bytes_ok buf ->
  (is_panic (ex oc bits buf) = true <-> oc = true /\ 249 <= bits).
Lemma is_panic_bind_ret {A B} (x : res A) (f : A -> B) : is_panic (a <- x ;; Ok (f a)) = is_panic x.
Proof. destruct x; reflexivity. Qed.
Lemma v4_panic oc : panic_at_249 oc v4_from_bits.
Proof.
  intros bits buf Hb Hby. rewrite v4_from_bits_pfx.
  destruct (pfx_from_panic oc 4 _ bits buf dec_spec4 ltac:(lia) Hb Hby) as [H _]. rewrite <- H.
  destruct (pfx_from _ _ _ _ _) as [[? ?]| | |]; reflexivity.
Qed.
Lemma v6_panic oc : panic_at_249 oc v6_from_bits.
Proof.
  intros bits buf Hb Hby. rewrite v6_from_bits_pfx.
  destruct (pfx_from_panic oc 16 _ bits buf dec_spec6 ltac:(lia) Hb Hby) as [H _]. rewrite <- H.
  destruct (pfx_from _ _ _ _ _) as [[? ?]| | |]; reflexivity.
Qed.

Lemma decode_bgpitem_cons {T} oc (ex : extractor T) b l :
  decode_bgpitem_from oc ex (b :: l) = ('(x, n) <- ex oc b l ;; Ok (x, (n + 1)%nat)).
Proof.
  unfold decode_bgpitem_from. change (idx (b :: l) 0) with (Ok b). rewrite bind_ok.
  rewrite rfrom_ok by (cbn; lia). reflexivity.
Qed.
Lemma decode_bgpitem_cons_panic {T} oc (ex : extractor T) b l :
  is_panic (decode_bgpitem_from oc ex (b :: l)) = is_panic (ex oc b l).
Proof. rewrite decode_bgpitem_cons. destruct (ex oc b l) as [[? ?]| | |]; reflexivity. Qed.

Lemma dec_loop_prefix {T} (step : list N -> res (T * nat)) (E : T -> list N) (nm : T -> T) v :
  (forall x rest, In x v -> step (E x ++ rest) = Ok (nm x, length (E x))) ->
  (forall x, In x v -> (1 <= length (E x))%nat) ->
  forall pre fuel rest, (length v <= fuel)%nat ->
  dec_loop step fuel (pre ++ flat_map E v ++ rest) (length pre) =
  ('(w, q) <- dec_loop step (fuel - length v) (pre ++ flat_map E v ++ rest) (length pre + length (flat_map E v)) ;;
   Ok (map nm v ++ w, q)).
Proof.
  induction v as [|x v IH]; intros Hs Hl pre fuel rest Hf.
  - cbn [flat_map map app length]. rewrite Nat.sub_0_r, Nat.add_0_r.
    destruct (dec_loop _ _ _ _) as [[? ?]| | |]; reflexivity.
  - destruct fuel as [|fuel]; [cbn in Hf; lia|]. pose proof (Hl x (or_introl eq_refl)) as Hx.
    cbn [flat_map map length] in *. rewrite <- app_assoc.
    rewrite dec_loop_step by (rewrite !app_length; lia).
    rewrite skipn_app_exact by reflexivity. rewrite Hs by now left. rewrite bind_ok.
    rewrite app_assoc. replace (length pre + length (E x))%nat with (length (pre ++ E x)) by now rewrite app_length.
    rewrite IH by (try lia; intros; try apply Hs; try apply Hl; now right).
    rewrite !app_length, Nat.add_assoc. cbn [Nat.sub].
    destruct (dec_loop step (fuel - length v) _ _) as [[w q]| | |]; reflexivity.
Qed.

Lemma items_panic {T} oc (ex : extractor T) st wf W nm l : codec_ok oc ex st wf W nm -> codec_inj oc ex wf W ->
  panic_at_249 oc ex -> bytes_ok l ->
  (is_panic (decode_bgpitems_from oc ex l) = true <->
   oc = true /\ exists v b post, Forall wf v /\ l = items_wire W v ++ b :: post /\ 249 <= b).
Proof.
  intros Hc Hi Hp Hb. split.
  - intros H. unfold decode_bgpitems_from in H.
    assert (G : forall fuel p, is_panic (dec_loop (decode_bgpitem_from oc ex) fuel l p) = true -> (p <= length l)%nat ->
      oc = true /\ exists v b post, Forall wf v /\ skipn p l = items_wire W v ++ b :: post /\ 249 <= b).
    { clear H. induction fuel as [|fuel IH]; intros p H Hpl; [discriminate|].
      destruct (Nat.ltb p (length l)) eqn:E.
      2:{ apply Nat.ltb_ge in E. rewrite dec_loop_end in H by lia. discriminate. }
      apply Nat.ltb_lt in E. rewrite dec_loop_step in H by lia.
      assert (Hbs : bytes_ok (skipn p l)) by now apply Forall_skipn.
      destruct (decode_bgpitem_from oc ex (skipn p l)) as [[x n]|e| |] eqn:Ed; cbn [bind] in H; try discriminate.
      - apply (decode_bgpitem_inv oc ex wf W) in Ed as (Hw & Hn & Hf & _); auto. rewrite skipn_length in Hn.
        destruct (IH (p + n)%nat) as (Ho & v & b & post & Hv & He & H249).
        { destruct (dec_loop _ fuel l (p + n)) as [[? ?]| | |]; try discriminate. reflexivity. }
        { lia. }
        split; auto. exists (x :: v), b, post. repeat split; auto.
        cbn [items_wire flat_map]. fold (items_wire W v). rewrite <- app_assoc, <- He, <- Hf, <- skipn_skipn', firstn_skipn. reflexivity.
      - destruct (skipn p l) as [|b l'] eqn:El.
        { apply (f_equal (@length N)) in El. rewrite skipn_length in El. cbn in El. lia. }
        apply (f_equal is_panic) in Ed. rewrite decode_bgpitem_cons_panic in Ed. inversion_clear Hbs as [|? ? Hb0 Hbl].
        apply Hp in Ed as [Ho H249]; auto. split; auto. exists [], b, l'. repeat split; auto. }
    destruct (G _ 0%nat H ltac:(lia)) as [Ho G']. split; auto.
  - intros [-> (v & b & post & Hv & -> & H249)]. unfold decode_bgpitems_from.
    rewrite Forall_forall in Hv. pose proof Hb as Hb'. apply Forall_app in Hb' as [_ Hb'].
    inversion_clear Hb' as [|? ? Hb0 Hbp].
    pose proof (dec_loop_prefix (decode_bgpitem_from true ex) (fun x => fst (W x) :: snd (W x)) nm v
      (fun x rest Hx => decode_bgpitem_ok true ex st wf W nm x rest Hc (Hv x Hx))
      (fun x Hx => le_n_S _ _ (Nat.le_0_l _)) [] (S (length (items_wire W v ++ b :: post))) (b :: post)) as D.
    cbn [app length] in D. rewrite Nat.add_0_l in D.
    assert (Hlen : (length v <= length (items_wire W v))%nat).
    { clear. induction v; [cbn; lia|]. cbn [items_wire flat_map]. fold (items_wire W v). cbn [app length]. rewrite app_length. lia. }
    rewrite items_wire_flat in *. rewrite D by (rewrite app_length; cbn [length]; lia). clear D.
    set (L := flat_map _ v) in *.
    destruct (S (length (L ++ b :: post)) - length v)%nat as [|f] eqn:Ef; [rewrite app_length in Ef; cbn [length] in Ef; lia|].
    rewrite dec_loop_step by (rewrite app_length; cbn [length]; lia).
    rewrite skipn_app_exact by reflexivity.
    assert (HP : decode_bgpitem_from true ex (b :: post) = Panic).
    { assert (X : is_panic (decode_bgpitem_from true ex (b :: post)) = true).
      { rewrite decode_bgpitem_cons_panic. apply Hp; auto. }
      destruct (decode_bgpitem_from true ex (b :: post)); try discriminate. reflexivity. }
    rewrite HP. reflexivity.
Qed.

Lemma pid_items_no_panic {T} (ex : extractor T) wf W l : codec_inj false ex wf W ->
  panic_at_249 false ex -> bytes_ok l -> is_panic (decode_pathid_bgpitems_from false ex l) = false.
Proof.
  intros Hi Hp Hb. unfold decode_pathid_bgpitems_from. generalize (S (length l)), 0%nat.
  induction n as [|fuel IH]; intros p; [reflexivity|].
  destruct (Nat.ltb (p + 4) (length l)) eqn:E.
  2:{ apply Nat.ltb_ge in E. rewrite dec_pathid_end by lia. reflexivity. }
  apply Nat.ltb_lt in E. rewrite dec_pathid_step by lia.
  rewrite getn_u32_ok by (try apply Forall_skipn; auto; rewrite skipn_length; lia). cbn [bind].
  assert (Hs : is_panic (decode_bgpitem_from false ex (skipn (p + 4) l)) = false).
  { assert (Hbs : bytes_ok (skipn (p + 4) l)) by now apply Forall_skipn.
    destruct (skipn (p + 4) l) as [|b l'] eqn:El.
    { apply (f_equal (@length N)) in El. rewrite skipn_length in El. cbn in El. lia. }
    rewrite decode_bgpitem_cons_panic. inversion_clear Hbs as [|? ? Hb0 Hbl].
    destruct (is_panic (ex false b l')) eqn:Ep; [|reflexivity]. apply Hp in Ep as [C _]; auto; discriminate. }
  destruct (decode_bgpitem_from false ex (skipn (p + 4) l)) as [[x m]| | |]; try discriminate; cbn [bind]; auto.
  specialize (IH (p + 4 + m)%nat). destruct (dec_pathid_loop false ex fuel l (p + 4 + m)) as [[? ?]| | |]; auto.
Qed.

(** * Label stacks on arbitrary bytes *)
Lemma odd_land b : b < 256 -> negb (N.land b 1 =? 0) = N.odd b.
Proof.
  intros H. apply eqb_prop. revert b H. 
  apply (byte_sweep (fun b => Bool.eqb (negb (N.land b 1 =? 0)) (N.odd b))). vm_compute. reflexivity.
Qed.
Lemma entry_ends_dec b0 b1 b2 : b2 < 256 ->
  (entry_ends b0 b1 b2 <-> (label_ends (be_val [b0; b1; b2] / 16) || negb (N.land b2 1 =? 0))%bool = true).
Proof.
  intros H. unfold entry_ends. rewrite orb_true_iff, odd_land by auto. now rewrite label_ends_iff.
Qed.

Lemma labels_loop_complete oc left rest k : stack_complete left rest k -> forall fuel buf pre,
  buf = pre ++ rest -> bytes_ok buf -> (k < fuel)%nat ->
  exists ls, labels_loop oc fuel left buf (length pre) = Ok (ls, (length pre + 3 * k)%nat) /\ length ls = k.
Proof.
  induction 1 as [rest|left b0 b1 b2 rest Hl He|left b0 b1 b2 rest k Hl He Hc IH];
    intros fuel buf pre -> Hb Hf; (destruct fuel as [|fuel]; [lia|]).
  - cbn [labels_loop]. exists []. split; auto. cbn. do 2 f_equal. lia.
  - pose proof Hb as Hb'. apply Forall_app in Hb' as [_ Hb']. inversion_clear Hb' as [|? ? X0 Y]. inversion_clear Y as [|? ? X1 Z]. inversion_clear Z as [|? ? X2 _].
    rewrite (labels_loop_step oc fuel left _ _ b0 b1 b2 rest pre) by (auto; lia).
    rewrite usub_ok by lia. cbn [bind]. cbv zeta.
    apply entry_ends_dec in He; auto. apply orb_true_iff in He.
    destruct (label_ends _); [eexists; split; [reflexivity|reflexivity]|].
    destruct He as [He|He]; [discriminate|]. rewrite He. eexists; split; reflexivity.
  - pose proof Hb as Hb'. apply Forall_app in Hb' as [_ Hb']. inversion_clear Hb' as [|? ? X0 Y]. inversion_clear Y as [|? ? X1 Z]. inversion_clear Z as [|? ? X2 _].
    rewrite (labels_loop_step oc fuel left _ _ b0 b1 b2 rest pre) by (auto; lia).
    rewrite usub_ok by lia. cbn [bind]. cbv zeta.
    rewrite entry_ends_dec in He by auto. apply not_true_is_false, orb_false_iff in He as [He1 He2].
    rewrite He1, He2.
    destruct (IH fuel (pre ++ b0 :: b1 :: b2 :: rest) (pre ++ [b0; b1; b2])) as (ls & HI & HL); [now rewrite <- app_assoc|auto|lia|].
    replace (length pre + 3)%nat with (length (pre ++ [b0; b1; b2])) by (rewrite app_length; reflexivity).
    rewrite HI. cbn [bind]. exists (be_val [b0; b1; b2] / 16 :: ls). split; [|cbn [length]; f_equal; exact HL].
    rewrite app_length. cbn [length]. do 2 f_equal. lia.
Qed.

Lemma labels_loop_inv oc : forall fuel left buf p ls q, labels_loop oc fuel left buf p = Ok (ls, q) ->
  bytes_ok buf -> (p <= length buf)%nat ->
  q = (p + 3 * length ls)%nat /\ (q <= length buf)%nat /\ Forall (fun l => l < 2 ^ 20) ls /\
  (oc = true -> 24 * N.of_nat (length ls) <= left /\ stack_complete left (skipn p buf) (length ls)).
Proof.
  induction fuel as [|fuel IH]; intros left buf p ls q H Hb Hp; [discriminate|].
  destruct (0 <? left) eqn:E0.
  2:{ cbn [labels_loop] in H. rewrite E0 in H. injection H as <- <-. cbn [length]. repeat split; auto; try lia.
      apply N.ltb_ge in E0. replace left with 0 by lia. constructor. }
  apply N.ltb_lt in E0.
  assert (L : (p + 3 <= length buf)%nat).
  { cbn [labels_loop] in H. apply N.ltb_lt in E0. rewrite E0 in H.
    apply bind_Ok_inv in H as [b0 [H0 H]]. apply bind_Ok_inv in H as [b1 [H1 H]]. apply bind_Ok_inv in H as [b2 [H2 H]].
    apply idx_Ok_inv in H2 as [H2 _]. lia. }
  destruct (skipn p buf) as [|b0 [|b1 [|b2 rest]]] eqn:Es;
    try (apply (f_equal (@length N)) in Es; rewrite skipn_length in Es; cbn [length] in Es; lia).
  assert (Hbs : bytes_ok (skipn p buf)) by now apply Forall_skipn. rewrite Es in Hbs.
  inversion_clear Hbs as [|? ? X0 Y]. inversion_clear Y as [|? ? X1 Z]. inversion_clear Z as [|? ? X2 _].
  assert (Hpre : length (firstn p buf) = p) by (rewrite firstn_length; lia).
  assert (Hbuf : buf = firstn p buf ++ [b0; b1; b2] ++ rest).
  { rewrite <- (firstn_skipn p buf) at 1. now rewrite Es. }
  rewrite (labels_loop_step oc fuel left buf p b0 b1 b2 rest (firstn p buf) Hbuf) in H by auto.
  apply bind_Ok_inv in H as [left' [Hu H]]. cbv zeta in H.
  assert (Hl : oc = true -> 24 <= left /\ left' = left - 24).
  { intros ->. unfold usub in Hu. destruct (24 <=? left) eqn:E; [|discriminate]. apply N.leb_le in E. split; [exact E|congruence]. }
  assert (V20 : be_val [b0; b1; b2] / 16 < 2 ^ 20).
  { apply N.div_lt_upper_bound; [lia|]. pose proof (be_val_bound [b0; b1; b2]) as B.
    change (16 * 2 ^ 20) with (2 ^ (8 * N.of_nat (length [b0; b1; b2]))). apply B. repeat constructor; auto. }
  pose proof (entry_ends_dec b0 b1 b2 X2) as Hed.
  destruct (label_ends (be_val [b0; b1; b2] / 16) || negb (N.land b2 1 =? 0))%bool eqn:Ee.
  - assert (H' : Ok ([be_val [b0; b1; b2] / 16], (p + 3)%nat) = Ok (ls, q)).
    { destruct (label_ends _); [exact H|]. cbn [orb] in Ee. rewrite Ee in H. exact H. }
    injection H' as <- <-. cbn [length]. repeat split; auto; try lia.
    apply sc_last; [now apply Hl|now apply Hed].
  - apply orb_false_iff in Ee as [Ee1 Ee2]. rewrite Ee1, Ee2 in H.
    apply bind_Ok_inv in H as [[v q'] [H1 H]]. injection H as <- <-.
    apply IH in H1 as (-> & Hq & Hv & Hoc); [|auto|lia]. cbn [length]. 
    split; [lia|]. split; [lia|]. split; [constructor; auto|]. intros Ho. destruct (Hoc Ho) as [H24 Hsc]. destruct (Hl Ho) as [Hl1 ->].
    split; [lia|]. rewrite <- (skipn_skipn' 3 p), Es in Hsc. cbn [skipn] in Hsc. apply sc_more; auto.
    rewrite Hed. discriminate.
Qed.

Lemma labels_extract_complete oc bits buf k : bytes_ok buf -> stack_complete bits buf k ->
  exists ls, labels_extract oc bits buf = Ok (ls, (3 * k)%nat) /\ length ls = k.
Proof.
  intros Hb H. unfold labels_extract.
  assert (Hk : (k <= length buf)%nat). { clear Hb. induction H; cbn [length]; lia. }
  destruct (labels_loop_complete oc bits buf k H (S (length buf)) buf []) as (ls & H1 & H2); auto; [lia|].
  exists ls. auto.
Qed.
Lemma stack_complete_bounds bits buf k : stack_complete bits buf k ->
  24 * N.of_nat k <= bits /\ (3 * k <= length buf)%nat /\ (k = 0%nat -> bits = 0).
Proof. induction 1; cbn [length]; repeat split; intros; try lia. Qed.

Lemma labels_extract_debug bits buf : bytes_ok buf ->
  (exists k, stack_complete bits buf k) \/ labels_extract true bits buf = Panic.
Proof.
  intros Hb. destruct (labels_extract true bits buf) as [[ls q]|e| |] eqn:E; auto.
  - left. unfold labels_extract in E. apply labels_loop_inv in E as (_ & _ & _ & Hs); auto; [|lia].
    destruct (Hs eq_refl) as [_ Hs']. eauto.
  - exfalso. unfold labels_extract in E. revert E. generalize (S (length buf)), 0%nat, bits. 
    induction n as [|f IH]; intros p b E; [discriminate|]. cbn [labels_loop] in E.
    destruct (0 <? b); [|discriminate].
    unfold idx in E. destruct (nth_error buf p); cbn [bind] in E; [|discriminate].
    destruct (nth_error buf (p + 1)); cbn [bind] in E; [|discriminate].
    destruct (nth_error buf (p + 2)); cbn [bind] in E; [|discriminate].
    unfold usub in E. destruct (24 <=? b); cbn [bind] in E; [|discriminate].
    match type of E with context [label_ends ?x] => revert E; generalize x; intros lv E end.
    destruct (label_ends lv); [discriminate|].
    destruct (nth_error buf (p + 3 - 1)); cbn [bind] in E; [|discriminate].
    destruct (negb _); [discriminate|].
    specialize (IH (p + 3)%nat (b - 24)).
    destruct (labels_loop true f (b - 24) buf (p + 3)) as [[? ?]| | |]; try discriminate. now apply IH.
  - exfalso. now apply (labels_loop_fuel true (S (length buf)) bits buf 0 ltac:(lia)).
Qed.

Lemma labeled_extract_complete {T} oc (ex : extractor T) bits buf k : bits < 256 -> bytes_ok buf ->
  stack_complete bits buf k ->
  is_panic (labeled_extract ex oc bits buf) = is_panic (ex oc (bits - 24 * N.of_nat k) (skipn (3 * k) buf)).
Proof.
  intros Hb Hby Hc. destruct (stack_complete_bounds _ _ _ Hc) as (B1 & B2 & _).
  destruct (labels_extract_complete oc bits buf k Hby Hc) as (ls & H1 & _).
  unfold labeled_extract. rewrite H1. cbn [bind].
  replace (cast 8 (N.of_nat (3 * k) * 8)) with (24 * N.of_nat k).
  2:{ unfold cast. change (2 ^ 8) with 256. rewrite N.mod_small by lia. lia. }
  rewrite usub_ok by lia. cbn [bind]. rewrite rfrom_ok by lia. cbn [bind].
  destruct (ex oc _ _) as [[? ?]| | |]; reflexivity.
Qed.

Lemma labeled_no_panic {T} oc (ex : extractor T) bits buf k : panic_at_249 oc ex -> bits < 256 -> bytes_ok buf ->
  stack_complete bits buf k -> is_panic (labeled_extract ex oc bits buf) = false.
Proof.
  intros Hp Hb Hby Hc. rewrite (labeled_extract_complete oc ex bits buf k) by auto.
  destruct (stack_complete_bounds _ _ _ Hc) as (B1 & B2 & B3).
  destruct (is_panic _) eqn:E; [|reflexivity]. apply Hp in E as [_ E]; [|lia|now apply Forall_skipn].
  destruct k; [rewrite (B3 eq_refl) in E|]; lia.
Qed.
Lemma labeled_panic_debug {T} (ex : extractor T) bits buf : panic_at_249 true ex -> bits < 256 -> bytes_ok buf ->
  (is_panic (labeled_extract ex true bits buf) = true <-> ~ exists k, stack_complete bits buf k).
Proof.
  intros Hp Hb Hby. split.
  - intros H [k Hk]. rewrite (labeled_no_panic true ex bits buf k) in H by auto. discriminate.
  - intros H. destruct (labels_extract_debug bits buf Hby) as [C|C]; [contradiction|].
    unfold labeled_extract. rewrite C. reflexivity.
Qed.

Lemma withrd_panic {T} oc (ex : extractor T) bits buf : panic_at_249 oc ex -> bits < 249 -> bytes_ok buf ->
  (is_panic (withrd_extract ex oc bits buf) = true <-> oc = true /\ bits < 64 /\ (8 <= length buf)%nat).
Proof.
  intros Hp Hb Hby. unfold withrd_extract. destruct (Nat.ltb (length buf) 8) eqn:E.
  { apply Nat.ltb_lt in E. split; [discriminate|lia]. }
  apply Nat.ltb_ge in E. rewrite rslice_ok by lia. cbn [bind].
  rewrite decode_rd_ok; [|apply Forall_firstn, Forall_sub, Hby|rewrite length_sub; lia]. cbn [bind].
  change (cast 8 (N.of_nat 8 * 8)) with 64. unfold usub.
  destruct (64 <=? bits) eqn:E64.
  - apply N.leb_le in E64. cbn [bind]. rewrite rfrom_ok by lia. cbn [bind].
    assert (X : is_panic (ex oc (bits - 64) (skipn 8 buf)) = false).
    { destruct (is_panic _) eqn:Ep; [|reflexivity]. apply Hp in Ep; [lia|lia|now apply Forall_skipn]. }
    destruct (ex oc _ _) as [[? ?]| | |]; try discriminate; cbn; (split; [discriminate|lia]).
  - apply N.leb_gt in E64. destruct oc; cbn [bind]; [split; [intros _; repeat split; auto | reflexivity]|].
    rewrite rfrom_ok by lia. cbn [bind].
    assert (X : is_panic (ex false ((bits + 2 ^ 8 - 64) mod 2 ^ 8) (skipn 8 buf)) = false).
    { destruct (is_panic _) eqn:Ep; [|reflexivity]. apply Hp in Ep as [C _]; [discriminate| |now apply Forall_skipn].
      apply N.mod_lt. discriminate. }
    destruct (ex false _ _) as [[? ?]| | |]; try discriminate; cbn; (split; [discriminate|intros [? _]; discriminate]).
Qed.

Lemma vpn_panic_release {T} (ex : extractor T) bits buf k : panic_at_249 false ex -> bits < 256 -> bytes_ok buf ->
  stack_complete bits buf k -> is_panic (labeled_extract (withrd_extract ex) false bits buf) = false.
Proof.
  intros Hp Hb Hby Hc. rewrite (labeled_extract_complete false _ bits buf k) by auto.
  destruct (stack_complete_bounds _ _ _ Hc) as (B1 & B2 & B3).
  destruct (is_panic _) eqn:E; [|reflexivity].
  assert (Hr : bits - 24 * N.of_nat k < 249) by (destruct k; [rewrite (B3 eq_refl)|]; lia).
  apply (proj1 (withrd_panic false ex _ _ Hp Hr (Forall_skipn _ (3 * k) _ Hby))) in E as [C _]. discriminate C.
Qed.
Lemma vpn_panic_debug {T} (ex : extractor T) bits buf : panic_at_249 true ex -> bits < 256 -> bytes_ok buf ->
  (is_panic (labeled_extract (withrd_extract ex) true bits buf) = false <->
   exists k, stack_complete bits buf k /\ (64 + 24 * N.of_nat k <= bits \/ (length buf < 3 * k + 8)%nat)).
Proof.
  intros Hp Hb Hby.
  assert (G : forall k, stack_complete bits buf k ->
    (is_panic (labeled_extract (withrd_extract ex) true bits buf) = true <->
     bits - 24 * N.of_nat k < 64 /\ (8 <= length (skipn (3 * k) buf))%nat)).
  { intros k Hc. rewrite (labeled_extract_complete true _ bits buf k) by auto.
    destruct (stack_complete_bounds _ _ _ Hc) as (B1 & B2 & B3).
    rewrite withrd_panic; auto; [tauto| |now apply Forall_skipn].
    destruct k; [rewrite (B3 eq_refl)|]; lia. }
  split.
  - intros H. destruct (labels_extract_debug bits buf Hby) as [[k C]|C].
    + exists k. split; auto. pose proof (G k C) as Gk. destruct (stack_complete_bounds _ _ _ C) as (B1 & B2 & B3).
      rewrite H in Gk. rewrite skipn_length in Gk.
      destruct (N.ltb (bits - 24 * N.of_nat k) 64) eqn:E1; [apply N.ltb_lt in E1|apply N.ltb_ge in E1; lia].
      destruct (Nat.leb 8 (length buf - 3 * k)) eqn:E2; [apply Nat.leb_le in E2|apply Nat.leb_gt in E2; lia].
      exfalso. assert (false = true) by (apply Gk; split; auto). discriminate.
    + unfold labeled_extract in H. rewrite C in H. discriminate.
  - intros (k & C & D). destruct (is_panic _) eqn:E; [|reflexivity].
    pose proof (proj1 (G k C) eq_refl) as [E1 E2]. rewrite skipn_length in E2.
    destruct (stack_complete_bounds _ _ _ C) as (B1 & B2 & B3). lia.
Qed.

(** * Framing *)
Definition framed {T} (oc : bool) (ex : extractor T) : Prop := forall bits buf x n, bits < 256 -> bytes_ok buf ->
  ex oc bits buf = Ok (x, n) -> n = prefix_octets bits /\ (n <= length buf)%nat.
Lemma prefix_octets_add k r : prefix_octets (8 * N.of_nat k + r) = (k + prefix_octets r)%nat.
Proof.
  unfold prefix_octets. replace (8 * N.of_nat k + r + 7) with (N.of_nat k * 8 + (r + 7)) by lia.
  rewrite N.div_add_l by lia. rewrite N2Nat.inj_add, Nat2N.id. reflexivity.
Qed.
Lemma v4_framed oc : framed oc v4_from_bits.
Proof.
  intros bits buf x n Hb Hby H. rewrite v4_from_bits_pfx in H. apply bind_Ok_inv in H as [[p m] [H1 H]]. injection H as _ <-.
  destruct (pfx_from_inv oc 4 _ bits buf _ ltac:(lia) Hb H1) as [Hk Hl].
  rewrite (pfx_from_val oc 4 _ bits _ dec_spec4) in H1; auto; try lia; [|now apply Forall_firstn]. injection H1 as _ <-. auto.
Qed.
Lemma v6_framed oc : framed oc v6_from_bits.
Proof.
  intros bits buf x n Hb Hby H. rewrite v6_from_bits_pfx in H. apply bind_Ok_inv in H as [[p m] [H1 H]]. injection H as _ <-.
  destruct (pfx_from_inv oc 16 _ bits buf _ ltac:(lia) Hb H1) as [Hk Hl].
  rewrite (pfx_from_val oc 16 _ bits _ dec_spec6) in H1; auto; try lia; [|now apply Forall_firstn]. injection H1 as _ <-. auto.
Qed.
Lemma usub_true_inv w a b c : usub true w a b = Ok c -> b <= a /\ c = a - b.
Proof. unfold usub. destruct (b <=? a) eqn:E; [|discriminate]. apply N.leb_le in E. intros H. injection H as <-. auto. Qed.
Lemma labeled_framed {T} (ex : extractor T) : framed true ex -> framed true (labeled_extract ex).
Proof.
  intros Hf bits buf x n Hb Hby H. unfold labeled_extract in H.
  apply bind_Ok_inv in H as [[ls q] [H1 H]]. apply labels_loop_inv in H1 as (Hq & Hql & _ & Ho); [|auto|lia].
  destruct (Ho eq_refl) as [H24 _].
  apply bind_Ok_inv in H as [rb [H2 H]]. apply bind_Ok_inv in H as [s [H3 H]].
  apply bind_Ok_inv in H as [[p pn] [H4 H]]. injection H as _ <-.
  apply usub_true_inv in H2 as [_ ->]. apply rfrom_Ok_inv in H3 as [H3 ->]. cbn [Nat.add] in Hq.
  assert (C8 : cast 8 (N.of_nat q * 8) = 24 * N.of_nat (length ls)).
  { unfold cast. change (2 ^ 8) with 256. rewrite N.mod_small by lia. lia. }
  rewrite C8 in *. apply Hf in H4 as [-> H5]; [|lia|now apply Forall_skipn]. rewrite skipn_length in H5.
  replace bits with (8 * N.of_nat q + (bits - 24 * N.of_nat (length ls))) at 2 by lia.
  rewrite prefix_octets_add. split; [reflexivity|lia].
Qed.
Lemma withrd_framed {T} (ex : extractor T) : framed true ex -> framed true (withrd_extract ex).
Proof.
  intros Hf bits buf x n Hb Hby H. unfold withrd_extract in H.
  destruct (Nat.ltb (length buf) 8) eqn:E; [discriminate|]. apply Nat.ltb_ge in E.
  rewrite rslice_ok in H by lia. cbn [bind] in H.
  rewrite decode_rd_ok in H; [|apply Forall_firstn, Forall_sub, Hby|rewrite length_sub; lia]. cbn [bind] in H.
  change (cast 8 (N.of_nat 8 * 8)) with 64 in H.
  apply bind_Ok_inv in H as [rb [H2 H]]. apply bind_Ok_inv in H as [s [H3 H]].
  apply bind_Ok_inv in H as [[p pn] [H4 H]]. apply usub_true_inv in H2 as [H64 ->]. apply rfrom_Ok_inv in H3 as [H3 ->].
  assert (n = (8 + pn)%nat) by congruence. subst n.
  apply Hf in H4 as [-> H5]; [|lia|now apply Forall_skipn]. rewrite skipn_length in H5.
  replace bits with (8 * N.of_nat 8 + (bits - 64)) at 2 by lia.
  rewrite prefix_octets_add. split; [reflexivity|lia].
Qed.
Lemma item_framed {T} oc (ex : extractor T) l x n : framed oc ex -> bytes_ok l ->
  decode_bgpitem_from oc ex l = Ok (x, n) ->
  exists bits rest, l = bits :: rest /\ n = S (prefix_octets bits) /\ (n <= length l)%nat.
Proof.
  intros Hf Hb H. destruct l as [|b l]; [discriminate|]. rewrite decode_bgpitem_cons in H.
  apply bind_Ok_inv in H as [[y m] [H1 H]]. injection H as _ <-. inversion_clear Hb as [|? ? Hb0 Hbl].
  apply Hf in H1 as [-> Hl]; auto. exists b, l. cbn [length]. repeat split; lia.
Qed.

(** * Bounded consumption, any build mode *)
Definition bounded {T} (oc : bool) (ex : extractor T) : Prop := forall bits buf x n, bits < 256 -> bytes_ok buf ->
  ex oc bits buf = Ok (x, n) -> (n <= length buf)%nat.
Lemma inj_bounded {T} oc (ex : extractor T) wf W : codec_inj oc ex wf W -> bounded oc ex.
Proof. intros H bits buf x n Hb Hby E. now apply H in E as (_ & _ & ?). Qed.
Lemma usub_bound oc a b c : a < 256 -> usub oc 8 a b = Ok c -> c < 256.
Proof.
  unfold usub. intros Ha. destruct (b <=? a); [intros H; injection H as <-; lia|].
  destruct oc; [discriminate|]. intros H. injection H as <-. apply N.mod_lt. discriminate.
Qed.
Lemma labeled_bounded {T} oc (ex : extractor T) : bounded oc ex -> bounded oc (labeled_extract ex).
Proof.
  intros Hf bits buf x n Hb Hby H. unfold labeled_extract in H.
  apply bind_Ok_inv in H as [[ls q] [H1 H]]. apply labels_loop_inv in H1 as (Hq & Hql & _); [|auto|lia].
  apply bind_Ok_inv in H as [rb [H2 H]]. apply bind_Ok_inv in H as [s [H3 H]].
  apply bind_Ok_inv in H as [[p pn] [H4 H]]. injection H as _ <-.
  apply rfrom_Ok_inv in H3 as [H3 ->]. apply usub_bound in H2; auto.
  apply Hf in H4; [|auto|now apply Forall_skipn]. rewrite skipn_length in H4. lia.
Qed.
Lemma withrd_bounded {T} oc (ex : extractor T) : bounded oc ex -> bounded oc (withrd_extract ex).
Proof.
  intros Hf bits buf x n Hb Hby H. unfold withrd_extract in H.
  destruct (Nat.ltb (length buf) 8) eqn:E; [discriminate|]. apply Nat.ltb_ge in E.
  apply bind_Ok_inv in H as [s8 [H0 H]]. apply bind_Ok_inv in H as [[r rn] [H1 H]].
  apply rslice_Ok_inv in H0 as (_ & _ & ->). apply decode_rd_inv in H1 as (_ & -> & _ & _); [|now apply Forall_sub].
  apply bind_Ok_inv in H as [rb [H2 H]]. apply bind_Ok_inv in H as [s [H3 H]].
  apply bind_Ok_inv in H as [[p pn] [H4 H]]. assert (n = (8 + pn)%nat) by congruence. subst n.
  apply rfrom_Ok_inv in H3 as [H3 ->]. apply usub_bound in H2; auto.
  apply Hf in H4; [|auto|now apply Forall_skipn]. rewrite skipn_length in H4. lia.
Qed.
Lemma items_consume_all {T} oc (ex : extractor T) l v n : bounded oc ex -> bytes_ok l ->
  decode_bgpitems_from oc ex l = Ok (v, n) -> n = length l.
Proof.
  intros Hf Hb H. unfold decode_bgpitems_from in H.
  assert (G : forall fuel p v n, dec_loop (decode_bgpitem_from oc ex) fuel l p = Ok (v, n) -> (p <= length l)%nat -> n = length l).
  { clear H v n. induction fuel as [|fuel IH]; intros p v n H Hp; [discriminate|].
    destruct (Nat.ltb p (length l)) eqn:E.
    - apply Nat.ltb_lt in E. rewrite dec_loop_step in H by lia.
      apply bind_Ok_inv in H as [[x m] [H1 H]]. apply bind_Ok_inv in H as [[v' q'] [H2 H]].
      injection H as <- <-. apply IH in H2; auto.
      assert (Hbs : bytes_ok (skipn p l)) by now apply Forall_skipn.
      assert (Hle : (m <= length (skipn p l))%nat); [|rewrite skipn_length in Hle; lia].
      destruct (skipn p l) as [|b l']; [discriminate|]. rewrite decode_bgpitem_cons in H1.
      apply bind_Ok_inv in H1 as [[y k] [H1 H]]. injection H as _ <-. inversion_clear Hbs as [|? ? Hb0 Hbl].
      apply Hf in H1; auto. cbn [length]. lia.
    - apply Nat.ltb_ge in E. rewrite dec_loop_end in H by lia. injection H as <- <-. lia. }
  apply (G _ 0%nat v n H). lia.
Qed.

(** * Prefixes without host bits *)
Lemma keep_normalised w len a : len <= w -> normalised w len a -> keep_octets w len a = a.
Proof.
  intros Hl Hn. unfold keep_octets. set (sh := w - 8 * N.of_nat (prefix_octets len)).
  assert (Hs : sh <= w - len) by (pose proof (proj2 (prefix_octets_spec len)); unfold sh; lia).
  clearbody sh. rewrite <- N.shiftr_div_pow2, <- N.shiftl_mul_pow2. apply N.bits_inj. intros i.
  destruct (N.ltb i sh) eqn:E.
  - apply N.ltb_lt in E. rewrite N.shiftl_spec_low by auto. symmetry. apply Hn. lia.
  - apply N.ltb_ge in E. rewrite N.shiftl_spec_high' by auto. rewrite N.shiftr_spec'. f_equal. lia.
Qed.
Lemma map_trunc4 v : Forall (fun p => v4_wf p /\ normalised 32 (v4_len p) (v4_addr p)) v -> map v4_trunc v = v.
Proof.
  induction 1 as [|[a l] v [[_ Hl] Hn] _ IH]; [reflexivity|]. cbn [map]. rewrite IH. unfold v4_trunc. cbn [v4_addr v4_len] in *.
  now rewrite keep_normalised.
Qed.
Lemma map_trunc6 v : Forall (fun p => v6_wf p /\ normalised 128 (v6_len p) (v6_addr p)) v -> map v6_trunc v = v.
Proof.
  induction 1 as [|[a l] v [[_ Hl] Hn] _ IH]; [reflexivity|]. cbn [map]. rewrite IH. unfold v6_trunc. cbn [v6_addr v6_len] in *.
  now rewrite keep_normalised.
Qed.

(** * Statements used by P_Nlri *)
Lemma items_rt {T} oc (ex : extractor T) st wf W nm v buf : codec_ok oc ex st wf W nm -> Forall wf v ->
  (length (items_wire W v) <= length buf)%nat ->
  encode_bgpitems_to oc st v buf = Ok (length (items_wire W v), items_wire W v ++ skipn (length (items_wire W v)) buf) /\
  decode_bgpitems_from oc ex (items_wire W v) = Ok (map nm v, length (items_wire W v)).
Proof.
  intros Hc Hv Hb. split.
  - pose proof (items_encode oc ex st wf W nm v Hc Hv) as H. rewrite writes_spec in H. now apply H.
  - apply (items_decode oc ex st wf W nm); auto.
Qed.
Lemma pid_items_rt {T} oc (ex : extractor T) st wf W nm v buf : codec_ok oc ex st wf W nm ->
  Forall (fun x => pid x < 2 ^ 32 /\ wf (pid_nlri x)) v ->
  (length (pid_items_wire W v) <= length buf)%nat ->
  encode_pathid_bgpitems_to oc st v buf = Ok (length (pid_items_wire W v), pid_items_wire W v ++ skipn (length (pid_items_wire W v)) buf) /\
  decode_pathid_bgpitems_from oc ex (pid_items_wire W v) =
    Ok (map (fun x => mkPid (pid x) (nm (pid_nlri x))) v, length (pid_items_wire W v)).
Proof.
  intros Hc Hv Hb. split.
  - assert (H : writes (encode_pathid_bgpitems_to oc st v) (pid_items_wire W v) (length (pid_items_wire W v))).
    { apply (writes_enc_pathid_items oc st W v) with (p := 0%nat). intros x Hx. rewrite Forall_forall in Hv. apply Hc, Hv, Hx. }
    rewrite writes_spec in H. now apply H.
  - rewrite <- (app_nil_r (pid_items_wire W v)) at 1. apply (pid_items_decode oc ex st wf W nm); auto.
Qed.
Lemma items_reenc {T} oc oc' (ex : extractor T) st wf W nm l v n buf : codec_ok oc' ex st wf W nm -> codec_inj oc ex wf W ->
  bytes_ok l -> decode_bgpitems_from oc ex l = Ok (v, n) -> (length l <= length buf)%nat ->
  encode_bgpitems_to oc' st v buf = Ok (length l, l ++ skipn (length l) buf).
Proof.
  intros Hc Hi Hb H Hl. apply (items_inv oc ex wf W) in H as (Hw & HW & _ & _); auto.
  pose proof (items_encode oc' ex st wf W nm v Hc Hw) as E. rewrite HW, writes_spec in E. now apply E.
Qed.
Lemma pid_wf_map {T} (f : T -> T) v : (forall x : withPathId T, In x v -> f (pid_nlri x) = pid_nlri x) ->
  map (fun x => mkPid (pid x) (f (pid_nlri x))) v = v.
Proof.
  induction v as [|[i x] v IH]; intros H; [reflexivity|]. cbn [map]. rewrite IH by (intros; apply H; now right).
  pose proof (H (mkPid i x) (or_introl eq_refl)) as E. cbn [pid pid_nlri] in *. now rewrite E.
Qed.

Lemma labels_rt oc ls buf rest : stack_wf ls -> 24 * N.of_nat (length ls) < 256 -> (length (stack_wire ls) <= length buf)%nat ->
  labels_set ls buf = Ok ((24 * N.of_nat (length ls), length (stack_wire ls)), stack_wire ls ++ skipn (length (stack_wire ls)) buf) /\
  labels_extract oc (24 * N.of_nat (length ls)) (stack_wire ls ++ rest) = Ok (ls, length (stack_wire ls)).
Proof.
  intros Hw H8 Hb. split.
  - pose proof (writes_labels_set ls) as H. rewrite writes_spec in H. rewrite H by auto. rewrite length_stack.
    unfold cast. change (2 ^ 8) with 256. rewrite N.mod_small by lia. do 3 f_equal. lia.
  - rewrite labels_extract_wire by (auto; lia). now rewrite length_stack.
Qed.

Lemma rd_rt r buf rest : rd_wf r -> (8 <= length buf)%nat ->
  encode_rd_to r buf = Ok (8%nat, rd_wire r ++ skipn 8 buf) /\ decode_rd_from (rd_wire r ++ rest) = Ok (r, 8%nat).
Proof.
  intros Hw Hb. split; [|now apply decode_rd_wire].
  pose proof (writes_encode_rd r) as H. rewrite writes_spec, length_rd_wire in H. now apply H.
Qed.
Lemma rd_dec l buf : bytes_ok l -> (8 <= length buf)%nat ->
  if (Nat.leb 8 (length l))%bool then
    exists r, rd_wf r /\ decode_rd_from l = Ok (r, 8%nat) /\ encode_rd_to r buf = Ok (8%nat, firstn 8 l ++ skipn 8 buf)
  else exists e, decode_rd_from l = Err e.
Proof.
  intros Hb Hl. destruct (Nat.leb 8 (length l)) eqn:E.
  - apply Nat.leb_le in E. eexists (mkRD _ _).
    pose proof (decode_rd_ok l (Forall_firstn _ _ _ Hb) E) as D. 
    destruct (decode_rd_inv l _ _ Hb D) as (Hw & _ & _ & HW). split; [exact Hw|]. split; [exact D|].
    rewrite <- HW. now apply rd_rt.
  - apply Nat.leb_gt in E. eexists. apply decode_rd_short. lia.
Qed.

Lemma trunc4_id p : v4_wf p -> v4_clean p -> v4_trunc p = p.
Proof. intros H1 H2. pose proof (map_trunc4 [p] (Forall_cons _ (conj H1 H2) (Forall_nil _))) as H. now injection H. Qed.
Lemma trunc6_id p : v6_wf p -> v6_clean p -> v6_trunc p = p.
Proof. intros H1 H2. pose proof (map_trunc6 [p] (Forall_cons _ (conj H1 H2) (Forall_nil _))) as H. now injection H. Qed.
Lemma map_id_on {A} (f : A -> A) v : (forall x, In x v -> f x = x) -> map f v = v.
Proof. induction v; intros H; [reflexivity|]. cbn [map]. rewrite IHv by (intros; apply H; now right). now rewrite H by now left. Qed.

Lemma C08_l oc v buf : Forall v4_wf v -> (length (items_wire v4_wire v) <= length buf)%nat ->
  encode_bgpitems_to oc v4_to_bits v buf =
    Ok (length (items_wire v4_wire v), items_wire v4_wire v ++ skipn (length (items_wire v4_wire v)) buf) /\
  decode_bgpitems_from oc v4_from_bits (items_wire v4_wire v) = Ok (map v4_trunc v, length (items_wire v4_wire v)) /\
  (Forall v4_clean v -> map v4_trunc v = v).
Proof.
  intros Hv Hb. destruct (items_rt oc _ _ _ _ _ v buf (v4_codec oc) Hv Hb) as [H1 H2]. split; [exact H1|]. split; [exact H2|].
  intros Hc. rewrite Forall_forall in *. apply map_id_on. intros x Hx. apply trunc4_id; auto.
Qed.
Lemma C09_l oc v buf : Forall v6_wf v -> (length (items_wire v6_wire v) <= length buf)%nat ->
  encode_bgpitems_to oc v6_to_bits v buf =
    Ok (length (items_wire v6_wire v), items_wire v6_wire v ++ skipn (length (items_wire v6_wire v)) buf) /\
  decode_bgpitems_from oc v6_from_bits (items_wire v6_wire v) = Ok (map v6_trunc v, length (items_wire v6_wire v)) /\
  (Forall v6_clean v -> map v6_trunc v = v).
Proof.
  intros Hv Hb. destruct (items_rt oc _ _ _ _ _ v buf (v6_codec oc) Hv Hb) as [H1 H2]. split; [exact H1|]. split; [exact H2|].
  intros Hc. rewrite Forall_forall in *. apply map_id_on. intros x Hx. apply trunc6_id; auto.
Qed.
Lemma C10_v4_l oc oc' l v n buf : bytes_ok l -> decode_bgpitems_from oc v4_from_bits l = Ok (v, n) ->
  (length l <= length buf)%nat -> encode_bgpitems_to oc' v4_to_bits v buf = Ok (length l, l ++ skipn (length l) buf).
Proof. intros. eapply items_reenc; eauto; [apply v4_codec|apply v4_inj]. Qed.
Lemma C10_v6_l oc oc' l v n buf : bytes_ok l -> decode_bgpitems_from oc v6_from_bits l = Ok (v, n) ->
  (length l <= length buf)%nat -> encode_bgpitems_to oc' v6_to_bits v buf = Ok (length l, l ++ skipn (length l) buf).
Proof. intros. eapply items_reenc; eauto; [apply v6_codec|apply v6_inj]. Qed.

Lemma C11_v4_l oc v buf : Forall (fun x => pid x < 2 ^ 32 /\ v4_wf (pid_nlri x)) v ->
  (length (pid_items_wire v4_wire v) <= length buf)%nat ->
  encode_pathid_bgpitems_to oc v4_to_bits v buf =
    Ok (length (pid_items_wire v4_wire v), pid_items_wire v4_wire v ++ skipn (length (pid_items_wire v4_wire v)) buf) /\
  decode_pathid_bgpitems_from oc v4_from_bits (pid_items_wire v4_wire v) =
    Ok (map (fun x => mkPid (pid x) (v4_trunc (pid_nlri x))) v, length (pid_items_wire v4_wire v)) /\
  (Forall (fun x => v4_clean (pid_nlri x)) v -> map (fun x => mkPid (pid x) (v4_trunc (pid_nlri x))) v = v).
Proof.
  intros Hv Hb. destruct (pid_items_rt oc _ _ _ _ _ v buf (v4_codec oc) Hv Hb) as [H1 H2]. split; [exact H1|]. split; [exact H2|].
  intros Hc. rewrite Forall_forall in *. apply pid_wf_map. intros x Hx. apply trunc4_id; [apply Hv; auto|apply Hc; auto].
Qed.
Lemma C11_v6_l oc v buf : Forall (fun x => pid x < 2 ^ 32 /\ v6_wf (pid_nlri x)) v ->
  (length (pid_items_wire v6_wire v) <= length buf)%nat ->
  encode_pathid_bgpitems_to oc v6_to_bits v buf =
    Ok (length (pid_items_wire v6_wire v), pid_items_wire v6_wire v ++ skipn (length (pid_items_wire v6_wire v)) buf) /\
  decode_pathid_bgpitems_from oc v6_from_bits (pid_items_wire v6_wire v) =
    Ok (map (fun x => mkPid (pid x) (v6_trunc (pid_nlri x))) v, length (pid_items_wire v6_wire v)) /\
  (Forall (fun x => v6_clean (pid_nlri x)) v -> map (fun x => mkPid (pid x) (v6_trunc (pid_nlri x))) v = v).
Proof.
  intros Hv Hb. destruct (pid_items_rt oc _ _ _ _ _ v buf (v6_codec oc) Hv Hb) as [H1 H2]. split; [exact H1|]. split; [exact H2|].
  intros Hc. rewrite Forall_forall in *. apply pid_wf_map. intros x Hx. apply trunc6_id; [apply Hv; auto|apply Hc; auto].
Qed.

Lemma C12_v4_l oc l v n : bytes_ok l -> decode_bgpitems_from oc v4_from_bits l = Ok (v, n) ->
  n = length l /\ l = items_wire v4_wire v.
Proof. intros Hb H. apply (items_inv oc _ _ _ _ _ _ (v4_inj oc)) in H as (_ & E & N & _); auto. Qed.
Lemma C12_v6_l oc l v n : bytes_ok l -> decode_bgpitems_from oc v6_from_bits l = Ok (v, n) ->
  n = length l /\ l = items_wire v6_wire v.
Proof. intros Hb H. apply (items_inv oc _ _ _ _ _ _ (v6_inj oc)) in H as (_ & E & N & _); auto. Qed.
Lemma vpn4_bounded oc : bounded oc (labeled_extract (withrd_extract v4_from_bits)).
Proof. apply labeled_bounded, withrd_bounded. eapply inj_bounded, v4_inj. Qed.
Lemma vpn6_bounded oc : bounded oc (labeled_extract (withrd_extract v6_from_bits)).
Proof. apply labeled_bounded, withrd_bounded. eapply inj_bounded, v6_inj. Qed.
Lemma lab4_bounded oc : bounded oc (labeled_extract v4_from_bits).
Proof. apply labeled_bounded. eapply inj_bounded, v4_inj. Qed.
Lemma lab6_bounded oc : bounded oc (labeled_extract v6_from_bits).
Proof. apply labeled_bounded. eapply inj_bounded, v6_inj. Qed.
Lemma C12_pid4_l oc l v n : bytes_ok l -> decode_pathid_bgpitems_from oc v4_from_bits l = Ok (v, n) ->
  exists trail, l = pid_items_wire v4_wire v ++ trail /\ (length trail <= 4)%nat /\ n = length (pid_items_wire v4_wire v).
Proof. intros Hb H. eapply pid_items_inv in H as [_ H]; [exact H|apply v4_inj|auto]. Qed.
Lemma C12_pid6_l oc l v n : bytes_ok l -> decode_pathid_bgpitems_from oc v6_from_bits l = Ok (v, n) ->
  exists trail, l = pid_items_wire v6_wire v ++ trail /\ (length trail <= 4)%nat /\ n = length (pid_items_wire v6_wire v).
Proof. intros Hb H. eapply pid_items_inv in H as [_ H]; [exact H|apply v6_inj|auto]. Qed.
Lemma C12_pid_drop4_l oc v trail : Forall (fun x => pid x < 2 ^ 32 /\ v4_wf (pid_nlri x)) v -> (length trail <= 4)%nat ->
  decode_pathid_bgpitems_from oc v4_from_bits (pid_items_wire v4_wire v ++ trail) =
    Ok (map (fun x => mkPid (pid x) (v4_trunc (pid_nlri x))) v, length (pid_items_wire v4_wire v)).
Proof. intros. eapply pid_items_decode; eauto. apply v4_codec. Qed.

(** labeled and VPN lists *)
Lemma C14_gen {T} oc (ex : extractor T) st wf W nm (clean : T -> Prop) v buf : codec_ok oc ex st wf W nm ->
  (forall p, wf p -> clean p -> nm p = p) ->
  Forall (fun x => labeled_wf wf x /\ fits (labeled_wire W) x) v ->
  (length (items_wire (labeled_wire W) v) <= length buf)%nat ->
  encode_bgpitems_to oc (labeled_set st) v buf =
    Ok (length (items_wire (labeled_wire W) v), items_wire (labeled_wire W) v ++ skipn (length (items_wire (labeled_wire W) v)) buf) /\
  decode_bgpitems_from oc (labeled_extract ex) (items_wire (labeled_wire W) v) =
    Ok (map (fun x => mkLab (nm (lab_prefix x)) (lab_labels x)) v, length (items_wire (labeled_wire W) v)) /\
  (Forall (fun x => clean (lab_prefix x)) v -> map (fun x => mkLab (nm (lab_prefix x)) (lab_labels x)) v = v).
Proof.
  intros Hc Hn Hv Hb. destruct (items_rt oc _ _ _ _ _ v buf (labeled_codec oc ex st wf W nm Hc) Hv Hb) as [H1 H2].
  split; [exact H1|]. split; [exact H2|]. intros Hcl. rewrite Forall_forall in *. apply map_id_on. intros [p ls] Hx.
  specialize (Hcl _ Hx). destruct (Hv _ Hx) as [[_ Hw] _]. cbn [lab_prefix lab_labels] in *. now rewrite Hn.
Qed.
Lemma C14_v4_l oc v buf : Forall (fun x => labeled_wf v4_wf x /\ fits (labeled_wire v4_wire) x) v ->
  (length (items_wire (labeled_wire v4_wire) v) <= length buf)%nat -> let w := items_wire (labeled_wire v4_wire) v in
  encode_bgpitems_to oc (labeled_set v4_to_bits) v buf = Ok (length w, w ++ skipn (length w) buf) /\
  decode_bgpitems_from oc (labeled_extract v4_from_bits) w =
    Ok (map (fun x => mkLab (v4_trunc (lab_prefix x)) (lab_labels x)) v, length w) /\
  (Forall (fun x => v4_clean (lab_prefix x)) v -> map (fun x => mkLab (v4_trunc (lab_prefix x)) (lab_labels x)) v = v).
Proof. intros. apply (C14_gen oc _ _ _ _ _ v4_clean v buf (v4_codec oc)); auto using trunc4_id. Qed.
Lemma C14_v6_l oc v buf : Forall (fun x => labeled_wf v6_wf x /\ fits (labeled_wire v6_wire) x) v ->
  (length (items_wire (labeled_wire v6_wire) v) <= length buf)%nat -> let w := items_wire (labeled_wire v6_wire) v in
  encode_bgpitems_to oc (labeled_set v6_to_bits) v buf = Ok (length w, w ++ skipn (length w) buf) /\
  decode_bgpitems_from oc (labeled_extract v6_from_bits) w =
    Ok (map (fun x => mkLab (v6_trunc (lab_prefix x)) (lab_labels x)) v, length w) /\
  (Forall (fun x => v6_clean (lab_prefix x)) v -> map (fun x => mkLab (v6_trunc (lab_prefix x)) (lab_labels x)) v = v).
Proof. intros. apply (C14_gen oc _ _ _ _ _ v6_clean v buf (v6_codec oc)); auto using trunc6_id. Qed.

Definition vpn_nm {T} (nm : T -> T) (x : labeled (withRd T)) : labeled (withRd T) :=
  mkLab (mkWRD (nm (wrd_prefix (lab_prefix x))) (wrd_rd (lab_prefix x))) (lab_labels x).
Lemma vpn_codec {T} oc (ex : extractor T) st wf W nm : codec_ok oc ex st wf W nm ->
  codec_ok oc (labeled_extract (withrd_extract ex)) (labeled_set (withrd_set st))
    (fun x => labeled_wf (withrd_wf wf) x /\ fits (labeled_wire (withrd_wire W)) x)
    (labeled_wire (withrd_wire W)) (vpn_nm nm).
Proof.
  intros H x [[Hs Hw] Hf]. apply (labeled_codec oc _ _ _ _ _ (withrd_codec oc ex st wf W nm H)). split; [|exact Hf].
  split; [exact Hs|]. split; [exact Hw|]. unfold fits, labeled_wire in *. cbn [fst] in Hf. lia.
Qed.
Lemma C15_gen {T} oc (ex : extractor T) st wf W nm (clean : T -> Prop) v buf : codec_ok oc ex st wf W nm ->
  (forall p, wf p -> clean p -> nm p = p) ->
  Forall (fun x => labeled_wf (withrd_wf wf) x /\ fits (labeled_wire (withrd_wire W)) x) v ->
  let w := items_wire (labeled_wire (withrd_wire W)) v in
  (length w <= length buf)%nat ->
  encode_bgpitems_to oc (labeled_set (withrd_set st)) v buf = Ok (length w, w ++ skipn (length w) buf) /\
  decode_bgpitems_from oc (labeled_extract (withrd_extract ex)) w = Ok (map (vpn_nm nm) v, length w) /\
  (Forall (fun x => clean (wrd_prefix (lab_prefix x))) v -> map (vpn_nm nm) v = v).
Proof.
  intros Hc Hn Hv w Hb. destruct (items_rt oc _ _ _ _ _ v buf (vpn_codec oc ex st wf W nm Hc) Hv Hb) as [H1 H2].
  split; [exact H1|]. split; [exact H2|]. intros Hcl. rewrite Forall_forall in *. apply map_id_on. intros [[p r] ls] Hx.
  specialize (Hcl _ Hx). destruct (Hv _ Hx) as [[_ [_ Hw]] _]. unfold vpn_nm. cbn [lab_prefix lab_labels wrd_prefix wrd_rd] in *. now rewrite Hn.
Qed.

(** C54 *)
Lemma C54_l oc l :
  decode_bgpitems_from oc v4_from_bits l <> OutOfFuel /\ decode_bgpitems_from oc v6_from_bits l <> OutOfFuel /\
  decode_pathid_bgpitems_from oc v4_from_bits l <> OutOfFuel /\ decode_pathid_bgpitems_from oc v6_from_bits l <> OutOfFuel /\
  decode_bgpitems_from oc (labeled_extract v4_from_bits) l <> OutOfFuel /\
  decode_bgpitems_from oc (labeled_extract v6_from_bits) l <> OutOfFuel /\
  decode_bgpitems_from oc (labeled_extract (withrd_extract v4_from_bits)) l <> OutOfFuel /\
  decode_bgpitems_from oc (labeled_extract (withrd_extract v6_from_bits)) l <> OutOfFuel /\
  decode_pathid_bgpitems_from oc (labeled_extract v4_from_bits) l <> OutOfFuel /\
  decode_pathid_bgpitems_from oc (labeled_extract v6_from_bits) l <> OutOfFuel /\
  decode_pathid_bgpitems_from oc (labeled_extract (withrd_extract v4_from_bits)) l <> OutOfFuel /\
  decode_pathid_bgpitems_from oc (labeled_extract (withrd_extract v6_from_bits)) l <> OutOfFuel.
Proof.
  repeat split; first [apply decode_bgpitems_fuel | apply decode_pathid_fuel];
    repeat first [apply labeled_fuel | apply withrd_fuel | apply v4_fuel | apply v6_fuel].
Qed.

(** C55 *)
Lemma C55_v4_l oc l : bytes_ok l ->
  (is_panic (decode_bgpitems_from oc v4_from_bits l) = true <->
   oc = true /\ exists v b post, Forall v4_wf v /\ l = items_wire v4_wire v ++ b :: post /\ 249 <= b).
Proof. intros H. eapply items_panic; eauto; [apply v4_codec|apply v4_inj|apply v4_panic]. Qed.
Lemma C55_v6_l oc l : bytes_ok l ->
  (is_panic (decode_bgpitems_from oc v6_from_bits l) = true <->
   oc = true /\ exists v b post, Forall v6_wf v /\ l = items_wire v6_wire v ++ b :: post /\ 249 <= b).
Proof. intros H. eapply items_panic; eauto; [apply v6_codec|apply v6_inj|apply v6_panic]. Qed.
Lemma C55_pid_l l : bytes_ok l -> is_panic (decode_pathid_bgpitems_from false v4_from_bits l) = false /\
  is_panic (decode_pathid_bgpitems_from false v6_from_bits l) = false.
Proof. intros H. split; eapply pid_items_no_panic; eauto; first [apply v4_inj|apply v6_inj|apply v4_panic|apply v6_panic]. Qed.

(** C56 *)
Lemma C56_lu_l bits buf : bits < 256 -> bytes_ok buf ->
  (is_panic (decode_bgpitem_from true (labeled_extract v4_from_bits) (bits :: buf)) = false <-> exists k, stack_complete bits buf k) /\
  (is_panic (decode_bgpitem_from true (labeled_extract v6_from_bits) (bits :: buf)) = false <-> exists k, stack_complete bits buf k).
Proof.
  intros Hb Hby. rewrite !decode_bgpitem_cons_panic.
  assert (G : forall T (ex : extractor T), panic_at_249 true ex ->
    (is_panic (labeled_extract ex true bits buf) = false <-> exists k, stack_complete bits buf k)).
  { intros T ex Hp. pose proof (labeled_panic_debug ex bits buf Hp Hb Hby) as H. split.
    - intros E. destruct (labels_extract_debug bits buf Hby) as [C|C]; [exact C|].
      unfold labeled_extract in E. rewrite C in E. discriminate.
    - intros E. destruct (is_panic _); [|reflexivity]. exfalso. now apply (proj1 H). }
  split; apply G; [apply v4_panic|apply v6_panic].
Qed.
Lemma C56_release_l bits buf k : bits < 256 -> bytes_ok buf -> stack_complete bits buf k ->
  is_panic (decode_bgpitem_from false (labeled_extract v4_from_bits) (bits :: buf)) = false /\
  is_panic (decode_bgpitem_from false (labeled_extract v6_from_bits) (bits :: buf)) = false /\
  is_panic (decode_bgpitem_from false (labeled_extract (withrd_extract v4_from_bits)) (bits :: buf)) = false /\
  is_panic (decode_bgpitem_from false (labeled_extract (withrd_extract v6_from_bits)) (bits :: buf)) = false.
Proof.
  intros Hb Hby Hc. rewrite !decode_bgpitem_cons_panic.
  repeat split; first [eapply labeled_no_panic; eauto; first [apply v4_panic|apply v6_panic] |
                       eapply vpn_panic_release; eauto; first [apply v4_panic|apply v6_panic]].
Qed.
Lemma C56_vpn_l bits buf : bits < 256 -> bytes_ok buf ->
  (is_panic (decode_bgpitem_from true (labeled_extract (withrd_extract v4_from_bits)) (bits :: buf)) = false <->
   exists k, stack_complete bits buf k /\ (64 + 24 * N.of_nat k <= bits \/ (length buf < 3 * k + 8)%nat)) /\
  (is_panic (decode_bgpitem_from true (labeled_extract (withrd_extract v6_from_bits)) (bits :: buf)) = false <->
   exists k, stack_complete bits buf k /\ (64 + 24 * N.of_nat k <= bits \/ (length buf < 3 * k + 8)%nat)).
Proof.
  intros Hb Hby. rewrite !decode_bgpitem_cons_panic. split; apply vpn_panic_debug; auto; [apply v4_panic|apply v6_panic].
Qed.

(** C62 *)
Lemma C62_prefix_l oc l : bytes_ok l ->
  (forall x n, decode_bgpitem_from oc v4_from_bits l = Ok (x, n) -> announced l n) /\
  (forall x n, decode_bgpitem_from oc v6_from_bits l = Ok (x, n) -> announced l n).
Proof.
  intros Hb. split; intros x n H; eapply item_framed; eauto; [apply v4_framed|apply v6_framed].
Qed.
Lemma C62_labeled_l l : bytes_ok l ->
  (forall x n, decode_bgpitem_from true (labeled_extract v4_from_bits) l = Ok (x, n) -> announced l n) /\
  (forall x n, decode_bgpitem_from true (labeled_extract v6_from_bits) l = Ok (x, n) -> announced l n) /\
  (forall x n, decode_bgpitem_from true (labeled_extract (withrd_extract v4_from_bits)) l = Ok (x, n) -> announced l n) /\
  (forall x n, decode_bgpitem_from true (labeled_extract (withrd_extract v6_from_bits)) l = Ok (x, n) -> announced l n).
Proof.
  intros Hb. repeat split; intros x n H; eapply item_framed; eauto;
    repeat first [apply labeled_framed | apply withrd_framed | apply v4_framed | apply v6_framed].
Qed.
Lemma C62_refuted_l : exists l x n, bytes_ok l /\
  decode_bgpitem_from false (labeled_extract v4_from_bits) l = Ok (x, n) /\ ~ announced l n.
Proof.
  exists (8 :: concat (repeat [0; 0; 16] 9) ++ [0; 0; 17; 10; 0; 0]). do 2 eexists. split; [apply bytes_okb_ok; reflexivity|].
  split; [vm_compute; reflexivity|]. intros (b & r & E & H & _). injection E as <- _. discriminate H.
Qed.

Lemma C12_refuted_l : exists l v n, bytes_ok l /\
  decode_pathid_bgpitems_from true v4_from_bits l = Ok (v, n) /\ (n < length l)%nat.
Proof.
  exists [0;0;0;1;8;10;222;173;190;239]. do 2 eexists. split; [apply bytes_okb_ok; reflexivity|].
  split; [vm_compute; reflexivity|]. cbn. lia.
Qed.
Lemma C55_refuted_l : exists l, bytes_ok l /\ decode_bgpitems_from true v4_from_bits l = Panic /\
  decode_bgpitems_from true v6_from_bits l = Panic.
Proof. exists [8; 10; 250]. split; [apply bytes_okb_ok; reflexivity|]. split; reflexivity. Qed.
Lemma C56_refuted_l : exists l, bytes_ok l /\ forall oc,
  decode_bgpitems_from oc (labeled_extract v4_from_bits) l = Panic /\
  decode_bgpitems_from oc (labeled_extract (withrd_extract v4_from_bits)) l = Panic /\
  decode_bgpitems_from oc (labeled_extract v6_from_bits) l = Panic /\
  decode_bgpitems_from oc (labeled_extract (withrd_extract v6_from_bits)) l = Panic.
Proof. exists [24; 0]. split; [apply bytes_okb_ok; reflexivity|]. destruct oc; repeat split; reflexivity. Qed.
