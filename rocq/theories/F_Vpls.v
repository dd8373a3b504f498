(** Proofs about VPLS, MDT and length-prefixed lists. *)
From Verif Require Import Base BaseFacts M_Util S_Wire F_Util M_Prefix S_Prefix M_Nlri S_Nlri F_Nlri M_Vpls S_Vpls F_Lay.
Ltac Zify.zify_post_hook ::= idtac.

(** ** VPLS items *)
Lemma l2a_extract_wire oc x : l2a_wf x ->
  l2a_extract oc (length (l2a_wire x)) (l2a_wire x) = Ok x.
Proof.
  destruct x as [rd st of rg ls]. intros (Hr & H1 & H2 & H3 & Hs & Hk). cbn [l2a_rd l2a_site l2a_offset l2a_range l2a_labels] in *.
  assert (Hn : ls <> []) by apply Hs.
  assert (Hl : (1 <= length ls)%nat) by (destruct ls; [congruence|cbn; lia]).
  set (w := l2a_wire _).
  assert (E : w = concat [rd_wire rd; be_bytes 2 st; be_bytes 2 of; be_bytes 2 rg; stack_wire ls; []]).
  { unfold w, l2a_wire. cbn [l2a_rd l2a_site l2a_offset l2a_range l2a_labels concat]. now rewrite !app_nil_r. }
  assert (L : length w = (14 + 3 * length ls)%nat) by (rewrite E; len_simpl; lia).
  unfold l2a_extract. rewrite L. replace (Nat.ltb _ 17) with false by (symmetry; apply Nat.ltb_ge; lia).
  rewrite E. rewrite decode_rd_seg by auto. rewrite bind_ok.
  rewrite (rfrom_seg' _ 4 14 (stack_wire ls ++ [])) by seg. rewrite bind_ok.
  replace (cast 8 _) with (24 * N.of_nat (length ls)).
  2:{ unfold cast. rewrite N.mod_small; change (2 ^ 8) with 256; lia. }
  rewrite labels_extract_wire by (auto; lia). rewrite bind_ok.
  rewrite (rslice_seg _ 1 8 10 (be_bytes 2 st)) by seg. rewrite bind_ok.
  rewrite getn_u16_exact by exact H1. rewrite bind_ok.
  rewrite (rslice_seg _ 2 10 12 (be_bytes 2 of)) by seg. rewrite bind_ok.
  rewrite getn_u16_exact by exact H2. rewrite bind_ok.
  rewrite (rslice_seg _ 3 12 14 (be_bytes 2 rg)) by seg. rewrite bind_ok.
  rewrite getn_u16_exact by exact H3. reflexivity.
Qed.

Lemma length_l2a x : length (l2a_wire x) = (14 + 3 * length (l2a_labels x))%nat.
Proof. unfold l2a_wire. len_simpl. lia. Qed.

Lemma l2a_pack_writes x : l2a_labels x <> [] -> writes (l2a_pack x) (l2a_wire x) (length (l2a_wire x)).
Proof.
  intros Hn. assert (Hl : (1 <= length (l2a_labels x))%nat) by (destruct (l2a_labels x); [congruence|cbn; lia]).
  unfold l2a_pack. apply writes_elen_guard; [rewrite length_l2a; lia|].
  rewrite length_l2a. unfold l2a_wire.
  eapply writes_next; [apply writes_encode_rd|rewrite length_rd_wire; reflexivity|].
  eapply writes_next; [apply writes_on_slice; [now rewrite length_be_bytes|lia|apply writes_setn_u16]|rewrite length_be_bytes; reflexivity|].
  eapply writes_next; [apply writes_on_slice; [now rewrite length_be_bytes|lia|apply writes_setn_u16]|rewrite length_be_bytes; reflexivity|].
  eapply writes_next; [apply writes_on_slice; [now rewrite length_be_bytes|lia|apply writes_setn_u16]|rewrite length_be_bytes; reflexivity|].
  eapply writes_at_map; [apply writes_on_from, writes_labels_set|].
  intros. cbn beta iota. unfold eret. do 2 f_equal. lia.
Qed.

(** ** properly framed lists decode *)
Lemma l2a_len_small x : l2a_wf x -> (length (l2a_wire x) < 50)%nat.
Proof. intros (_ & _ & _ & _ & _ & H). rewrite length_l2a. lia. Qed.
Lemma decode_long_item_ok oc x rest : l2a_wf x ->
  decode_long_item (l2a_extract oc) (long_wire l2a_wire x ++ rest) = Ok (x, length (long_wire l2a_wire x)).
Proof.
  intros H. pose proof (l2a_len_small x H) as Hl. unfold decode_long_item, long_wire.
  set (n := length (l2a_wire x)) in *.
  assert (E : (be_bytes 2 (N.of_nat n) ++ l2a_wire x) ++ rest = concat [be_bytes 2 (N.of_nat n); l2a_wire x; rest]).
  { cbn [concat]. now rewrite app_nil_r, app_assoc. }
  rewrite E. rewrite (rslice_seg _ 0 0 2 (be_bytes 2 (N.of_nat n))) by seg. rewrite bind_ok.
  rewrite getn_u16_exact by lia.
  rewrite bind_ok, Nat2N.id. rewrite (rslice_seg _ 1 2 (n + 2) (l2a_wire x)).
  - rewrite bind_ok. unfold n. rewrite l2a_extract_wire by auto. rewrite bind_ok. do 2 f_equal.
    rewrite app_length, length_be_bytes. lia.
  - reflexivity.
  - now rewrite <- (length_be_bytes 2 (N.of_nat n)) at 2; cbn [firstn concat]; rewrite app_nil_r.
  - unfold n. lia.
Qed.
Lemma vpls_list_decode oc v : Forall l2a_wf v ->
  decode_long_bgpitems_from (l2a_extract oc) (flat_map (long_wire l2a_wire) v) =
  Ok (v, length (flat_map (long_wire l2a_wire) v)).
Proof.
  intros H. rewrite Forall_forall in H.
  pose proof (decode_addritems (decode_long_item (l2a_extract oc)) (long_wire l2a_wire) (fun x => x) v) as D.
  rewrite map_id in D. apply D.
  - intros x rest Hx. apply decode_long_item_ok. auto.
  - intros x Hx. unfold long_wire. rewrite app_length, length_be_bytes. lia.
Qed.

(** a one-item list: right bytes, wrong count *)
Lemma vpls_single x : l2a_wf x ->
  writes (encode_long_bgpitems_to l2a_pack [x]) (long_wire l2a_wire x) (length (l2a_wire x)).
Proof.
  intros H. pose proof (l2a_len_small x H) as Hl. unfold encode_long_bgpitems_to, long_wire. cbn [enc_long_items].
  destruct H as (_ & _ & _ & _ & Hs & _). destruct Hs as [Hs _].
  eapply writes_at_bind_rev.
  - rewrite length_be_bytes. apply writes_on_from. now apply l2a_pack_writes.
  - apply writes_at_map with (a := tt).
    + apply writes_on_slice; [now rewrite length_be_bytes|lia|].
      eapply writes_at_eq; [apply writes_setn_u16|..]; try reflexivity.
      unfold cast. rewrite N.mod_small; [reflexivity|]. change (2 ^ 16) with 65536. lia.
    + intros. unfold eret. reflexivity.
Qed.

(** ** the count is wrong for every non-empty list *)
Lemma ebind_Ok_inv {A B} (m : Enc A) (f : A -> Enc B) buf r :
  ebind m f buf = Ok r -> exists a b, m buf = Ok (a, b) /\ f a b = Ok r.
Proof. unfold ebind. destruct (m buf) as [[a b]| | |]; try discriminate. eauto. Qed.
Lemma on_from_Ok_inv {A} n (e : Enc A) buf a out :
  on_from n e buf = Ok (a, out) -> exists o, e (skipn n buf) = Ok (a, o) /\ out = firstn n buf ++ o /\ (n <= length buf)%nat.
Proof.
  unfold on_from. destruct (Nat.leb_spec n (length buf)) as [L|L]; [|discriminate].
  destruct (e (skipn n buf)) as [[x b]| | |]; try discriminate. intros H. injection H as -> <-. eauto.
Qed.
Lemma labels_write_count v : forall p buf n out, labels_write v p buf = Ok (n, out) -> n = (p + 3 * length v)%nat.
Proof.
  induction v as [|l v IH]; intros p buf n out H; cbn [labels_write] in H.
  - unfold eret in H. injection H as <- <-. cbn. lia.
  - do 3 (apply ebind_Ok_inv in H as (? & ? & _ & H)). apply IH in H. cbn [length]. lia.
Qed.
Lemma labels_set_count v buf b n out : labels_set v buf = Ok (b, n, out) -> n = (3 * length v)%nat.
Proof.
  unfold labels_set. destruct v as [|l v]; intros H.
  - unfold eret in H. injection H as <- <- <-. reflexivity.
  - apply ebind_Ok_inv in H as (c & b1 & H1 & H). apply labels_write_count in H1.
    apply ebind_Ok_inv in H as (? & ? & _ & H). unfold eret in H. injection H as _ <- _. exact H1.
Qed.
Lemma l2a_pack_count x buf n out : l2a_pack x buf = Ok (n, out) -> n = length (l2a_wire x).
Proof.
  unfold l2a_pack. intros H. apply ebind_Ok_inv in H as (? & ? & _ & H).
  destruct (Nat.ltb _ 15); [discriminate|].
  do 4 (apply ebind_Ok_inv in H as (? & ? & _ & H)).
  apply ebind_Ok_inv in H as ([b m] & ? & H1 & H). apply on_from_Ok_inv in H1 as (? & H1 & _).
  apply labels_set_count in H1. unfold eret in H. injection H as <- <-. rewrite length_l2a. lia.
Qed.
Definition sizes (v : list addrL2) : nat := list_sum (map (fun x => length (l2a_wire x)) v).
Lemma enc_long_count v : forall p buf n out, enc_long_items l2a_pack v p buf = Ok (n, out) -> n = (p + sizes v)%nat.
Proof.
  induction v as [|x v IH]; intros p buf n out H; cbn [enc_long_items] in H.
  - unfold eret in H. injection H as <- <-. cbn. lia.
  - apply ebind_Ok_inv in H as (sz & ? & H1 & H). apply on_from_Ok_inv in H1 as (? & H1 & _). apply l2a_pack_count in H1.
    apply ebind_Ok_inv in H as (? & ? & _ & H). apply IH in H. unfold sizes in *. cbn [map list_sum fold_right].
    fold (list_sum (map (fun x => length (l2a_wire x)) v)). lia.
Qed.
Lemma idx_Ok_lt {A} (l : list A) i b : idx l i = Ok b -> (i < length l)%nat.
Proof. unfold idx. destruct (nth_error l i) eqn:E; [|discriminate]. intros _. apply nth_error_Some. congruence. Qed.
Lemma labels_loop_room oc : forall fuel left buf p ls q, labels_loop oc fuel left buf p = Ok (ls, q) ->
  (p <= length buf)%nat -> (p + 3 * length ls <= length buf)%nat.
Proof.
  induction fuel as [|fuel IH]; intros left buf p ls q H Hp; [discriminate|]. cbn [labels_loop] in H.
  destruct (0 <? left).
  - apply bind_Ok_inv in H as (b0 & _ & H). apply bind_Ok_inv in H as (b1 & _ & H).
    apply bind_Ok_inv in H as (b2 & I2 & H). apply idx_Ok_lt in I2.
    apply bind_Ok_inv in H as (lb & _ & H).
    destruct (label_ends _); [injection H as <- <-; cbn; lia|].
    apply bind_Ok_inv in H as (b & _ & H).
    destruct (negb _); [injection H as <- <-; cbn; lia|].
    apply bind_Ok_inv in H as ([v q'] & H1 & H). injection H as <- <-.
    apply IH in H1; cbn [length]; lia.
  - injection H as <- <-. cbn. lia.
Qed.
Lemma l2a_extract_room oc size buf x : length buf = size -> l2a_extract oc size buf = Ok x ->
  (length (l2a_wire x) <= size)%nat.
Proof.
  intros L H. unfold l2a_extract in H. destruct (Nat.ltb_spec size 17) as [|L17]; [discriminate|].
  apply bind_Ok_inv in H as ([rd k] & _ & H). apply bind_Ok_inv in H as (s & S & H).
  apply rfrom_Ok_inv in S as [_ ->].
  apply bind_Ok_inv in H as ([ls q] & S & H). apply labels_loop_room in S; [|lia].
  rewrite skipn_length in S.
  do 6 (apply bind_Ok_inv in H as (? & _ & H)). injection H as <-. rewrite length_l2a. cbn [l2a_labels]. lia.
Qed.
Lemma dec_long_room oc : forall fuel buf p v q,
  dec_loop (decode_long_item (l2a_extract oc)) fuel buf p = Ok (v, q) -> (p <= length buf)%nat ->
  (p + sizes v + 2 * length v <= length buf)%nat.
Proof.
  induction fuel as [|fuel IH]; intros buf p v q H Hp; [discriminate|]. cbn [dec_loop] in H.
  destruct (Nat.ltb_spec p (length buf)) as [L|L].
  - apply bind_Ok_inv in H as (s & S & H). apply rfrom_Ok_inv in S as [_ ->].
    apply bind_Ok_inv in H as ([x n] & D & H). apply bind_Ok_inv in H as ([v' q'] & R & H). injection H as <- <-.
    unfold decode_long_item in D. apply bind_Ok_inv in D as (s & _ & D). apply bind_Ok_inv in D as (l & _ & D).
    apply bind_Ok_inv in D as (d & S & D). apply rslice_Ok_inv in S as (S1 & S2 & ->). rewrite skipn_length in S2.
    apply bind_Ok_inv in D as (y & X & D). injection D as <- <-.
    apply l2a_extract_room in X.
    2:{ unfold sub. rewrite firstn_length, !skipn_length. lia. }
    apply IH in R; [|lia]. unfold sizes in *. cbn [map list_sum fold_right length].
    fold (list_sum (map (fun x => length (l2a_wire x)) v')). lia.
  - injection H as <- <-. cbn. lia.
Qed.
Lemma vpls_refuted oc v buf n out m : v <> [] ->
  encode_long_bgpitems_to l2a_pack v buf = Ok (n, out) ->
  decode_long_bgpitems_from (l2a_extract oc) (firstn n out) <> Ok (v, m).
Proof.
  intros Hv E D. apply enc_long_count in E. apply dec_long_room in D; [|lia].
  rewrite firstn_length in D. destruct v; [congruence|]. cbn [length] in D. lia.
Qed.

(** ** BgpL2 *)
Lemma l2_roundtrip x : l2_wf x -> writes (l2_encode x) (l2_wire x) 14%nat /\
  forall rest, l2_decode (l2_wire x ++ rest) = Ok (x, 14%nat).
Proof.
  destruct x as [rd st of rg]. intros (Hr & H1 & H2 & H3). cbn [l2_rd l2_site l2_offset l2_range] in *. split.
  - unfold l2_encode, l2_wire. cbn [l2_rd l2_site l2_offset l2_range].
    eapply writes_next; [apply writes_encode_rd|rewrite length_rd_wire; reflexivity|].
    eapply writes_next; [apply writes_on_from, writes_setn_u16|rewrite length_be_bytes; reflexivity|].
    eapply writes_next; [apply writes_on_from, writes_setn_u16|rewrite length_be_bytes; reflexivity|].
    eapply writes_at_map; [apply writes_on_from, writes_setn_u16|]. reflexivity.
  - intros rest. unfold l2_wire. cbn [l2_rd l2_site l2_offset l2_range].
    set (w := _ ++ rest).
    assert (E : w = concat [rd_wire rd; be_bytes 2 st; be_bytes 2 of; be_bytes 2 rg; rest]).
    { unfold w. cbn [concat]. now rewrite !app_nil_r, <- !app_assoc. }
    assert (L : (14 <= length w)%nat) by (rewrite E; len_simpl; lia).
    unfold l2_decode. apply Nat.leb_le in L. rewrite L. rewrite E.
    rewrite (rslice_seg _ 0 0 8 (rd_wire rd)) by seg. rewrite bind_ok.
    rewrite decode_rd_exact by auto. rewrite bind_ok.
    rewrite (rslice_seg _ 1 8 10 (be_bytes 2 st)) by seg. rewrite bind_ok.
    rewrite getn_u16_exact by exact H1. rewrite bind_ok.
    rewrite (rslice_seg _ 2 10 12 (be_bytes 2 of)) by seg. rewrite bind_ok.
    rewrite getn_u16_exact by exact H2. rewrite bind_ok.
    rewrite (rslice_seg _ 3 12 14 (be_bytes 2 rg)) by seg. rewrite bind_ok.
    rewrite getn_u16_exact by exact H3. reflexivity.
Qed.

(** ** MDT *)
Lemma length_pfx K a len : len <= 8 * N.of_nat K ->
  length (firstn (prefix_octets len) (be_bytes K a)) = prefix_octets len.
Proof. intros H. pose proof (prefix_octets_le len K H). rewrite firstn_length, length_be_bytes. lia. Qed.
Lemma fill_pfx K dec a len rest : dec_spec K dec -> len <= 8 * N.of_nat K -> a < 2 ^ (8 * N.of_nat K) ->
  (bf <- fill_zeroed K (prefix_octets len) (firstn (prefix_octets len) (be_bytes K a) ++ rest) ;; dec bf) =
  Ok (keep_octets (8 * N.of_nat K) len a).
Proof.
  intros HD Hl Ha. pose proof (prefix_octets_le len K Hl) as Hk. pose proof (length_pfx K a len Hl) as Hlen.
  rewrite fill_zeroed_ok by (rewrite ?app_length; lia). rewrite bind_ok.
  rewrite firstn_app_exact by exact Hlen. rewrite HD.
  - rewrite be_val_keep by auto. reflexivity.
  - apply Forall_app; split; [apply Forall_firstn, be_bytes_ok|apply bytes_ok_zeros].
  - rewrite app_length, repeat_length. lia.
Qed.

Lemma mdt4_codec oc : codec_ok oc mdt4_extract mdt4_set mdt4_wf mdt4_wire mdt4_trunc.
Proof.
  intros [[a len] g] [[Ha Hl] Hg]. cbn [mdt4_addr mdt4_group v4_addr v4_len] in *.
  pose proof (prefix_octets_le len 4 Hl) as Hk. pose proof (length_pfx 4 a len Hl) as Hlen.
  unfold mdt4_wire, v4_wire. cbn [mdt4_addr mdt4_group v4_addr v4_len fst snd].
  split.
  - unfold mdt4_set. cbn [mdt4_addr mdt4_group v4_addr v4_len].
    eapply (writes_next 0 _ _ _ _ (prefix_octets len)); [|rewrite Hlen; reflexivity|].
    + destruct (N.ltb_spec 0 len) as [E|E].
      * rewrite bits_bytes_ok by (clear - Hl; lia). intros buf Hb. unfold elift, ebind.
        unfold octets4. rewrite rslice_ok by (rewrite ?length_be_bytes; lia).
        unfold sub. rewrite Nat.sub_0_r. cbn [skipn].
        rewrite (writes_at_write_at 0) by lia. reflexivity.
      * replace len with 0 by (clear - E; lia). apply writes_at_ret.
    + cbn [plus]. eapply writes_at_map; [apply writes_at_write_at|]. intros.
      rewrite uadd_ok by (change (2 ^ 8) with 256; clear - Hl; lia). unfold elift, ebind, eret.
      do 3 f_equal. rewrite app_length, Hlen, length_be_bytes. reflexivity.
  - intros rest. unfold mdt4_extract.
    replace (32 <=? len + 32) with true by (symmetry; apply N.leb_le; clear; lia).
    replace (len + 32 <=? 128) with true by (symmetry; apply N.leb_le; clear - Hl; lia). cbn [andb negb].
    rewrite <- app_assoc.
    destruct (N.eqb_spec (len + 32) 32) as [E|E].
    + assert (len = 0) by (clear - E; lia). subst len. change (prefix_octets 0) with 0%nat. cbn [firstn app].
      rewrite decode_addrv4_be by auto. rewrite length_be_bytes. cbn [bind decode_addrv4_from].
      unfold mdt4_trunc. cbn [mdt4_addr mdt4_group v4_trunc v4_addr v4_len].
      unfold v4_trunc, keep_octets. cbn [v4_addr v4_len]. change (32 - _) with 32.
      rewrite N.div_small by exact Ha. reflexivity.
    + rewrite usub_ok by (clear; lia). rewrite bind_ok. rewrite N.add_sub.
      rewrite bits_bytes_ok by (clear - Hl; lia). rewrite bind_ok, <- bind_assoc.
      rewrite (fill_pfx 4 _ a len _ dec_spec4) by auto. rewrite bind_ok.
      rewrite rfrom_ok by (rewrite app_length; lia). rewrite bind_ok, skipn_app_exact by exact Hlen.
      rewrite decode_addrv4_be by auto. rewrite bind_ok. rewrite app_length, Hlen, length_be_bytes. reflexivity.
Qed.

Lemma mdt6_codec oc : codec_ok oc mdt6_extract mdt6_set (fun x => mdt6_wf x /\ v6_len (mdt6_addr x) <= 126) mdt6_wire mdt6_trunc.
Proof.
  intros [[a len] g] [[[Ha _] Hg] Hl']. cbn [mdt6_addr mdt6_group v6_addr v6_len] in *.
  assert (Hl : len <= 128) by (clear - Hl'; lia).
  pose proof (prefix_octets_le len 16 Hl) as Hk. pose proof (length_pfx 16 a len Hl) as Hlen.
  unfold mdt6_wire, v6_wire. cbn [mdt6_addr mdt6_group v6_addr v6_len fst snd].
  split.
  - unfold mdt6_set. cbn [mdt6_addr mdt6_group v6_addr v6_len].
    eapply (writes_next 0 _ _ _ _ (prefix_octets len)); [|rewrite Hlen; reflexivity|].
    + destruct (N.ltb_spec 0 len) as [E|E].
      * rewrite bits_bytes_ok by (clear - Hl; lia). intros buf Hb. unfold elift, ebind.
        unfold octets16. rewrite rslice_ok by (rewrite ?length_be_bytes; lia).
        unfold sub. rewrite Nat.sub_0_r. cbn [skipn].
        rewrite (writes_at_write_at 0) by lia. reflexivity.
      * replace len with 0 by (clear - E; lia). apply writes_at_ret.
    + cbn [plus]. eapply writes_at_map; [apply writes_at_write_at|]. intros.
      rewrite uadd_ok by (change (2 ^ 8) with 256; clear - Hl'; lia). unfold elift, ebind, eret.
      do 3 f_equal. rewrite app_length, Hlen, length_be_bytes. reflexivity.
  - intros rest. unfold mdt6_extract.
    replace (128 <=? len + 128) with true by (symmetry; apply N.leb_le; clear; lia).
    replace (len + 128 <=? 254) with true by (symmetry; apply N.leb_le; clear - Hl'; lia). cbn [andb negb].
    rewrite <- app_assoc.
    destruct (N.eqb_spec (len + 128) 128) as [E|E].
    + assert (len = 0) by (clear - E; lia). subst len. change (prefix_octets 0) with 0%nat. cbn [firstn app].
      rewrite decode_addrv6_be by auto. rewrite length_be_bytes.
      change (decode_addrv6_from (repeat 0 16)) with (Ok 0). cbn [bind].
      unfold mdt6_trunc, v6_trunc, keep_octets. cbn [mdt6_addr mdt6_group v6_addr v6_len]. change (128 - _) with 128.
      rewrite N.div_small by exact Ha. reflexivity.
    + rewrite usub_ok by (clear; lia). rewrite bind_ok. rewrite N.add_sub.
      rewrite bits_bytes_ok by (clear - Hl; lia). rewrite bind_ok, <- bind_assoc.
      rewrite (fill_pfx 16 _ a len _ dec_spec6) by auto. rewrite bind_ok.
      rewrite rfrom_ok by (rewrite app_length; lia). rewrite bind_ok, skipn_app_exact by exact Hlen.
      rewrite decode_addrv6_be by auto. rewrite bind_ok. rewrite app_length, Hlen, length_be_bytes. reflexivity.
Qed.

(** with an RD the total always fits for IPv4 *)
Lemma mdt4_fits x : withrd_wf mdt4_wf x -> fits (withrd_wire mdt4_wire) x.
Proof.
  intros [_ [[_ H] _]]. unfold fits, withrd_wire, mdt4_wire. cbn [fst]. lia.
Qed.
Lemma mdt4_rd_codec oc : codec_ok oc (withrd_extract mdt4_extract) (withrd_set mdt4_set) (withrd_wf mdt4_wf)
  (withrd_wire mdt4_wire) (fun x => mkWRD (mdt4_trunc (wrd_prefix x)) (wrd_rd x)).
Proof.
  intros x H. apply (withrd_codec oc _ _ _ _ _ (mdt4_codec oc)). split; [exact H|now apply mdt4_fits].
Qed.
Definition mdt6_rd_wf (x : withRd mdtV6) : Prop := withrd_wf mdt6_wf x /\ v6_len (mdt6_addr (wrd_prefix x)) <= 63.
Lemma mdt6_rd_codec oc : codec_ok oc (withrd_extract mdt6_extract) (withrd_set mdt6_set) mdt6_rd_wf
  (withrd_wire mdt6_wire) (fun x => mkWRD (mdt6_trunc (wrd_prefix x)) (wrd_rd x)).
Proof.
  intros x [[H1 H2] H3]. apply (withrd_codec oc _ _ _ _ _ (mdt6_codec oc)). split.
  - split; [exact H1|]. split; [exact H2|]. clear - H3. lia.
  - unfold fits, withrd_wire, mdt6_wire. cbn [fst]. clear - H3. lia.
Qed.

(** *** where IPv6 MDT fails *)
Lemma mdt6_set_inv oc x buf b n out : mdt6_set oc x buf = Ok (b, n, out) ->
  uadd oc 8 (v6_len (mdt6_addr x)) 128 = Ok b.
Proof.
  unfold mdt6_set. intros H. apply ebind_Ok_inv in H as (? & ? & _ & H). apply ebind_Ok_inv in H as (? & ? & _ & H).
  apply ebind_Ok_inv in H as (c & ? & H1 & H). unfold elift in H1.
  destruct (uadd _ _ _ _); try discriminate. injection H1 as -> _. unfold eret in H. injection H as <- _ _. reflexivity.
Qed.
Lemma mdt6_refuted oc oc' x buf b n out rest : mdt6_wf x -> 127 <= v6_len (mdt6_addr x) ->
  mdt6_set oc x buf = Ok (b, n, out) -> mdt6_extract oc' b rest = Err EOther.
Proof.
  intros [[_ H] _] H1 E. apply mdt6_set_inv in E. unfold uadd in E. revert E. change (2 ^ 8) with 256.
  destruct (N.ltb_spec (v6_len (mdt6_addr x) + 128) 256) as [L|L]; intros E.
  - assert (b = 255) as -> by (injection E as <-; clear - L H1; lia). reflexivity.
  - destruct oc; [discriminate|]. assert (Z : v6_len (mdt6_addr x) = 128) by (clear - H H1 L; lia).
    rewrite Z in E. injection E as <-. reflexivity.
Qed.
Lemma withrd6_refuted x buf : mdt6_wf (wrd_prefix x) -> 64 <= v6_len (mdt6_addr (wrd_prefix x)) ->
  is_ok (withrd_set mdt6_set true x buf) = false.
Proof.
  intros _ H. destruct (withrd_set mdt6_set true x buf) as [[[b n] out]| | |] eqn:E; try reflexivity. exfalso.
  unfold withrd_set in E. apply ebind_Ok_inv in E as (rn & b1 & E1 & E).
  assert (rn = 8%nat).
  { unfold encode_rd_to in E1. apply ebind_Ok_inv in E1 as (? & ? & _ & E1).
    apply ebind_Ok_inv in E1 as (? & ? & _ & E1). unfold eret in E1. now injection E1. }
  subst rn. apply ebind_Ok_inv in E as ([pb pn] & b2 & E2 & E). apply on_from_Ok_inv in E2 as (o & E2 & _).
  apply mdt6_set_inv in E2. unfold uadd in E2. revert E2. change (2 ^ 8) with 256.
  destruct (N.ltb_spec (v6_len (mdt6_addr (wrd_prefix x)) + 128) 256) as [L|L]; [|discriminate].
  intros E2. injection E2 as <-. apply ebind_Ok_inv in E as (c & b3 & E3 & E). unfold elift, uadd in E3.
  change (cast 8 (N.of_nat 8 * 8)) with 64 in E3.
  replace (64 + (v6_len (mdt6_addr (wrd_prefix x)) + 128) <? 2 ^ 8) with false in E3; [discriminate|].
  symmetry. apply N.ltb_ge. change (2 ^ 8) with 256. clear - H. lia.
Qed.

(** ** forms used by the theorems *)
Lemma vpls_single_count x : l2a_wf x ->
  writes (encode_long_bgpitems_to l2a_pack [x]) (long_wire l2a_wire x) (length (long_wire l2a_wire x) - 2)%nat.
Proof.
  intros H. eapply writes_at_eq; [apply vpls_single, H|..]; auto.
Qed.
Lemma codec_lists {T} oc (ex : extractor T) st wf W nm : codec_ok oc ex st wf W nm -> forall v buf, Forall wf v ->
  (length (items_wire W v) <= length buf)%nat ->
  encode_bgpitems_to oc st v buf = Ok (length (items_wire W v), items_wire W v ++ skipn (length (items_wire W v)) buf) /\
  decode_bgpitems_from oc ex (items_wire W v) = Ok (map nm v, length (items_wire W v)).
Proof.
  intros H v buf Hv Hb. split; [|eapply items_decode; eauto].
  exact (proj1 (writes_spec _ _ _) (items_encode oc ex st wf W nm v H Hv) buf Hb).
Qed.
Lemma mdt4_trunc_id x : v4_wf (mdt4_addr x) -> v4_clean (mdt4_addr x) -> mdt4_trunc x = x.
Proof. destruct x as [p g]. intros H1 H2. unfold mdt4_trunc. cbn [mdt4_addr mdt4_group] in *. now rewrite trunc4_id. Qed.
Lemma mdt6_trunc_id x : v6_wf (mdt6_addr x) -> v6_clean (mdt6_addr x) -> mdt6_trunc x = x.
Proof. destruct x as [p g]. intros H1 H2. unfold mdt6_trunc. cbn [mdt6_addr mdt6_group] in *. now rewrite trunc6_id. Qed.
