(** Proofs about capabilities. *)
From Verif Require Import Base BaseFacts M_Util F_Util M_Cap S_Cap.
Ltac Zify.zify_post_hook ::= idtac.

Ltac des_buf buf n :=
  match n with
  | O => idtac
  | S ?m => let b := fresh "b" in
            destruct buf as [|b buf]; [exfalso; cbn in *; lia|]; des_buf buf m
  end.

(** ** entries *)
Lemma length_gr_wire g : length (gr_wire g) = 4%nat.
Proof. reflexivity. Qed.
Lemma length_ap_wire g : length (ap_wire g) = 4%nat.
Proof. reflexivity. Qed.
Lemma length_ll_wire g : length (ll_wire g) = 7%nat.
Proof. reflexivity. Qed.

Lemma setn_u16_2 s a b : setn_u16 s [a; b] = Ok (tt, be_bytes 2 s).
Proof.
  rewrite (writes_setn_u16 s [a; b]) by (cbn; lia). now rewrite splice_full.
Qed.

Lemma head2_run s a b l :
  on_slice 0 2 (setn_u16 s) (a :: b :: l) = Ok (tt, be_bytes 2 s ++ l).
Proof.
  unfold on_slice. cbn [Nat.leb length andb].
  change (sub (a :: b :: l) 0 2) with [a; b]. rewrite setn_u16_2. reflexivity.
Qed.

Lemma writes_gr g : writes (gr_encode g) (gr_wire g) tt.
Proof.
  intros buf H. rewrite length_gr_wire in H. des_buf buf 4%nat.
  unfold gr_encode. cbv [ebind elen]. cbn [length Nat.ltb Nat.leb].
  rewrite head2_run. unfold gr_wire, splice. destruct (gr_fwd g); reflexivity.
Qed.

Lemma writes_ap g : writes (ap_encode g) (ap_wire g) tt.
Proof.
  intros buf H. rewrite length_ap_wire in H. des_buf buf 4%nat.
  unfold ap_encode. cbv [ebind elen]. cbn [length Nat.ltb Nat.leb].
  rewrite head2_run. unfold ap_wire, splice.
  destruct (ap_send g), (ap_receive g); reflexivity.
Qed.

Lemma writes_ll g : ll_wf g -> writes (llgr_encode g) (ll_wire g) tt.
Proof.
  intros (_ & _ & _ & Hs) buf H. rewrite length_ll_wire in H. des_buf buf 7%nat.
  unfold llgr_encode. cbv [ebind elen]. cbn [length Nat.ltb Nat.leb].
  unfold exceeds24. replace (2 ^ 24 <=? ll_stale g) with false by (symmetry; apply N.leb_gt; exact Hs).
  rewrite head2_run. unfold ll_wire, splice. reflexivity.
Qed.

Lemma gr_dec g : gr_wf g -> gr_decode (gr_wire g) = Ok g.
Proof.
  intros [H1 H2]. unfold gr_decode. rewrite length_gr_wire. cbn [Nat.ltb Nat.leb].
  rewrite rslice_ok by (rewrite ?length_gr_wire; lia). cbn [bind].
  change (sub (gr_wire g) 0 2) with (be_bytes 2 (gr_afi g) ++ []).
  rewrite getn_u16_be by exact H1. cbn [bind]. unfold gr_wire.
  cbn [be_bytes app idx nth_error bind]. destruct g as [a s []]; reflexivity.
Qed.
Lemma ap_dec g : ap_wf g -> ap_decode (ap_wire g) = Ok g.
Proof.
  intros [H1 H2]. unfold ap_decode. rewrite length_ap_wire. cbn [Nat.ltb Nat.leb].
  rewrite rslice_ok by (rewrite ?length_ap_wire; lia). cbn [bind].
  change (sub (ap_wire g) 0 2) with (be_bytes 2 (ap_afi g) ++ []).
  rewrite getn_u16_be by exact H1. cbn [bind]. unfold ap_wire.
  cbn [be_bytes app idx nth_error bind]. destruct g as [a s [] []]; reflexivity.
Qed.

Lemma be3_val n : n < 2 ^ 24 ->
  N.shiftl ((n / 2 ^ 16) mod 256) 16 + n mod 2 ^ 16 = n.
Proof.
  intros H. rewrite N.shiftl_mul_pow2.
  rewrite (N.mod_small (n / 2 ^ 16)).
  - rewrite N.mul_comm. symmetry. apply N.div_mod. discriminate.
  - apply N.div_lt_upper_bound; [discriminate|exact H].
Qed.

Lemma getn_u16_mod s rest : getn_u16 (be_bytes 2 s ++ rest) = Ok (s mod 2 ^ 16).
Proof.
  rewrite <- (be_bytes_mod 2 s 16) by (cbn; lia). apply getn_u16_be. apply N.mod_lt. discriminate.
Qed.

Lemma ll_dec g : ll_wf g -> llgr_decode (ll_wire g) = Ok g.
Proof.
  intros (H1 & H2 & H3 & H4). unfold llgr_decode. rewrite length_ll_wire. cbn [Nat.ltb Nat.leb].
  rewrite rslice_ok by (rewrite ?length_ll_wire; lia). cbn [bind].
  change (sub (ll_wire g) 0 2) with (be_bytes 2 (ll_afi g) ++ []).
  rewrite getn_u16_be by exact H1. cbn [bind].
  rewrite rslice_ok by (rewrite ?length_ll_wire; lia).
  change (sub (ll_wire g) 5 7) with (be_bytes 2 (ll_stale g) ++ []).
  cbn [bind]. rewrite getn_u16_mod.
  change (idx (ll_wire g) 2) with (Ok (ll_safi g)).
  change (idx (ll_wire g) 3) with (Ok (ll_flags g)).
  change (idx (ll_wire g) 4) with (Ok ((ll_stale g / 2 ^ 16) mod 256)).
  cbn [bind].
  rewrite be3_val by exact H4. now destruct g.
Qed.

(** decoding any block of the right size succeeds *)
Lemma gr_dec_total s : length s = 4%nat ->
  exists c, gr_decode s = Ok c /\ (bytes_ok s -> gr_wf c).
Proof.
  intros H. unfold gr_decode. rewrite H. cbn [Nat.ltb Nat.leb].
  do 5 (destruct s; try discriminate H). cbn. eexists. split; [reflexivity|].
  intros B. inversion B as [|? ? B0 B']; subst. inversion B' as [|? ? B1 B2]; subst.
  inversion B2 as [|? ? B3 ?]; subst. split; cbn; auto.
  rewrite lor_shiftl by exact B1. change (2 ^ 8) with 256.
  unfold is_byte in *. clear - B0 B1. lia.
Qed.
Lemma ap_dec_total s : length s = 4%nat ->
  exists c, ap_decode s = Ok c /\ (bytes_ok s -> ap_wf c).
Proof.
  intros H. unfold ap_decode. rewrite H. cbn [Nat.ltb Nat.leb].
  do 5 (destruct s; try discriminate H). cbn -[N.land]. eexists. split; [reflexivity|].
  intros B. inversion B as [|? ? B0 B']; subst. inversion B' as [|? ? B1 B2]; subst.
  inversion B2 as [|? ? B3 ?]; subst. split; cbn; auto.
  rewrite lor_shiftl by exact B1. change (2 ^ 8) with 256.
  unfold is_byte in *. clear - B0 B1. lia.
Qed.
Lemma ll_dec_total s : length s = 7%nat ->
  exists c, llgr_decode s = Ok c /\ (bytes_ok s -> ll_wf c).
Proof.
  intros H. unfold llgr_decode. rewrite H. cbn [Nat.ltb Nat.leb].
  do 8 (destruct s; try discriminate H). cbn -[N.shiftl N.lor N.add]. eexists. split; [reflexivity|].
  intros B. repeat match goal with B : bytes_ok (_ :: _) |- _ => inversion B; clear B; subst
                   | B : Forall _ (_ :: _) |- _ => inversion B; clear B; subst end.
  unfold is_byte in *. unfold ll_wf. cbn -[N.shiftl N.lor N.add N.pow].
  rewrite !lor_shiftl by assumption. rewrite N.shiftl_mul_pow2.
  change (2 ^ 8) with 256. change (2 ^ 16) with 65536. change (2 ^ 24) with 16777216.
  repeat split; auto; lia.
Qed.

(** ** entry sequences *)
Section Entries.
  Context {T : Type} (k : nat) (P : T -> Prop) (w : T -> list N).
  Hypothesis Hw : forall c, length (w c) = k.

  Lemma length_entries v : length (concat (map w v)) = (k * length v)%nat.
  Proof. induction v; cbn; [lia|]. rewrite app_length, Hw, IHv. lia. Qed.

  Lemma writes_entries (enc : T -> Enc unit) (Henc : forall c, P c -> writes (enc c) (w c) tt) v :
    Forall P v -> forall cp, writes_at cp (fill_entries k enc v cp) (concat (map w v)) tt.
  Proof.
    induction 1 as [|c v Hc Hv IH]; intros cp; cbn [fill_entries map concat].
    - apply writes_at_ret.
    - apply (writes_at_bind cp _ _ _ _ tt).
      + apply writes_on_slice; [rewrite Hw; lia|lia|auto].
      + rewrite Hw. apply IH.
  Qed.

  Lemma entries_wire (dec : list N -> res T) (Hdec : forall c, P c -> dec (w c) = Ok c) (Hk : (0 < k)%nat) v :
    Forall P v -> forall fuel pre, (length v <= fuel)%nat ->
    entries_loop k dec fuel (pre ++ concat (map w v)) (length pre) = Ok v.
  Proof.
    induction 1 as [|c v Hc Hv IH]; intros fuel pre Hf.
    - cbn [map concat]. rewrite app_nil_r.
      destruct fuel; cbn [entries_loop]; now rewrite Nat.ltb_irrefl.
    - cbn [length] in Hf. destruct fuel; [lia|]. cbn [map concat entries_loop].
      assert (E : Nat.ltb (length pre) (length (pre ++ w c ++ concat (map w v))) = true).
      { apply Nat.ltb_lt. rewrite !app_length, Hw. lia. }
      rewrite E.
      rewrite rslice_ok by (rewrite ?app_length, ?Hw; lia). cbn [bind].
      assert (S : sub (pre ++ w c ++ concat (map w v)) (length pre) (length pre + k) = w c).
      { apply sub_app_exact; rewrite ?Hw; lia. }
      rewrite S, Hdec by auto. cbn [bind].
      specialize (IH fuel (pre ++ w c)). rewrite app_length, Hw, <- app_assoc in IH.
      rewrite IH by lia. reflexivity.
  Qed.

  Lemma entries_total (dec : list N -> res T)
    (Hdec : forall s, length s = k -> exists c, dec s = Ok c /\ (bytes_ok s -> P c)) (Hk : (0 < k)%nat) m :
    forall fuel data cp, length data = (cp + k * m)%nat -> (m <= fuel)%nat ->
    exists v, entries_loop k dec fuel data cp = Ok v /\ length v = m /\ (bytes_ok data -> Forall P v).
  Proof.
    induction m as [|m IH]; intros fuel data cp Hl Hf.
    - exists []. destruct fuel; cbn [entries_loop];
        (replace (Nat.ltb cp (length data)) with false by (symmetry; apply Nat.ltb_ge; lia)); auto.
    - destruct fuel; [lia|]. cbn [entries_loop].
      replace (Nat.ltb cp (length data)) with true by (symmetry; apply Nat.ltb_lt; lia).
      rewrite rslice_ok by lia. cbn [bind].
      destruct (Hdec (sub data cp (cp + k))) as [c [E Hc]]; [rewrite length_sub by lia; lia|].
      rewrite E. cbn [bind].
      destruct (IH fuel data (cp + k)%nat) as [v [E2 [L Hv]]]; [lia|lia|].
      rewrite E2. cbn [bind]. exists (c :: v). cbn. repeat split; auto.
      intros B. constructor; auto. apply Hc. now apply Forall_sub.
  Qed.
End Entries.

(** ** fill_buffer *)
Lemma set_idx_0 x a l : set_idx 0 x (a :: l) = Ok (tt, x :: l).
Proof. reflexivity. Qed.
Lemma set_idx_1 x a b l : set_idx 1 x (a :: b :: l) = Ok (tt, a :: x :: l).
Proof. reflexivity. Qed.
Lemma clone_ok bs buf : length buf = length bs -> clone_from_slice bs buf = Ok (tt, bs).
Proof. intros H. unfold clone_from_slice. now rewrite (proj2 (Nat.eqb_eq _ _) H). Qed.

Lemma length_payload c : length (cap_payload c) =
  match c with
  | CapMP _ => 4 | CapGR _ _ v => 2 + 4 * length v | CapASN32 _ => 4
  | CapAddPath v => 4 * length v | CapLLGR v => 7 * length v
  | CapFQDN h d => 2 + length h + length d | _ => 0
  end%nat.
Proof.
  destruct c; cbn [cap_payload]; rewrite ?app_length, ?length_be_bytes; try reflexivity.
  - now rewrite (length_entries 4 gr_wf gr_wire length_gr_wire).
  - apply (length_entries 4 ap_wf ap_wire length_ap_wire).
  - apply (length_entries 7 ll_wf ll_wire length_ll_wire).
  - cbn [length]. rewrite app_length. cbn. lia.
Qed.

Lemma bytes_len_wire c : bytes_len c = length (cap_wire c).
Proof.
  unfold cap_wire. cbn [length]. rewrite length_payload. destruct c; cbn; lia.
Qed.

Lemma gr_time_hi t : t < 4096 -> N.lor ((t / 2 ^ 8) mod 256) 128 = ((32768 + t) / 2 ^ 8) mod 256.
Proof.
  intros H. rewrite N.lor_comm.
  assert (H1 : t / 2 ^ 8 < 16) by (apply N.div_lt_upper_bound; [discriminate|exact H]).
  rewrite (N.mod_small (t / 2 ^ 8)) by (clear - H1; lia).
  rewrite (lor_disj 7) by (try reflexivity; change (2 ^ 7) with 128; clear - H1; lia).
  replace (32768 + t) with (t + 128 * 2 ^ 8) by (change (128 * 2 ^ 8) with 32768; lia).
  rewrite N.div_add by discriminate. rewrite N.mod_small by (clear - H1; lia). lia.
Qed.
Lemma gr_time_lo t : ((32768 + t) / 2 ^ 0) mod 256 = (t / 2 ^ 0) mod 256.
Proof.
  rewrite N.pow_0_r, !N.div_1_r. replace (32768 + t) with (t + 128 * 256) by lia.
  now rewrite N.mod_add by discriminate.
Qed.

Lemma fill_tail {T} k (P : T -> Prop) w enc v cp pre buf :
  (forall c, length (w c) = k) -> (forall c, P c -> writes (enc c) (w c) tt) -> Forall P v ->
  cp = length pre -> length buf = length (concat (map w v)) ->
  fill_entries k enc v cp (pre ++ buf) = Ok (tt, pre ++ concat (map w v)).
Proof.
  intros Hw He Hv -> Hl. rewrite (writes_entries k P w Hw enc He v Hv).
  - unfold splice. rewrite firstn_app_exact by reflexivity.
    rewrite skipn_all2 by (rewrite app_length; lia). now rewrite app_nil_r.
  - rewrite app_length. lia.
Qed.

Lemma cast8_small n : (n < 256)%nat -> cast 8 (N.of_nat n) = N.of_nat n.
Proof. intros. unfold cast. apply N.mod_small. change (2 ^ 8) with 256. lia. Qed.

Lemma fill_ok c buf : cap_wf c -> ~ is_fqdn c -> length buf = length (cap_wire c) ->
  fill_buffer c buf = Ok (tt, cap_wire c).
Proof.
  intros [Hp Hlen] Hf Hb.
  assert (E : Nat.ltb (length buf) (bytes_len c) = false)
    by (apply Nat.ltb_ge; rewrite bytes_len_wire; lia).
  unfold fill_buffer. cbv [ebind elen]. rewrite E. clear E.
  pose proof (length_payload c) as Hpl. unfold cap_wire in *. cbn [length] in Hb.
  destruct c as [s|st t v|n| |v| |v|h d| ].
  - replace (cap_code (CapMP s) :: N.of_nat (length (cap_payload (CapMP s))) :: cap_payload (CapMP s))
      with (safi_bytes s) by (destruct s; reflexivity).
    apply clone_ok. rewrite Hb, Hpl. destruct s; reflexivity.
  - destruct Hp as [Ht Hv]. rewrite Hpl in *. des_buf buf 4%nat.
    replace (4096 <=? t) with false by (symmetry; apply N.leb_gt; exact Ht).
    replace (cast 8 (2 + 4 * N.of_nat (length v))) with (N.of_nat (2 + 4 * length v))
      by (rewrite <- (cast8_small (2 + 4 * length v)) by exact Hlen; f_equal; lia).
    rewrite set_idx_0, set_idx_1.
    assert (E : forall x y l, on_slice 2 4 (setn_u16 t) (x :: y :: b1 :: b2 :: l)
                = Ok (tt, [x; y] ++ be_bytes 2 t ++ l)).
    { intros. rewrite (writes_on_slice 2 4 (setn_u16 t) (be_bytes 2 t) tt); [reflexivity|reflexivity|lia| |cbn; lia].
      apply writes_setn_u16. }
    rewrite E. cbv beta iota. clear E.
    assert (Hl : length buf = length (concat (map gr_wire v))).
    { rewrite (length_entries 4 gr_wf gr_wire length_gr_wire). cbn in Hb. lia. }
    assert (G : forall pre, length pre = 4%nat -> fill_entries 4 gr_encode v 4 (pre ++ buf) =
       Ok (tt, pre ++ concat (map gr_wire v))).
    { intros. apply (fill_tail 4 gr_wf); auto using length_gr_wire. intros; apply writes_gr. }
    destruct st.
    + change (upd_idx 2 (fun x => N.lor x 128) ([64; N.of_nat (2 + 4 * length v)] ++ be_bytes 2 t ++ buf))
        with (Ok (tt, [64; N.of_nat (2 + 4 * length v); N.lor ((t / 2 ^ 8) mod 256) 128; (t / 2 ^ 0) mod 256] ++ buf)).
      cbv beta iota. rewrite G by reflexivity.
      rewrite gr_time_hi, <- gr_time_lo by exact Ht. reflexivity.
    + unfold eret.
      change ([64; N.of_nat (2 + 4 * length v)] ++ be_bytes 2 t ++ buf)
        with ([64; N.of_nat (2 + 4 * length v); (t / 2 ^ 8) mod 256; (t / 2 ^ 0) mod 256] ++ buf).
      rewrite G by reflexivity. reflexivity.
  - rewrite clone_ok by (rewrite Hb, Hpl; reflexivity).
    unfold cast. rewrite !land_255, !N.shiftr_div_pow2. cbn [cap_code cap_payload].
    rewrite length_be_bytes. cbn [be_bytes]. change (2 ^ 8) with 256 at 1.
    rewrite N.pow_0_r, N.div_1_r. reflexivity.
  - apply clone_ok. rewrite Hb, Hpl. reflexivity.
  - cbn [payload_wf] in Hp. rewrite Hpl in *. des_buf buf 2%nat.
    replace (cast 8 (4 * N.of_nat (length v))) with (N.of_nat (4 * length v))
      by (rewrite <- (cast8_small (4 * length v)) by exact Hlen; f_equal; lia).
    rewrite set_idx_0, set_idx_1.
    change (69 :: N.of_nat (4 * length v) :: buf) with ([69; N.of_nat (4 * length v)] ++ buf).
    rewrite (fill_tail 4 ap_wf ap_wire); auto using length_ap_wire, writes_ap.
    rewrite (length_entries 4 ap_wf ap_wire length_ap_wire). cbn in Hb. lia.
  - apply clone_ok. rewrite Hb, Hpl. reflexivity.
  - cbn [payload_wf] in Hp. rewrite Hpl in *. des_buf buf 2%nat.
    replace (cast 8 (7 * N.of_nat (length v))) with (N.of_nat (7 * length v))
      by (rewrite <- (cast8_small (7 * length v)) by exact Hlen; f_equal; lia).
    rewrite set_idx_0, set_idx_1.
    change (71 :: N.of_nat (7 * length v) :: buf) with ([71; N.of_nat (7 * length v)] ++ buf).
    rewrite (fill_tail 7 ll_wf ll_wire); auto using length_ll_wire, writes_ll.
    rewrite (length_entries 7 ll_wf ll_wire length_ll_wire). cbn in Hb. lia.
  - exfalso. apply Hf. now exists h, d.
  - apply clone_ok. rewrite Hb, Hpl. reflexivity.
Qed.

(** ** from_buffer *)
Lemma from_buffer_frame code data rest : (length data < 256)%nat ->
  from_buffer (code :: N.of_nat (length data) :: data ++ rest) =
  (o <- from_type_and_data code data ;;
   match o with
   | Some cap => Ok (inl cap, 2 + length data)%nat
   | None => Ok (inr (code, data), 2 + length data)%nat
   end).
Proof.
  intros H. unfold from_buffer.
  replace (Nat.ltb (length (code :: N.of_nat (length data) :: data ++ rest)) 2) with false by reflexivity.
  cbn [idx nth_error bind]. rewrite Nat2N.id.
  destruct (Nat.ltb_spec (length (code :: N.of_nat (length data) :: data ++ rest)) (length data + 2)) as [L|_].
  { exfalso. cbn [length] in L. rewrite app_length in L. lia. }
  rewrite rslice_ok by (cbn [length]; rewrite ?app_length; lia). cbn [bind].
  replace (sub (code :: N.of_nat (length data) :: data ++ rest) 2 (2 + length data)) with data.
  - reflexivity.
  - symmetry. apply (sub_app_exact [code; N.of_nat (length data)]); cbn; lia.
Qed.

Lemma land3_mod n : Nat.land n 3 = (n mod 4)%nat.
Proof.
  change 3%nat with (2 ^ 2 - 1)%nat. now rewrite Nat.sub_1_r, <- Nat.ones_equiv, Nat.land_ones.
Qed.

Lemma from_td_ok c : cap_wf c -> ~ is_fqdn c ->
  from_type_and_data (cap_code c) (cap_payload c) = Ok (Some c).
Proof.
  intros [Hp Hlen] Hf. destruct c as [s|st t v|n| |v| |v|h d| ]; try reflexivity.
  - destruct s; reflexivity.
  - destruct Hp as [Ht Hv].
    pose proof (length_payload (CapGR st t v)) as Hpl. cbv beta iota in Hpl.
    unfold from_type_and_data. cbn [cap_code N.eqb Pos.eqb]. rewrite Hpl.
    replace (Nat.ltb (2 + 4 * length v) 2) with false by (symmetry; apply Nat.ltb_ge; lia).
    replace (2 + 4 * length v - 2)%nat with (length v * 4)%nat by lia.
    rewrite Nat.mod_mul by discriminate. cbn [Nat.eqb negb orb].
    rewrite rslice_ok by lia.
    set (tt := if st then 32768 + t else t).
    change (sub (cap_payload (CapGR st t v)) 0 2) with (be_bytes 2 tt ++ []).
    assert (Htt : tt < 2 ^ 16) by (unfold tt; change (2 ^ 16) with 65536; destruct st; lia).
    cbn [bind]. rewrite getn_u16_be by exact Htt.
    change (idx (cap_payload (CapGR st t v)) 0) with (Ok ((tt / 2 ^ 8) mod 256)). cbn [bind].
    change (cap_payload (CapGR st t v)) with (be_bytes 2 tt ++ concat (map gr_wire v)).
    pose proof (entries_wire 4 gr_wf gr_wire length_gr_wire gr_decode gr_dec ltac:(lia) v Hv
              (2 + 4 * length v) (be_bytes 2 tt) ltac:(lia)) as EW.
    change (length (be_bytes 2 tt)) with 2%nat in EW. rewrite EW.
    cbn [bind].
    assert (E1 : negb (N.land ((tt / 2 ^ 8) mod 256) 128 =? 0) = st).
    { unfold tt. destruct st.
      - rewrite <- gr_time_hi by exact Ht.
        rewrite N.land_lor_distr_l, N.land_diag.
        destruct (N.lor (N.land _ 128) 128 =? 0) eqn:E; auto.
        apply N.eqb_eq, N.lor_eq_0_iff in E. destruct E; discriminate.
      - assert (H1 : t / 2 ^ 8 < 16) by (apply N.div_lt_upper_bound; [discriminate|exact Ht]).
        rewrite N.mod_small by (clear - H1; lia).
        assert (E : N.land (t / 2 ^ 8) 128 = 0).
        { remember (t / 2 ^ 8) as x. assert (Hx : x < 256) by (clear - H1; lia).
          pose proof (byte_sweep (fun x => (16 <=? x) || (N.land x 128 =? 0)) eq_refl x Hx) as S.
          cbv beta in S. apply orb_prop in S as [S|S].
          - apply N.leb_le in S. clear - S H1. lia.
          - now apply N.eqb_eq in S. }
        now rewrite E. }
    assert (E2 : N.land tt 4095 = t).
    { change 4095 with (2 ^ 12 - 1). rewrite land_mask. unfold tt. destruct st.
      - replace (32768 + t) with (t + 8 * 2 ^ 12) by (change (8 * 2 ^ 12) with 32768; lia).
        rewrite N.mod_add by discriminate. apply N.mod_small. exact Ht.
      - apply N.mod_small. exact Ht. }
    now rewrite E1, E2.
  - cbn [cap_payload cap_code]. unfold from_type_and_data. cbn [N.eqb Pos.eqb].
    rewrite length_be_bytes. cbn [Nat.eqb negb].
    rewrite <- (app_nil_r (be_bytes 4 n)). now rewrite getn_u32_be by exact Hp.
  - unfold from_type_and_data. cbn [cap_code N.eqb Pos.eqb].
    rewrite length_payload, land3_mod.
    replace ((4 * length v) mod 4)%nat with 0%nat
      by (rewrite Nat.mul_comm; symmetry; now apply Nat.mod_mul).
    cbn [Nat.eqb negb].
    pose proof (entries_wire 4 ap_wf ap_wire length_ap_wire ap_decode ap_dec ltac:(lia) v Hp
              (4 * length v) [] ltac:(lia)) as EW. cbn [length app] in EW.
    cbn [cap_payload]. now rewrite EW.
  - unfold from_type_and_data. cbn [cap_code N.eqb Pos.eqb].
    rewrite length_payload. replace (7 * length v)%nat with (length v * 7)%nat by lia.
    rewrite Nat.mod_mul by discriminate. cbn [Nat.eqb negb].
    pose proof (entries_wire 7 ll_wf ll_wire length_ll_wire llgr_decode ll_dec ltac:(lia) v Hp
              (length v * 7) [] ltac:(lia)) as EW. cbn [length app] in EW.
    cbn [cap_payload]. now rewrite EW.
  - exfalso. apply Hf. now exists h, d.
Qed.

Lemma cap_decode_wire c rest : cap_wf c -> ~ is_fqdn c ->
  from_buffer (cap_wire c ++ rest) = Ok (inl c, length (cap_wire c)).
Proof.
  intros Hwf Hf. unfold cap_wire. cbn [app].
  rewrite from_buffer_frame by apply Hwf. rewrite from_td_ok by auto. reflexivity.
Qed.

(** ** totality *)

Inductive td_spec (code : N) (data : list N) : res (option bgpcap) -> Prop :=
| td_err : td_spec code data (Err EOther)
| td_none : (~ In code known_codes \/
             code = 1 /\ length data = 4%nat /\
             (forall s, data <> cap_payload (CapMP s))) -> td_spec code data (Ok None)
| td_some c : code = cap_code c -> (bytes_ok data -> payload_wf c) ->
              (length data = length (cap_payload c)) ->
              (match c with CapFQDN h d => data = cap_payload c /\ d = [] | _ => True end) ->
              td_spec code data (Ok (Some c)).

Lemma mult_of n k : (k <> 0)%nat -> (n mod k = 0)%nat -> exists m, n = (k * m)%nat.
Proof. intros Hk H. exists (n / k)%nat. rewrite (Nat.div_mod n k Hk) at 1. lia. Qed.

Lemma safi_of_spec b0 b1 b2 b3 :
  match safi_of_bytes b0 b1 b2 b3 with
  | Some s => [b0; b1; b2; b3] = cap_payload (CapMP s)
  | None => forall s, [b0; b1; b2; b3] <> cap_payload (CapMP s)
  end.
Proof.
  unfold safi_of_bytes.
  destruct (negb ((b0 =? 0) && (b2 =? 0))) eqn:E0.
  { intros s H. apply negb_true_iff, andb_false_iff in E0.
    destruct E0 as [E0|E0]; apply N.eqb_neq in E0; apply E0; destruct s; injection H; auto. }
  apply negb_false_iff, andb_prop in E0 as [A0 A2]. apply N.eqb_eq in A0, A2. subst b0 b2.
  repeat match goal with
  | |- context [if ?x =? ?y then _ else _] =>
      let E := fresh "E" in destruct (N.eqb_spec x y) as [E|E]; [try subst x|]
  end; try reflexivity.
  all: intros s H; destruct s; vm_compute in H; injection H; intros; subst; congruence.
Qed.

Lemma td_total code data : td_spec code data (from_type_and_data code data).
Proof.
  unfold from_type_and_data.
  destruct (N.eqb_spec code 1) as [->|N1].
  { destruct (Nat.eqb_spec (length data) 4) as [E|E]; cbn [negb]; [|constructor].
    do 5 (destruct data as [|? data]; try discriminate E).
    pose proof (safi_of_spec n n0 n1 n2) as S.
    destruct (safi_of_bytes n n0 n1 n2).
    - apply td_some; cbn; auto.
    - apply td_none. right. auto. }
  destruct (N.eqb_spec code 2) as [->|N2].
  { destruct data; cbn; [apply td_some; cbn; auto|constructor]. }
  destruct (N.eqb_spec code 64) as [->|N3].
  { destruct (Nat.ltb_spec (length data) 2) as [E|E]; cbn [orb]; [constructor|].
    destruct (Nat.eqb_spec ((length data - 2) mod 4) 0) as [M|M]; cbn [negb]; [|constructor].
    apply mult_of in M as [m M]; [|discriminate].
    destruct (entries_total 4 gr_wf gr_wire length_gr_wire gr_decode gr_dec_total ltac:(lia) m (length data) data 2) as [v [E1 [E2 E3]]]; [lia|lia|].
    destruct data as [|a [|b data]]; cbn in E; try lia.
    cbn [idx nth_error bind]. rewrite rslice_ok by (cbn; lia).
    change (sub (a :: b :: data) 0 2) with [a; b]. cbn [bind getn_u16 idx nth_error].
    rewrite E1. cbn [bind]. apply td_some; auto.
    - intros B. split; auto. change 4095 with (2 ^ 12 - 1). rewrite land_mask.
      apply N.mod_lt. discriminate.
    - rewrite length_payload, E2. cbn [length] in *; lia. }
  destruct (N.eqb_spec code 65) as [->|N4].
  { destruct (Nat.eqb_spec (length data) 4) as [E|E]; cbn [negb]; [|constructor].
    do 5 (destruct data as [|? data]; try discriminate E).
    cbn [getn_u32 idx nth_error bind]. apply td_some; auto.
    intros B. pose proof (getn_u32_ok _ B ltac:(cbn; lia)) as G.
    cbn [getn_u32 idx nth_error bind firstn] in G. injection G as G. cbn [payload_wf].
    rewrite G. apply (be_val_bound [n; n0; n1; n2]). exact B. }
  destruct (N.eqb_spec code 69) as [->|N5].
  { rewrite land3_mod.
    destruct (Nat.eqb_spec (length data mod 4) 0) as [M|M]; cbn [negb]; [|constructor].
    apply mult_of in M as [m M]; [|discriminate].
    destruct (entries_total 4 ap_wf ap_wire length_ap_wire ap_decode ap_dec_total ltac:(lia) m (length data) data 0) as [v [E1 [E2 E3]]]; [lia|lia|].
    rewrite E1. cbn [bind]. apply td_some; auto. rewrite length_payload. lia. }
  destruct (N.eqb_spec code 70) as [->|N6].
  { destruct data; cbn; [apply td_some; cbn; auto|constructor]. }
  destruct (N.eqb_spec code 71) as [->|N7].
  { destruct (Nat.eqb_spec (length data mod 7) 0) as [M|M]; cbn [negb]; [|constructor].
    apply mult_of in M as [m M]; [|discriminate].
    destruct (entries_total 7 ll_wf ll_wire length_ll_wire llgr_decode ll_dec_total ltac:(lia) m (length data) data 0) as [v [E1 [E2 E3]]]; [lia|lia|].
    rewrite E1. cbn [bind]. apply td_some; auto. rewrite length_payload. lia. }
  destruct (N.eqb_spec code 73) as [->|N8].
  { rewrite rfrom_ok by lia. cbn [bind skipn]. destruct data as [|h data]; [constructor|].
    cbn [idx nth_error bind]. rewrite rfrom_ok by (cbn; lia). cbn [bind skipn].
    destruct (Nat.ltb_spec (length data) (N.to_nat h)) as [L|L]; [constructor|].
    rewrite rslice_ok by (cbn [length]; lia). cbn [bind].
    unfold from_utf8 at 1.
    destruct (utf8_ok (sub (h :: data) 1 (1 + N.to_nat h))) eqn:U; [|constructor]. cbn [bind].
    rewrite rfrom_ok by (cbn [length]; lia). cbn [bind].
    destruct (skipn (1 + N.to_nat h) (h :: data)) as [|d rest] eqn:Sk; [constructor|].
    assert (Hi : idx (h :: data) (1 + N.to_nat h) = Ok d).
    { unfold idx. rewrite <- (Nat.add_0_r (1 + N.to_nat h)), <- nth_error_skipn, Sk. reflexivity. }
    rewrite Hi. cbn [bind].
    assert (Hl : (1 + N.to_nat h + S (length rest) = length (h :: data))%nat).
    { apply (f_equal (@length N)) in Sk. rewrite skipn_length in Sk. cbn [length] in *. lia. }
    rewrite rfrom_ok by (cbn [length] in *; lia). cbn [bind].
    destruct (Nat.ltb_spec (length (skipn (1 + N.to_nat h + 1) (h :: data))) (N.to_nat d)) as [L2|L2]; [constructor|].
    rewrite skipn_length in L2.
    rewrite rslice_ok by (cbn [length] in *; lia). cbn [bind].
    unfold from_utf8. destruct (utf8_ok (sub (h :: data) (1 + N.to_nat h + 1) (1 + N.to_nat h + 1 + N.to_nat d))) eqn:U2; [|constructor].
    cbn [bind].
    destruct (skipn (1 + N.to_nat h + 1) (h :: data)) as [|x y] eqn:Sk2; [|constructor].
    assert (Hr : length rest = 0%nat).
    { apply (f_equal (@length N)) in Sk2. rewrite skipn_length in Sk2. cbn [length] in *. lia. }
    apply length_zero_iff_nil in Hr. subst rest.
    assert (Hd : N.to_nat d = 0%nat) by (cbn [length] in *; lia).
    assert (d = 0) by lia. subst d.
    assert (Hs : sub (h :: data) (1 + N.to_nat h + 1) (1 + N.to_nat h + 1 + N.to_nat 0) = []).
    { apply length_zero_iff_nil. rewrite length_sub by (cbn [length] in *; lia). cbn. lia. }
    rewrite Hs.
    cbn [skipn] in Sk.
    assert (Hsub : sub (h :: data) 1 (1 + N.to_nat h) = firstn (N.to_nat h) data).
    { unfold sub. cbn [skipn]. f_equal. lia. }
    rewrite Hsub in *.
    assert (Hdat : h :: data = cap_payload (CapFQDN (firstn (N.to_nat h) data) [])).
    { cbn [cap_payload length]. rewrite firstn_length, Nat.min_l by lia. rewrite N2Nat.id.
      f_equal. cbn [Nat.add skipn] in Sk. change (N.of_nat 0) with 0.
      rewrite <- Sk. symmetry. apply firstn_skipn. }
    apply td_some; auto.
    - intros B. cbn [payload_wf]. repeat split; auto; [|constructor].
      inversion B; subst. now apply Forall_firstn.
    - now rewrite <- Hdat. }
  destruct (N.eqb_spec code 74) as [->|N9].
  { destruct data; cbn; [apply td_some; cbn; auto|constructor]. }
  apply td_none. left. cbn. intuition.
Qed.

Lemma from_buffer_cases buf :
  match from_buffer buf with
  | Ok (r, n) =>
      (2 <= n <= length buf)%nat /\
      (exists code l rest, buf = code :: l :: rest /\ n = (2 + N.to_nat l)%nat /\
       let data := firstn (N.to_nat l) rest in
       length data = N.to_nat l /\
       match r with
       | inl c => code = cap_code c /\ (bytes_ok buf -> payload_wf c) /\
                  length data = length (cap_payload c) /\
                  match c with CapFQDN h d => data = cap_payload c /\ d = [] | _ => True end
       | inr (co, dat) => co = code /\ dat = data /\
            (~ In code known_codes \/ code = 1 /\ length data = 4%nat /\
               forall s, data <> cap_payload (CapMP s))
       end)
  | Err _ => True
  | Panic | OutOfFuel => False
  end.
Proof.
  destruct buf as [|code [|l rest]]; [exact I|exact I|].
  unfold from_buffer.
  replace (Nat.ltb (length (code :: l :: rest)) 2) with false by reflexivity.
  cbn [idx nth_error bind].
  destruct (Nat.ltb_spec (length (code :: l :: rest)) (N.to_nat l + 2)) as [L|L]; [exact I|].
  rewrite rslice_ok by (cbn [length] in *; lia). cbn [bind].
  assert (Hs : sub (code :: l :: rest) 2 (2 + N.to_nat l) = firstn (N.to_nat l) rest).
  { unfold sub. cbn [skipn]. f_equal. lia. }
  rewrite Hs. cbn [length] in L.
  assert (Hl : length (firstn (N.to_nat l) rest) = N.to_nat l) by (rewrite firstn_length; lia).
  pose proof (td_total code (firstn (N.to_nat l) rest)) as T.
  destruct T as [|T|c Tc Tw Tl Tf]; cbn [bind]; [exact I| |].
  - split; [cbn [length]; lia|]. exists code, l, rest. repeat split; auto.
  - split; [cbn [length]; lia|]. exists code, l, rest. repeat split; auto.
    intros B. apply Tw. apply Forall_firstn. inversion B as [|? ? _ B']; inversion B'; auto.
Qed.

Lemma cap_decoded_wf buf c n : bytes_ok buf -> from_buffer buf = Ok (inl c, n) ->
  cap_wf c /\ n = length (cap_wire c).
Proof.
  intros B E. pose proof (from_buffer_cases buf) as C. rewrite E in C.
  destruct C as [Hn (code & l & rest & -> & -> & Hl & Hc & Hw & Hp & _)].
  unfold cap_wire. cbn [length]. rewrite <- Hp, Hl. split; [|lia].
  split; auto. rewrite <- Hp, Hl.
  inversion B as [|? ? _ B']; inversion B' as [|? ? Hb _]; subst. unfold is_byte in Hb. lia.
Qed.

(** ** FQDN never survives *)
Lemma fqdn_fill h d buf : length buf = bytes_len (CapFQDN h d) ->
  exists u v, fill_buffer (CapFQDN h d) buf =
    Ok (tt, 73 :: h ++ cast 8 (N.of_nat (length d)) :: d ++ [u; v]).
Proof.
  intros Hb. unfold fill_buffer. cbv [ebind elen]. rewrite Hb, Nat.ltb_irrefl. cbv zeta.
  cbn [bytes_len] in Hb.
  assert (Hsplit : exists b0 m1 b1 m2 u v, buf = b0 :: m1 ++ b1 :: m2 ++ [u; v] /\ length m1 = length h /\ length m2 = length d).
  { destruct buf as [|b0 buf]; [cbn in Hb; lia|].
    exists b0, (firstn (length h) buf).
    pose proof (firstn_skipn (length h) buf) as F.
    assert (L1 : length (firstn (length h) buf) = length h) by (rewrite firstn_length; cbn in Hb; lia).
    assert (L2 : length (skipn (length h) buf) = (3 + length d)%nat) by (rewrite skipn_length; cbn in Hb; lia).
    destruct (skipn (length h) buf) as [|b1 r] eqn:Sk; [cbn in L2; lia|].
    pose proof (firstn_skipn (length d) r) as F2.
    assert (L3 : length (firstn (length d) r) = length d) by (rewrite firstn_length; cbn in L2; lia).
    assert (L4 : length (skipn (length d) r) = 2%nat) by (rewrite skipn_length; cbn in L2; lia).
    destruct (skipn (length d) r) as [|u [|v [|]]] eqn:Sk2; try discriminate L4.
    exists b1, (firstn (length d) r), u, v. rewrite F2, F. auto. }
  destruct Hsplit as (b0 & m1 & b1 & m2 & u & v & -> & L1 & L2). clear Hb.
  exists u, v. rewrite set_idx_0.
  assert (E1 : exists m1' b1', set_idx 1 (cast 8 (N.of_nat (length h))) (73 :: m1 ++ b1 :: m2 ++ [u; v])
     = Ok (tt, 73 :: m1' ++ b1' :: m2 ++ [u; v]) /\ length m1' = length h).
  { destruct m1 as [|x m1]; cbn [app]; rewrite set_idx_1.
    - exists [], (cast 8 (N.of_nat (length h))). auto.
    - exists (cast 8 (N.of_nat (length h)) :: m1), b1. auto. }
  destruct E1 as (m1' & b1' & -> & L1').
  assert (W : forall pre x mid post, length mid = length x ->
     write_at (length pre) x (pre ++ mid ++ post) = Ok (tt, pre ++ x ++ post)).
  { intros pre x mid post Hm. rewrite (writes_at_write_at (length pre) x) by (rewrite !app_length; lia).
    unfold splice. rewrite firstn_app_exact by reflexivity.
    rewrite <- skipn_skipn', skipn_app_exact by reflexivity.
    now rewrite skipn_app_exact by auto. }
  pose proof (W [73] h m1' (b1' :: m2 ++ [u; v]) L1') as W1. cbn [length app] in W1. rewrite W1.
  set (dl := cast 8 (N.of_nat (length d))).
  pose proof (writes_at_set_idx (1 + length h) dl) as W2.
  unfold writes_at in W2. rewrite W2 by (cbn [length]; rewrite !app_length; cbn [length]; lia).
  assert (S2 : splice (1 + length h) [dl] (73 :: h ++ b1' :: m2 ++ [u; v]) = 73 :: h ++ dl :: m2 ++ [u; v]).
  { unfold splice. change (73 :: h ++ b1' :: m2 ++ [u; v]) with ((73 :: h) ++ [b1'] ++ m2 ++ [u; v]).
    rewrite firstn_app_exact by reflexivity.
    rewrite <- skipn_skipn', skipn_app_exact by reflexivity. reflexivity. }
  rewrite S2.
  pose proof (W (73 :: h ++ [dl]) d m2 [u; v] L2) as W3.
  cbn [length app] in W3. rewrite app_length in W3. cbn [length] in W3.
  rewrite <- !app_assoc in W3. cbn [app] in W3.
  replace (1 + length h + 1)%nat with (S (length h + 1)) by lia. exact W3.
Qed.

Lemma fqdn_never h d buf out rest n :
  length buf = bytes_len (CapFQDN h d) ->
  fill_buffer (CapFQDN h d) buf = Ok (tt, out) ->
  from_buffer (out ++ rest) <> Ok (inl (CapFQDN h d), n).
Proof.
  intros Hb Hf Hd. destruct (fqdn_fill h d buf Hb) as (u & v & E). rewrite E in Hf.
  injection Hf as <-. clear E Hb.
  pose proof (from_buffer_cases ((73 :: h ++ cast 8 (N.of_nat (length d)) :: d ++ [u; v]) ++ rest)) as C.
  rewrite Hd in C. destruct C as [_ (code & l & r & Eb & _ & Hl & _ & _ & _ & Ep & ->)].
  set (k := length h) in *.
  cbn [length] in Eb. change (cast 8 (N.of_nat 0)) with 0 in Eb.
  cbn [app] in Eb. rewrite <- app_assoc in Eb. cbn [app] in Eb.
  injection Eb as <- Eb. cbn [cap_payload length] in Ep. change (N.of_nat 0) with 0 in Ep. fold k in Ep.
  (* Eb : h ++ 0 :: u :: v :: rest = l :: r ; Ep : firstn l r = k :: h ++ [0] *)
  assert (Hk : forall i, (i < k)%nat -> nth_error (h ++ 0 :: u :: v :: rest) (i + 2) = nth_error h i).
  { intros i Hi. rewrite Eb. cbn [nth_error]. replace (i + 2)%nat with (S (S i)) by lia. cbn [nth_error].
    assert (E : nth_error (firstn (N.to_nat l) r) (S i) = nth_error h i).
    { rewrite Ep. cbn [nth_error]. now rewrite nth_error_app1. }
    rewrite <- E.
    assert (HL : (S i < length (firstn (N.to_nat l) r))%nat).
    { rewrite Ep. cbn [length]. rewrite app_length. fold k. lia. }
    pose proof (nth_error_app1 (firstn (N.to_nat l) r) (skipn (N.to_nat l) r) HL) as X. rewrite firstn_skipn in X. exact X. }
  assert (H1 : nth_error (h ++ 0 :: u :: v :: rest) 1 = Some (N.of_nat k)).
  { rewrite Eb. cbn [nth_error]. rewrite <- (firstn_skipn (N.to_nat l) r), Ep. reflexivity. }
  assert (H0 : nth_error (h ++ 0 :: u :: v :: rest) 0 <> Some 0).
  { rewrite Eb. cbn. intros X. injection X as ->. discriminate Ep. }
  assert (Z : forall j i, (i + 2 * j = k)%nat -> nth_error (h ++ 0 :: u :: v :: rest) i = Some 0).
  { induction j as [|j IH]; intros i Hi.
    - rewrite nth_error_app2 by (fold k; lia). fold k. replace (i - k)%nat with 0%nat by lia. reflexivity.
    - rewrite nth_error_app1 by (fold k; lia). rewrite <- Hk by lia. apply IH. lia. }
  destruct (Nat.Even_or_Odd k) as [[j Hj]|[j Hj]].
  - apply H0. apply (Z j). lia.
  - rewrite (Z j 1%nat) in H1 by lia. injection H1 as H1. lia.
Qed.

Lemma from_buffer_unknown code data rest : ~ In code known_codes -> (length data < 256)%nat ->
  from_buffer (code :: N.of_nat (length data) :: data ++ rest) =
  Ok (inr (code, data), 2 + length data)%nat.
Proof.
  intros Hc Hl. rewrite from_buffer_frame by exact Hl.
  unfold from_type_and_data. cbn in Hc.
  repeat match goal with |- context [if code =? ?k then _ else _] =>
    destruct (N.eqb_spec code k); [exfalso; apply Hc; subst; tauto|] end.
  reflexivity.
Qed.
