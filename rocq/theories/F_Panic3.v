(** Proofs of exactly which octets make the NLRI decoders panic (C102): EVPN, FlowSpec, every family. *)
From Verif Require Import Base BaseFacts M_Util S_Wire F_Util M_Prefix S_Prefix M_Nlri S_Nlri F_Nlri F_Nlri2 M_Session M_Vpls F_Vpls M_Mvpn S_Mvpn F_Mvpn M_Evpn S_Evpn F_Evpn
  M_Flowspec S_Flowspec F_Flowspec M_Cap M_Addrs S_Addrs M_Attr S_Attr S_Attr3 F_Lay F_Attr3 F_Attr4 S_Exact F_Exact F_Exact2 F_Exact3 F_Exact4 S_Panic F_Panic F_Panic2.
Ltac Zify.zify_post_hook ::= idtac.

(** ** EVPN *)
Lemma rd_ok b : (8 <= length b)%nat -> exists rd, decode_rd_from b = Ok (rd, 8%nat).
Proof.
  intros L. unfold decode_rd_from. destruct (Nat.leb_spec 8 (length b)) as [_|X]; [|lia].
  do 8 (destruct b as [|? b]; [cbn [length] in L; lia|]). eexists. reflexivity.
Qed.
Lemma rd_short b : (length b < 8)%nat -> decode_rd_from b = Err EOther.
Proof. intros L. unfold decode_rd_from. destruct (Nat.leb_spec 8 (length b)) as [X|_]; [lia|reflexivity]. Qed.
Lemma esi_long s : (10 <= length s)%nat -> exists t e, esi_read s = Ok (t, e).
Proof. intros L. unfold esi_read. destruct s as [|t s]; [cbn in L; lia|]. rewrite idx_0, bind_ok, rslice_ok by lia. rewrite bind_ok. eauto. Qed.
Lemma esi_short s : (length s < 10)%nat -> esi_read s = Panic.
Proof.
  intros L. unfold esi_read. destruct s as [|t s]; [reflexivity|]. rewrite idx_0, bind_ok. apply bind_Panic. left. apply rslice_Panic. lia.
Qed.
Lemma u32_long b i : (i + 4 <= length b)%nat -> exists v, u32_at b i (i + 4) = Ok v.
Proof.
  intros L. unfold u32_at. rewrite rslice_ok, bind_ok by lia. assert (Ls : length (sub b i (i + 4)) = 4%nat) by (unfold sub; rewrite firstn_length, skipn_length; lia).
  destruct (sub b i (i + 4)) as [|x0 [|x1 [|x2 [|x3 r]]]]; try discriminate Ls. eexists. reflexivity.
Qed.
Lemma u32_short b i : (length b < i + 4)%nat -> u32_at b i (i + 4) = Panic.
Proof. intros L. unfold u32_at. apply bind_Panic. left. apply rslice_Panic. now right. Qed.
Lemma labels_at_panic oc pre s p : bytes_ok s -> length pre = p -> labels_at oc (pre ++ s) p = Panic <-> labels_crash oc s.
Proof.
  intros B Lp. unfold labels_at, labels_crash. destruct (Nat.ltb_spec (length (pre ++ s)) p) as [X|_]; [rewrite app_length in X; lia|].
  rewrite (rfrom_peel _ _ _ _ Lp) by lia. rewrite Nat.sub_diag, rfrom_0, bind_ok.
  replace (cast 8 (8 * N.of_nat (length (pre ++ s) - p))) with (8 * N.of_nat (length s) mod 256) by (unfold cast; change (2 ^ 8) with 256; rewrite app_length; do 2 f_equal; lia).
  apply labels_panic; [apply labels_mod|exact B].
Qed.
Lemma labels_at_panic' oc b p : bytes_ok b -> (p <= length b)%nat -> labels_at oc b p = Panic <-> labels_crash oc (skipn p b).
Proof.
  intros B L. rewrite <- (labels_at_panic oc (firstn p b) (skipn p b) p); [now rewrite firstn_skipn|now apply Forall_skipn|rewrite firstn_length; lia].
Qed.
(** what every route with an identifier and a tag starts with *)
Lemma evpn1_panic oc b : bytes_ok b -> evpn1_decode oc b = Panic <-> ev_body_crash oc 1 b.
Proof.
  intros B. unfold ev_body_crash, evpn1_decode. destruct (Nat.le_gt_cases 8 (length b)) as [L8|L8]; [|rewrite rd_short by exact L8; split; [discriminate|lia]].
  destruct (rd_ok b L8) as (rd & ->). rewrite bind_ok, rfrom_ok, bind_ok by exact L8. assert (Ls := skipn_length 8 b). cbn [Nat.add].
  destruct (Nat.le_gt_cases 18 (length b)) as [L18|L18]; [|rewrite esi_short by lia; split; [lia|reflexivity]].
  destruct (esi_long (skipn 8 b) ltac:(lia)) as (t & e & ->). rewrite bind_ok.
  destruct (Nat.le_gt_cases 22 (length b)) as [L22|L22]; [|rewrite (u32_short b 18 : _ -> u32_at b 18 22 = Panic) by lia; split; [lia|reflexivity]].
  destruct (u32_long b 18 L22) as (v & Ev). change (18 + 4)%nat with 22%nat in Ev. rewrite Ev, bind_ok. split.
  - intros H. split; [exact L8|]. right. apply bind_Panic in H as [H|([? ?] & _ & H)]; [|discriminate]. now apply labels_at_panic' in H.
  - intros (_ & [X|H]); [lia|]. apply bind_Panic. left. now apply labels_at_panic'.
Qed.
Lemma evpn3_panic oc b : bytes_ok b -> evpn3_decode b = Panic <-> ev_body_crash oc 3 b.
Proof.
  intros B. unfold ev_body_crash, evpn3_decode. destruct (Nat.le_gt_cases 8 (length b)) as [L8|L8]; [|rewrite rd_short by exact L8; split; [discriminate|lia]].
  destruct (rd_ok b L8) as (rd & ->). rewrite bind_ok. cbn [Nat.add].
  destruct (Nat.le_gt_cases 12 (length b)) as [L12|L12]; [|rewrite (u32_short b 8 : _ -> u32_at b 8 12 = Panic) by lia; split; [lia|reflexivity]].
  destruct (u32_long b 8 L12) as (v & Ev). change (8 + 4)%nat with 12%nat in Ev. rewrite Ev, bind_ok. 
  destruct (Nat.le_gt_cases 13 (length b)) as [L13|L13]; [|rewrite (proj2 (idx_Panic b 12)) by lia; split; [lia|reflexivity]].
  rewrite (idx_Ok_nth b 12 0) by lia. rewrite bind_ok. split; [|lia]. intros H. exfalso. unfold v4_at, v6_at in H. rewrite rfrom_ok, !bind_ok in H by lia.
  destruct (_ =? 32); [|destruct (_ =? 128); [|discriminate]].
  - apply bind_Panic in H as [H|(? & _ & H)]; [|discriminate]. apply bind_Panic in H as [H|(? & _ & H)]; [|discriminate]. now apply dec4_np in H.
  - apply bind_Panic in H as [H|(? & _ & H)]; [|discriminate]. apply bind_Panic in H as [H|(? & _ & H)]; [|discriminate]. apply dec6_np in H; [exact H|now apply Forall_skipn].
Qed.
Lemma evpn4_panic oc b : bytes_ok b -> evpn4_decode b = Panic <-> ev_body_crash oc 4 b.
Proof.
  intros B. unfold ev_body_crash, evpn4_decode. destruct (Nat.le_gt_cases 8 (length b)) as [L8|L8]; [|rewrite rd_short by exact L8; split; [discriminate|lia]].
  destruct (rd_ok b L8) as (rd & ->). rewrite bind_ok, rfrom_ok, bind_ok by exact L8. assert (Ls := skipn_length 8 b). cbn [Nat.add].
  destruct (Nat.le_gt_cases 18 (length b)) as [L18|L18]; [|rewrite esi_short by lia; split; [lia|reflexivity]].
  destruct (esi_long (skipn 8 b) ltac:(lia)) as (t & e & ->). rewrite bind_ok.
  destruct (Nat.le_gt_cases 19 (length b)) as [L19|L19]; [|rewrite (proj2 (idx_Panic b 18)) by lia; split; [lia|reflexivity]].
  rewrite (idx_Ok_nth b 18 0) by lia. rewrite bind_ok. split; [|lia]. intros H. exfalso. unfold v4_at, v6_at in H. rewrite rfrom_ok, !bind_ok in H by lia.
  destruct (_ =? 32); [|destruct (_ =? 128); [|discriminate]].
  - apply bind_Panic in H as [H|(? & _ & H)]; [|discriminate]. apply bind_Panic in H as [H|(? & _ & H)]; [|discriminate]. now apply dec4_np in H.
  - apply bind_Panic in H as [H|(? & _ & H)]; [|discriminate]. apply bind_Panic in H as [H|(? & _ & H)]; [|discriminate]. apply dec6_np in H; [exact H|now apply Forall_skipn].
Qed.
Lemma evpn2_panic oc b : bytes_ok b -> evpn2_decode oc b = Panic <-> ev_body_crash oc 2 b.
Proof.
  intros B. unfold ev_body_crash, evpn2_decode. destruct (Nat.le_gt_cases 8 (length b)) as [L8|L8]; [|rewrite rd_short by exact L8; split; [discriminate|lia]].
  destruct (rd_ok b L8) as (rd & ->). rewrite bind_ok, rfrom_ok, bind_ok by exact L8. assert (Ls := skipn_length 8 b). cbn [Nat.add].
  destruct (Nat.le_gt_cases 18 (length b)) as [L18|L18]; [|rewrite esi_short by lia; split; [lia|reflexivity]].
  destruct (esi_long (skipn 8 b) ltac:(lia)) as (t & e & ->). rewrite bind_ok.
  destruct (Nat.le_gt_cases 22 (length b)) as [L22|L22]; [|rewrite (u32_short b 18 : _ -> u32_at b 18 22 = Panic) by lia; split; [lia|reflexivity]].
  destruct (u32_long b 18 L22) as (v & Ev). change (18 + 4)%nat with 22%nat in Ev. rewrite Ev, bind_ok.
  destruct (Nat.le_gt_cases 23 (length b)) as [L23|L23]; [|rewrite (proj2 (idx_Panic b 22)) by lia; split; [lia|reflexivity]].
  rewrite (idx_Ok_nth b 22 0) by lia. rewrite bind_ok. destruct (N.eqb_spec (nth 22 b 0) 48) as [E48|E48]; cbn [negb].
  2:{ split; [discriminate|]. intros (_ & [X|(X & _)]); [lia|contradiction]. }
  destruct (Nat.le_gt_cases 29 (length b)) as [L29|L29].
  2:{ rewrite (proj2 (rslice_Panic b 23 29)) by lia. cbn [bind]. split; [|reflexivity]. intros _. split; [exact L8|]. right. split; [exact E48|]. left. lia. }
  rewrite rslice_ok, bind_ok by lia. assert (Lm : length (sub b 23 29) = 6%nat) by (unfold sub; rewrite firstn_length, skipn_length; lia).
  assert (M : exists mc, mac_from_network_bytes (sub b 23 29) = Ok mc). { destruct (sub b 23 29) as [|x0 [|x1 [|x2 [|x3 [|x4 [|x5 r]]]]]]; try discriminate Lm. eexists. reflexivity. }
  destruct M as (mc & ->). rewrite bind_ok.
  destruct (Nat.le_gt_cases 30 (length b)) as [L30|L30].
  2:{ rewrite (proj2 (idx_Panic b 29)) by lia. cbn [bind]. split; [|reflexivity]. intros _. split; [exact L8|]. right. split; [exact E48|]. left. lia. }
  rewrite (idx_Ok_nth b 29 0) by lia. rewrite bind_ok.
  assert (K : forall X : Prop, (X <-> exists k, In (nth 29 b 0, k) [(0, 30%nat); (32, 34%nat); (128, 46%nat)] /\ (k <= length b)%nat /\ labels_crash oc (skipn k b)) ->
    X <-> ((8 <= length b)%nat /\ ((length b < 23)%nat \/ nth 22 b 0 = 48 /\ ((length b < 30)%nat \/
      exists k, In (nth 29 b 0, k) [(0, 30%nat); (32, 34%nat); (128, 46%nat)] /\ (k <= length b)%nat /\ labels_crash oc (skipn k b))))).
  { intros X ->. split; [intros H; split; [exact L8|]; right; split; [exact E48|]; now right|]. intros (_ & [H|(_ & [H|H])]); [lia|lia|exact H]. }
  apply K. clear K.
  assert (LB : forall ip sz, (sz <= length b)%nat -> ('(ls, n) <- labels_at oc b sz ;; Ok (mkEvpn2 rd t e v mc ip ls, (sz + n)%nat)) = Panic <-> labels_crash oc (skipn sz b)).
  { intros ip sz Hs. rewrite <- labels_at_panic' by assumption. split; [|intros H; apply bind_Panic; now left]. intros H. apply bind_Panic in H as [H|([? ?] & _ & H)]; [exact H|discriminate]. }
  unfold v4_at, v6_at. rewrite rfrom_ok, !bind_ok by lia. assert (L30' := skipn_length 30 b).
  destruct (N.eqb_spec (nth 29 b 0) 0) as [E0|N0]; [|destruct (N.eqb_spec (nth 29 b 0) 32) as [E0|N1]; [|destruct (N.eqb_spec (nth 29 b 0) 128) as [E0|N2]]].
  - rewrite bind_ok, LB by lia. split.
    + intros H. exists 30%nat. split; [rewrite E0; now left|]. now split.
    + intros (k & I & _ & H). rewrite E0 in I. destruct I as [I|[I|[I|[]]]]; try discriminate. injection I as <-. exact H.
  - destruct (decode_addrv4_from (skipn 30 b)) as [a| | |] eqn:D.
    + rewrite !bind_ok. apply dec4_len in D. rewrite LB by lia. split.
      * intros H. exists 34%nat. split; [rewrite E0; right; now left|]. split; [lia|exact H].
      * intros (k & I & _ & H). rewrite E0 in I. destruct I as [I|[I|[I|[]]]]; try discriminate. injection I as <-. exact H.
    + split; [discriminate|]. intros (k & I & Lk & H). rewrite E0 in I. destruct I as [I|[I|[I|[]]]]; try discriminate. injection I as <-.
      exfalso. destruct (take_be 4 (skipn 30 b)) as (w & r & Ew & Hw & _); [now apply Forall_skipn|lia|]. rewrite Ew, decode_addrv4_be in D by exact Hw. discriminate.
    + exfalso. now apply dec4_np in D.
    + split; [discriminate|]. intros (k & I & Lk & H). rewrite E0 in I. destruct I as [I|[I|[I|[]]]]; try discriminate. injection I as <-.
      exfalso. destruct (take_be 4 (skipn 30 b)) as (w & r & Ew & Hw & _); [now apply Forall_skipn|lia|]. rewrite Ew, decode_addrv4_be in D by exact Hw. discriminate.
  - destruct (decode_addrv6_from (skipn 30 b)) as [a| | |] eqn:D.
    + rewrite !bind_ok. apply dec6_len in D. rewrite LB by lia. split.
      * intros H. exists 46%nat. split; [rewrite E0; right; right; now left|]. split; [lia|exact H].
      * intros (k & I & _ & H). rewrite E0 in I. destruct I as [I|[I|[I|[]]]]; try discriminate. injection I as <-. exact H.
    + split; [discriminate|]. intros (k & I & Lk & H). rewrite E0 in I. destruct I as [I|[I|[I|[]]]]; try discriminate. injection I as <-.
      exfalso. destruct (take_be 16 (skipn 30 b)) as (w & r & Ew & Hw & _); [now apply Forall_skipn|lia|]. rewrite Ew, decode_addrv6_be in D by exact Hw. discriminate.
    + exfalso. apply dec6_np in D; [exact D|now apply Forall_skipn].
    + split; [discriminate|]. intros (k & I & Lk & H). rewrite E0 in I. destruct I as [I|[I|[I|[]]]]; try discriminate. injection I as <-.
      exfalso. destruct (take_be 16 (skipn 30 b)) as (w & r & Ew & Hw & _); [now apply Forall_skipn|lia|]. rewrite Ew, decode_addrv6_be in D by exact Hw. discriminate.
  - split; [discriminate|]. intros (k & I & _). exfalso. destruct I as [I|[I|[I|[]]]]; injection I as I _; congruence.
Qed.
Lemma three_np oc s : length s = 3%nat -> ~ labels_crash oc s.
Proof.
  intros L H. unfold labels_crash in H. rewrite L in H. change (8 * N.of_nat 3 mod 256) with 24 in H.
  inversion H as [? ? _ X|? ? X _|bits left b0 b1 b2 r _ U _ M]; subst; [lia|lia|]. cbn [length] in L.
  assert (left = 0). { destruct U as (U1 & U2 & U3). destruct (N.lt_ge_cases (left + 24) 256) as [X|X]; [rewrite N.mod_small in U2 by exact X; lia|].
    exfalso. replace (left + 24) with (left + 24 - 256 + 1 * 256) in U2 by lia. rewrite N.mod_add in U2 by discriminate. rewrite N.mod_small in U2 by lia. lia. }
  subst left. inversion M; lia.
Qed.
Lemma evpn5_panic oc b : bytes_ok b -> evpn5_decode oc b = Panic <-> ev_body_crash oc 5 b.
Proof.
  intros B. unfold ev_body_crash, evpn5_decode. destruct (Nat.le_gt_cases 8 (length b)) as [L8|L8]; [|rewrite rd_short by exact L8; split; [discriminate|lia]].
  destruct (rd_ok b L8) as (rd & ->). rewrite bind_ok, rfrom_ok, bind_ok by exact L8. assert (Ls := skipn_length 8 b). cbn [Nat.add].
  destruct (Nat.le_gt_cases 18 (length b)) as [L18|L18]; [|rewrite esi_short by lia; split; [lia|reflexivity]].
  destruct (esi_long (skipn 8 b) ltac:(lia)) as (t & e & ->). rewrite bind_ok, rfrom_ok, bind_ok by lia. assert (Ls' := skipn_length 18 b).
  destruct (Nat.le_gt_cases 22 (length b)) as [L22|L22].
  2:{ assert (X : getn_u32 (skipn 18 b) = Panic) by (destruct (skipn 18 b) as [|x0 [|x1 [|x2 [|x3 r]]]]; cbn [length] in Ls'; try lia; reflexivity). rewrite X. split; [lia|reflexivity]. }
  assert (X : exists v, getn_u32 (skipn 18 b) = Ok v) by (destruct (skipn 18 b) as [|x0 [|x1 [|x2 [|x3 r]]]]; cbn [length] in Ls'; try lia; eexists; reflexivity).
  destruct X as (v & ->). rewrite bind_ok.
  destruct (Nat.le_gt_cases 23 (length b)) as [L23|L23]; [|rewrite (proj2 (idx_Panic b 22)) by lia; split; [lia|reflexivity]].
  rewrite (idx_Ok_nth b 22 0) by lia. rewrite bind_ok. split; [|lia]. intros H. exfalso.
  apply bind_Panic in H as [H|([[a g] pos] & E & H)].
  - unfold v4_at in H. destruct (Nat.eqb_spec (length b) 34) as [L|_]; [|destruct (Nat.eqb_spec (length b) 58) as [L|_]; [|discriminate]].
    + rewrite !rfrom_ok, !bind_ok in H by lia. apply bind_Panic in H as [H|(? & _ & H)].
      * apply bind_Panic in H as [H|(? & _ & H)]; [now apply dec4_np in H|discriminate].
      * apply bind_Panic in H as [H|(? & _ & H)]; [|discriminate]. apply bind_Panic in H as [H|(? & _ & H)]; [now apply dec4_np in H|discriminate].
    + rewrite !rfrom_ok, !bind_ok in H by lia. apply bind_Panic in H as [H|(? & _ & H)].
      * apply bind_Panic in H as [H|(? & _ & H)]; [now apply dec4_np in H|discriminate].
      * apply bind_Panic in H as [H|(? & _ & H)]; [|discriminate]. apply bind_Panic in H as [H|(? & _ & H)]; [now apply dec4_np in H|discriminate].
  - assert (P : (pos + 3 = length b)%nat).
    { destruct (Nat.eqb_spec (length b) 34) as [L|_]; [|destruct (Nat.eqb_spec (length b) 58) as [L|_]; [|discriminate]];
      apply bind_Ok_inv in E as (? & _ & E); apply bind_Ok_inv in E as (? & _ & E); apply Ok_inj in E; apply (f_equal snd) in E; cbn [snd] in E; lia. }
    apply bind_Panic in H as [H|([? ?] & _ & H)]; [|discriminate]. apply labels_at_panic' in H; [|exact B|lia]. apply three_np in H; [exact H|]. rewrite skipn_length. lia.
Qed.
Lemma ev_panic oc : step_crash (evpn_decode oc) (ev_crash oc).
Proof.
  intros b B _. unfold ev_crash. destruct b as [|t [|l s]]; [split; [intros _; left; cbn; lia|reflexivity]|split; [intros _; left; cbn; lia|reflexivity]|].
  unfold evpn_decode. rewrite idx_0, bind_ok, idx_1, bind_ok. cbv zeta.
  assert (K : forall X : Prop, (X <-> (N.to_nat l <= length s)%nat /\ ev_body_crash oc t (firstn (N.to_nat l) s)) ->
    X <-> ((length (t :: l :: s) < 2)%nat \/ exists t0 l0 r, t :: l :: s = t0 :: l0 :: r /\ (N.to_nat l0 <= length r)%nat /\ ev_body_crash oc t0 (firstn (N.to_nat l0) r))).
  { intros X ->. split.
    - intros H. right. exists t, l, s. split; [reflexivity|exact H].
    - intros [H|(t0 & l0 & r & Eq & H)]; [cbn in H; lia|]. assert (t = t0) by congruence. assert (l = l0) by congruence. assert (s = r) by congruence. now subst. }
  apply K. clear K. destruct (Nat.ltb_spec (length (t :: l :: s)) (N.to_nat l + 2)) as [L|L]; cbn [length] in L.
  - split; [discriminate|]. intros [H _]. lia.
  - assert (Bs : bytes_ok (firstn (N.to_nat l) s)) by (apply Forall_firstn; do 2 apply Forall_inv_tail in B; exact B).
    assert (A : forall T (dec : list N -> res (T * nat)) wrap C, (dec (firstn (N.to_nat l) s) = Panic <-> C) -> evpn_arm dec wrap (t :: l :: s) (N.to_nat l) = Panic <-> (N.to_nat l <= length s)%nat /\ C).
    { intros T dec wrap C <-. unfold evpn_arm.
      change (t :: l :: s) with ([t; l] ++ s). rewrite (rslice_peel [t; l] _ 2) by (auto; lia). replace (2 + N.to_nat l - 2)%nat with (N.to_nat l) by lia. change (2 - 2)%nat with 0%nat.
      rewrite rslice_ok, bind_ok by lia. unfold sub. rewrite Nat.sub_0_r. cbn [skipn]. split.
      - intros H. split; [lia|]. apply bind_Panic in H as [H|([? ?] & _ & H)]; [exact H|discriminate].
      - intros [_ H]. apply bind_Panic. now left. }
    destruct (N.eqb_spec t 1) as [->|N1]; [|destruct (N.eqb_spec t 2) as [->|N2]; [|destruct (N.eqb_spec t 3) as [->|N3]; [|destruct (N.eqb_spec t 4) as [->|N4];
      [|destruct (N.eqb_spec t 5) as [->|N5]]]]].
    + apply A. now apply evpn1_panic.
    + apply A. now apply evpn2_panic.
    + apply A. now apply evpn3_panic.
    + apply A. now apply evpn4_panic.
    + apply A. now apply evpn5_panic.
    + split; [discriminate|]. intros (_ & _ & H).
      repeat match type of H with context [match ?x with _ => _ end] => is_var x; destruct x; try contradiction; try congruence end.
Qed.

(** ** FlowSpec *)
Lemma fs4_panic oc b : bytes_ok b -> fs_dec (fs4 oc) b = Panic <-> fs4_crash oc b.
Proof.
  intros B. cbn [fs_dec fs4]. change (fs4_dec oc b) with (decode_bgpitem_from oc v4_from_bits b). unfold fs4_crash. destruct b as [|x b]; [split; auto|].
  rewrite (item_panic oc _ _ pfx4_panic (x :: b) B) by discriminate. split; [now right|]. intros [H|H]; [discriminate|exact H].
Qed.
Lemma fsv4_panic oc b : bytes_ok b -> fs_dec (fsv4 oc) b = Panic <-> fsv4_crash oc b.
Proof.
  intros B. unfold fsv4_crash. cbn [fs_dec fsv4]. unfold fsv4_dec. destruct b as [|bits s]; [split; auto|].
  assert (E : fsv4_dec oc (bits :: s) = Panic <-> decode_bgpitem_from oc (withrd_extract v4_from_bits) (bits :: s) = Panic).
  { unfold fsv4_dec, decode_bgpitem_from, withrd_extract. rewrite idx_0, !bind_ok. change (rfrom (bits :: s) 1) with (Ok s : res (list N)). rewrite !bind_ok.
    destruct (Nat.ltb_spec (length s) 8) as [L|L]; [rewrite rd_short by exact L; split; discriminate|].
    apply Forall_cons_iff in B as [_ B]. destruct (take_rd s B L) as (rd & r & -> & W & Br). run. change (cast 8 (N.of_nat 8 * 8)) with 64.
    change (bits :: rd_wire rd ++ r) with ([bits] ++ rd_wire rd ++ r). cbn [Nat.add]. run.
    destruct (usub oc 8 bits 64) as [l| | |]; cbn [bind]; [|split; auto; discriminate..]. 
    destruct (v4_from_bits oc l r) as [[y m]| | |]; cbn [bind]; split; auto; discriminate. }
  unfold fsv4_dec in E. rewrite E, (item_panic oc _ _ (distinguished_panic _ _ pfx4_panic) (bits :: s) B) by discriminate. split; [now right|]. intros [H|H]; [discriminate|exact H].
Qed.
Lemma fs6_panic oc b : bytes_ok b -> fs_dec (fs6i oc) b = Panic <-> fs6_crash oc b.
Proof.
  intros B. cbn [fs_dec fs6i]. unfold fs6_dec, fs6_crash. destruct b as [|bits [|o s]]; [split; [left; cbn; lia|reflexivity]|split; [left; cbn; lia|reflexivity]|].
  rewrite idx_0, bind_ok, idx_1. change (rfrom (bits :: o :: s) 2) with (Ok s : res (list N)). rewrite bind_ok. pose proof (Forall_inv B) as Hb. do 2 apply Forall_inv_tail in B. split.
  - intros H. right. apply bind_Panic in H as [H|([? ?] & _ & H)]; [|discriminate]. apply pfx6_panic in H; auto. exists bits, o, s. auto.
  - intros [H|(bits' & o' & s' & E & H)]; [cbn in H; lia|]. assert (bits = bits') by congruence. assert (s = s') by congruence. subst bits' s'. apply bind_Panic. left. now apply pfx6_panic.
Qed.
Lemma oper_panic b : bytes_ok b -> b <> [] -> oper_read b = Panic <-> oper_crash b.
Proof.
  intros B NE. unfold oper_read, oper_crash, oper_octets. destruct b as [|x s]; [contradiction|].
  rewrite idx_0, bind_ok. cbv zeta. change (rfrom (x :: s) 1) with (Ok s : res (list N)). rewrite !bind_ok.
  replace (N.land (N.shiftr x 4) 3) with ((x / 16) mod 4) by (change 3 with (N.ones 2); rewrite N.land_ones, N.shiftr_div_pow2; reflexivity).
  set (l := (x / 16) mod 4). assert (K : forall k X, (l = 0 -> k = 1%nat) -> (l = 1 -> k = 2%nat) -> (l = 2 -> k = 4%nat) -> (l = 0 \/ l = 1 \/ l = 2) -> (X <-> (length s < k)%nat) ->
    X <-> exists (o : N) k0 (r : list N), x :: s = o :: r /\ ((o / 16) mod 4 = 0 /\ k0 = 1%nat \/ (o / 16) mod 4 = 1 /\ k0 = 2%nat \/ (o / 16) mod 4 = 2 /\ k0 = 4%nat) /\ (length r < k0)%nat).
  { intros k X H0 H1 H2 H3 ->. split.
    - intros H. exists x, k, s. split; [reflexivity|]. split; [|exact H]. fold l. destruct H3 as [H3|[H3|H3]]; [left|right; left|right; right]; auto.
    - intros (o & k0 & r & E & C & H). assert (x = o) by congruence. assert (s = r) by congruence. subst o r. fold l in C. destruct C as [[C ->]|[[C ->]|[C ->]]]; [rewrite H0|rewrite H1|rewrite H2]; auto. }
  destruct (N.eqb_spec l 0) as [E|N0]; [|destruct (N.eqb_spec l 1) as [E|N1]; [|destruct (N.eqb_spec l 2) as [E|N2]]].
  - apply (K 1%nat); try congruence; auto. destruct s as [|y s]; cbn; split; try discriminate; try reflexivity; lia.
  - apply (K 2%nat); try congruence; auto. destruct s as [|y [|z s]]; cbn; split; try discriminate; try reflexivity; lia.
  - apply (K 4%nat); try congruence; auto. destruct s as [|y [|z [|u [|w s]]]]; cbn; split; try discriminate; try reflexivity; lia.
  - split; [discriminate|]. intros (o & k0 & r & Eq & C & H). assert (x = o) by congruence. subst o. fold l in C. lia.
Qed.
Lemma val_panic : step_crash (op_dec fsvalop) oper_crash.
Proof.
  intros s B NE. cbn [op_dec fsvalop]. unfold fsval_dec. rewrite <- (oper_panic s B NE). split; [|intros ->; reflexivity]. intros H. apply bind_Panic in H as [H|([[? ?] ?] & _ & H)]; [exact H|discriminate].
Qed.
Lemma mask_panic : step_crash (op_dec fsmaskop) oper_crash.
Proof.
  intros s B NE. cbn [op_dec fsmaskop]. unfold fsmask_dec. rewrite <- (oper_panic s B NE). split; [|intros ->; reflexivity]. intros H. apply bind_Panic in H as [H|([[? ?] ?] & _ & H)]; [exact H|discriminate].
Qed.
Definition body_crash (C : list N -> Prop) (c : N) (body : list N) : Prop :=
  if c <=? 2 then C body else if (c =? 9) || (c =? 12) then many_crash mask_reads oper_crash body else many_crash val_reads oper_crash body.
Definition arms {T} (it : fsitem T) (c : N) (buf : list N) (pos nlen : nat) : res (flowspec T * nat) :=
  if c =? 1 then fs_arm_pfx it FsDst buf pos nlen
  else if c =? 2 then fs_arm_pfx it FsSrc buf pos nlen
  else if c =? 3 then fs_arm_vec fsvalop FsProto buf pos nlen
  else if c =? 4 then fs_arm_vec fsvalop FsPortAny buf pos nlen
  else if c =? 5 then fs_arm_vec fsvalop FsPortDst buf pos nlen
  else if c =? 6 then fs_arm_vec fsvalop FsPortSrc buf pos nlen
  else if c =? 7 then fs_arm_vec fsvalop FsIcmpType buf pos nlen
  else if c =? 8 then fs_arm_vec fsvalop FsIcmpCode buf pos nlen
  else if c =? 9 then fs_arm_vec fsmaskop FsTcpFlags buf pos nlen
  else if c =? 10 then fs_arm_vec fsvalop FsPacketLength buf pos nlen
  else if c =? 11 then fs_arm_vec fsvalop FsDscp buf pos nlen
  else if c =? 12 then fs_arm_vec fsmaskop FsFragment buf pos nlen
  else if c =? 13 then fs_arm_vec fsvalop FsFlowLabel buf pos nlen
  else Err EOther.
Lemma arms_panic {T} (it : fsitem T) C c pre s pos n : (forall b, bytes_ok b -> fs_dec it b = Panic <-> C b) -> bytes_ok s -> pos = length pre ->
  arms it c (pre ++ c :: s) pos (n + pos) = Panic <-> 1 <= c <= 13 /\ (n = 0%nat \/ (length (c :: s) < n)%nat \/ (0 < n)%nat /\ (n <= length (c :: s))%nat /\ body_crash C c (firstn (n - 1) s)).
Proof.
  intros HC B ->. assert (R : (n = 0%nat \/ (length (c :: s) < n)%nat) /\ rslice (pre ++ c :: s) (length pre + 1) (n + length pre) = Panic \/
    ((0 < n)%nat /\ (n <= length (c :: s))%nat) /\ rslice (pre ++ c :: s) (length pre + 1) (n + length pre) = Ok (firstn (n - 1) s)).
  { rewrite (rslice_peel _ _ _ _ _ eq_refl) by lia. replace (length pre + 1 - length pre)%nat with 1%nat by lia. replace (n + length pre - length pre)%nat with n by lia.
    destruct (Nat.le_gt_cases 1 n) as [H1|H1]; [|left; split; [lia|apply rslice_Panic; lia]]. destruct (Nat.le_gt_cases n (length (c :: s))) as [H2|H2]; [right|left; split; [lia|apply rslice_Panic; lia]].
    split; [lia|]. rewrite rslice_ok by lia. reflexivity. }
  assert (Bf : bytes_ok (firstn (n - 1) s)) by now apply Forall_firstn.
  assert (G : forall e, e = Panic <-> (rslice (pre ++ c :: s) (length pre + 1) (n + length pre) = Panic \/ rslice (pre ++ c :: s) (length pre + 1) (n + length pre) = Ok (firstn (n - 1) s) /\ body_crash C c (firstn (n - 1) s)) ->
    1 <= c <= 13 -> (e : res (flowspec T * nat)) = Panic <-> 1 <= c <= 13 /\ (n = 0%nat \/ (length (c :: s) < n)%nat \/ (0 < n)%nat /\ (n <= length (c :: s))%nat /\ body_crash C c (firstn (n - 1) s))).
  { intros e -> Hc. destruct R as [[R1 ->]|[R1 ->]].
    - split; [intros _|now left]. split; [exact Hc|]. tauto.
    - split; [intros [X|[_ X]]; [discriminate|]; tauto|]. intros (_ & [X|[X|(_ & _ & X)]]); [lia|lia|]. now right. }
  assert (VV : forall U (o : fsoper U) P (wrap : list U -> flowspec T), step_exact (op_dec o) P -> advances P -> step_crash (op_dec o) oper_crash ->
    (body_crash C c (firstn (n - 1) s) <-> many_crash P oper_crash (firstn (n - 1) s)) ->
    fs_arm_vec o wrap (pre ++ c :: s) (length pre) (n + length pre) = Panic <->
     (rslice (pre ++ c :: s) (length pre + 1) (n + length pre) = Panic \/ rslice (pre ++ c :: s) (length pre + 1) (n + length pre) = Ok (firstn (n - 1) s) /\ body_crash C c (firstn (n - 1) s))).
  { intros U o P wrap E A K ->. unfold fs_arm_vec. rewrite <- (items_crash (op_dec o) P oper_crash _ E A K Bf). destruct R as [[_ ->]|[_ ->]].
    - split; [now left|reflexivity].
    - rewrite bind_ok. split.
      + intros H. right. split; [reflexivity|]. apply bind_Panic in H as [H|([? ?] & _ & H)]; [exact H|discriminate].
      + intros [H|[_ H]]; [discriminate|]. apply bind_Panic. now left. }
  assert (VP : forall wrap, (body_crash C c (firstn (n - 1) s) <-> C (firstn (n - 1) s)) ->
    fs_arm_pfx it wrap (pre ++ c :: s) (length pre) (n + length pre) = Panic <->
     (rslice (pre ++ c :: s) (length pre + 1) (n + length pre) = Panic \/ rslice (pre ++ c :: s) (length pre + 1) (n + length pre) = Ok (firstn (n - 1) s) /\ body_crash C c (firstn (n - 1) s))).
  { intros wrap ->. unfold fs_arm_pfx. rewrite <- (HC _ Bf). destruct R as [[_ ->]|[_ ->]].
    - split; [now left|reflexivity].
    - rewrite bind_ok. split.
      + intros H. right. split; [reflexivity|]. apply bind_Panic in H as [H|([? ?] & _ & H)]; [exact H|discriminate].
      + intros [H|[_ H]]; [discriminate|]. apply bind_Panic. now left. }
  clear R. unfold arms.
  repeat match goal with |- (if ?c =? ?k then _ else _) = _ <-> _ => destruct (N.eqb_spec c k) as [->|?];
    [apply G; [first [apply VP; reflexivity | apply (VV _ _ _ _ val_exact val_advances val_panic); reflexivity | apply (VV _ _ _ _ mask_exact mask_advances mask_panic); reflexivity]|lia]|] end.
  split; [discriminate|]. lia.
Qed.
Lemma fs_panic {T} (it : fsitem T) C : (forall b, bytes_ok b -> fs_dec it b = Panic <-> C b) -> step_crash (fs_decode it) (fs_crash C).
Proof.
  intros HC b B NE. destruct b as [|b0 s]; [contradiction|]. pose proof (Forall_inv B) as B0. unfold is_byte in B0. apply Forall_inv_tail in B.
  assert (E : fs_decode it (b0 :: s) = ('(pos, nlen) <- (if N.land b0 240 =? 240 then w <- getn_u16 (b0 :: s) ;; Ok (2%nat, (N.to_nat (N.land w 4095) + 2)%nat)
                   else Ok (1%nat, (N.to_nat b0 + 1)%nat)) ;; c <- idx (b0 :: s) pos ;; arms it c (b0 :: s) pos nlen)) by reflexivity.
  rewrite E. clear E. rewrite land_240 by exact B0. unfold fs_crash, rule_head.
  assert (K : forall h n c pre r, b0 :: s = pre ++ c :: r -> h = length pre -> bytes_ok r -> rule_head (b0 :: s) n h (c :: r) ->
      (forall n' h' r', rule_head (b0 :: s) n' h' r' -> n' = n /\ h' = h /\ r' = c :: r) -> (forall hi, 240 <= hi -> b0 :: s = [hi] -> False) ->
      arms it c (b0 :: s) h (N.to_nat n + h) = Panic <-> ((exists hi, 240 <= hi /\ b0 :: s = [hi]) \/ exists n h r, rule_head (b0 :: s) n h r /\
    (r = [] \/ exists c s, r = c :: s /\ 1 <= c <= 13 /\
      (n = 0 \/ (length r < N.to_nat n)%nat \/
       0 < n /\ (N.to_nat n <= length r)%nat /\ body_crash C c (firstn (N.to_nat n - 1) s))))).
  { intros h n c pre r Eb Eh Br RH U NO. rewrite Eb at 1. rewrite (arms_panic it C c pre r h (N.to_nat n) HC Br Eh). split.
    - intros (Hc & H). right. exists n, h, (c :: r). split; [exact RH|]. right. exists c, r. split; [reflexivity|]. split; [exact Hc|].
      destruct H as [H|[H|(H1 & H2 & H3)]]; [left; lia|right; now left|]. right. right. split; [lia|]. split; [exact H2|exact H3].
    - intros [(hi & H1 & H2)|(n' & h' & r' & RH' & H)]; [now destruct (NO hi)|]. apply U in RH' as (-> & -> & ->). destruct H as [H|(c' & s' & Er & Hc & H)]; [discriminate|].
      assert (c = c') by congruence. assert (r = s') by congruence. subst c' s'. split; [exact Hc|]. destruct H as [->|[H|(H1 & H2 & H3)]]; [now left|right; now left|]. right. right. split; [lia|]. split; [exact H2|exact H3]. }
  unfold rule_head, body_crash in K. destruct (N.leb_spec 240 b0) as [Hb|Hb].
  - destruct s as [|b1 s]; [split; [intros _; left; exists b0; auto|reflexivity]|]. unfold getn_u16. rewrite idx_0, bind_ok, idx_1, !bind_ok. pose proof (Forall_inv B) as B1. unfold is_byte in B1. apply Forall_inv_tail in B.
    rewrite land_4095 by auto. assert (U : forall n' h' r', h' = 1%nat /\ n' < 240 /\ b0 :: b1 :: s = n' :: r' \/
       h' = 2%nat /\ (exists hi lo, 240 <= hi < 256 /\ lo < 256 /\ n' = (hi - 240) * 256 + lo /\ b0 :: b1 :: s = hi :: lo :: r') -> n' = (b0 - 240) * 256 + b1 /\ h' = 2%nat /\ r' = s).
    { intros n' h' r' [(_ & Hn & Eq)|(-> & hi & lo & Hh & Hl & -> & Eq)]; [assert (b0 = n') by congruence; lia|].
      assert (b0 = hi) by congruence. assert (b1 = lo) by congruence. assert (s = r') by congruence. now subst. }
    assert (RH : forall r, s = r -> 2%nat = 1%nat /\ (b0 - 240) * 256 + b1 < 240 /\ b0 :: b1 :: s = (b0 - 240) * 256 + b1 :: r \/
       2%nat = 2%nat /\ (exists hi lo, 240 <= hi < 256 /\ lo < 256 /\ (b0 - 240) * 256 + b1 = (hi - 240) * 256 + lo /\ b0 :: b1 :: s = hi :: lo :: r)).
    { intros r ->. right. split; [reflexivity|]. exists b0, b1. auto. }
    destruct s as [|c s].
    + split; [|reflexivity]. intros _. right. exists ((b0 - 240) * 256 + b1), 2%nat, []. split; [now apply RH|now left].
    + change (idx (b0 :: b1 :: c :: s) 2) with (Ok c : res N). rewrite bind_ok. apply Forall_inv_tail in B.
      apply (K 2%nat ((b0 - 240) * 256 + b1) c [b0; b1] s); auto. intros hi _ X. discriminate.
  - rewrite bind_ok. assert (U : forall n' h' r', h' = 1%nat /\ n' < 240 /\ b0 :: s = n' :: r' \/
       h' = 2%nat /\ (exists hi lo, 240 <= hi < 256 /\ lo < 256 /\ n' = (hi - 240) * 256 + lo /\ b0 :: s = hi :: lo :: r') -> n' = b0 /\ h' = 1%nat /\ r' = s).
    { intros n' h' r' [(-> & Hn & Eq)|(_ & hi & lo & Hh & Hl & -> & Eq)]; [|assert (b0 = hi) by congruence; lia].
      assert (b0 = n') by congruence. assert (s = r') by congruence. now subst. }
    destruct s as [|c s].
    + split; [|reflexivity]. intros _. right. exists b0, 1%nat, []. split; [left; auto|now left].
    + rewrite idx_1, bind_ok. apply Forall_inv_tail in B. apply (K 1%nat b0 c [b0] s); auto. intros hi _ X. discriminate.
Qed.

(** ** Every family *)
Lemma wrap_panic {T} (step : list N -> res (T * nat)) P C (wrap : list T -> addrs) b : step_exact step P -> advances P -> step_crash step C -> bytes_ok b ->
  dec_wrap (dec_loop step (S (length b)) b 0) wrap = Panic <-> many_crash P C b.
Proof.
  intros E A K B. unfold dec_wrap. rewrite <- (items_crash step P C b E A K B). split; [|intros ->; reflexivity]. intros H. apply bind_Panic in H as [H|([? ?] & _ & H)]; [exact H|discriminate].
Qed.
Lemma nlri_panic_l oc p afi sf b : bytes_ok b -> addrs_decode oc p afi sf b = Panic <-> nlri_crash oc p afi sf b.
Proof.
  intros B. unfold addrs_decode.
  assert (F : forall T (ex : extractor T) P C wr wp f s, ex_exact ex P -> ex_within P -> ex_crash ex C -> dec_fam oc ex wr wp p f s b = Panic <-> family_crash oc P C p f s b) by (intros; now apply family_panic).
  assert (X4 := pfx4_exact). assert (X6 := pfx6_exact). assert (W4 := pfx4_within). assert (W6 := pfx6_within). assert (K4 := pfx4_panic). assert (K6 := pfx6_panic).
  assert (NO : (forall afi' sf', afi' = afi -> sf' = sf -> nlri_crash oc p afi' sf' b -> False) -> (Err EOther : res (addrs * nat)) = Panic <-> nlri_crash oc p afi sf b).
  { intros X. split; [discriminate|]. intros Y. exfalso. exact (X _ _ eq_refl eq_refl Y). }
  destruct (N.eqb_spec afi 1) as [->|A1]; [|destruct (N.eqb_spec afi 2) as [->|A2]; [|destruct (N.eqb_spec afi 25) as [->|A3]]].
  - repeat match goal with |- (if ?c =? ?k then _ else _) = _ <-> _ => destruct (N.eqb_spec c k) as [->|?] end; cbn [nlri_crash].
    + now apply F.
    + now apply F.
    + apply F; [now apply labelled_exact|now apply labelled_within|now apply labelled_panic].
    + apply wrap_panic; [apply mv_exact|apply mv_advances|apply mv_panic|exact B].
    + apply F; [apply distinguished_exact, mdt4_exact|apply distinguished_within, mdt4_within|apply distinguished_panic, mdt4_panic].
    + apply F; [now apply labelled_exact, distinguished_exact|now apply labelled_within, distinguished_within|now apply labelled_panic, distinguished_panic].
    + apply F; [now apply labelled_exact, distinguished_exact|now apply labelled_within, distinguished_within|now apply labelled_panic, distinguished_panic].
    + apply wrap_panic; [apply fs_exact, fs4_exact|apply fs_advances|apply fs_panic, fs4_panic|exact B].
    + apply wrap_panic; [apply fs_exact, fsv4_exact|apply fs_advances|apply fs_panic, fsv4_panic|exact B].
    + apply NO. intros f s Ef Es Y. unfold nlri_crash in Y.
      repeat match type of Y with context [match ?x with _ => _ end] => is_var x; destruct x; try contradiction; try congruence end; congruence.
  - repeat match goal with |- (if ?c =? ?k then _ else _) = _ <-> _ => destruct (N.eqb_spec c k) as [->|?] end; cbn [nlri_crash].
    + now apply F.
    + now apply F.
    + apply F; [now apply labelled_exact|now apply labelled_within|now apply labelled_panic].
    + apply F; [apply distinguished_exact, mdt6_exact|apply distinguished_within, mdt6_within|apply distinguished_panic, mdt6_panic].
    + apply F; [now apply labelled_exact, distinguished_exact|now apply labelled_within, distinguished_within|now apply labelled_panic, distinguished_panic].
    + apply F; [now apply labelled_exact, distinguished_exact|now apply labelled_within, distinguished_within|now apply labelled_panic, distinguished_panic].
    + apply wrap_panic; [apply fs_exact, fs6_exact|apply fs_advances|apply fs_panic, fs6_panic|exact B].
    + apply NO. intros f s Ef Es Y. unfold nlri_crash in Y.
      repeat match type of Y with context [match ?x with _ => _ end] => is_var x; destruct x; try contradiction; try congruence end; congruence.
  - repeat match goal with |- (if ?c =? ?k then _ else _) = _ <-> _ => destruct (N.eqb_spec c k) as [->|?] end; cbn [nlri_crash].
    + apply wrap_panic; [apply vpls_exact|apply vpls_advances|apply vpls_panic|exact B].
    + apply wrap_panic; [apply ev_exact|apply ev_advances|apply ev_panic|exact B].
    + apply NO. intros f s Ef Es Y. unfold nlri_crash in Y.
      repeat match type of Y with context [match ?x with _ => _ end] => is_var x; destruct x; try contradiction; try congruence end; congruence.
  - apply NO. intros f s Ef Es Y. unfold nlri_crash in Y.
    repeat match type of Y with context [match ?x with _ => _ end] => is_var x; destruct x; try contradiction; try congruence end; congruence.
Qed.
