(** Proofs about the octet behind the next hop. *)
From Verif Require Import Base BaseFacts M_Util S_Wire F_Util M_Prefix M_Nlri S_Nlri F_Nlri F_Lay M_Cap M_Open M_Session M_Addrs M_Attr F_Attr F_Exact5 S_Hop F_Hop S_Snpa.
Ltac Zify.zify_post_hook ::= idtac.

Lemma hop_read afi sf h nh t : hop_wf h -> known_hop afi sf h nh ->
  mp_nexthop afi sf (length (hop_wire h)) (be_bytes 2 afi ++ [sf; N.of_nat (length (hop_wire h))] ++ hop_wire h ++ t) = Ok (nh, (4 + length (hop_wire h))%nat).
Proof.
  intros Hw Hk. destruct h, nh; cbn [known_hop hop_wf] in *; try contradiction.
  - destruct Hk as (<- & [[-> Hs]|[-> Hs]]);
      unfold mp_nexthop; cbn [N.eqb Pos.eqb]; sfs Hs; rewrite ?hop_slice, ?hop_from, bind_ok; cbn [hop_wire];
      first [rewrite <- (app_nil_r (be_bytes 4 a)), decode_addrv4_be by exact Hw; rewrite app_nil_r; reflexivity|rewrite decode_addrv4_be by exact Hw; reflexivity].
  - destruct Hk as (<- & -> & Hs).
    unfold mp_nexthop; cbn [N.eqb Pos.eqb]; sfs Hs; rewrite hop_slice, bind_ok; cbn [hop_wire]; rewrite <- (app_nil_r (be_bytes 16 a)), decode_addrv6_be by exact Hw; rewrite app_nil_r; reflexivity.
  - destruct Hk as (<- & -> & Hs). destruct Hw as [Hw _].
    unfold mp_nexthop; cbn [N.eqb Pos.eqb]; sfs Hs; rewrite hop_slice, bind_ok; cbn [hop_wire]; rewrite decode_addrv6_be by exact Hw; reflexivity.
  - destruct Hk as (<- & <- & -> & Hs).
    unfold mp_nexthop; cbn [N.eqb Pos.eqb]; sfs Hs; rewrite hop_from, bind_ok; cbn [hop_wire]; rewrite v4rd_decode_wire by apply Hw; rewrite bind_ok, app_length, length_rd_wire, length_be_bytes; reflexivity.
  - destruct Hk as (<- & <- & -> & Hs).
    unfold mp_nexthop; cbn [N.eqb Pos.eqb]; sfs Hs; rewrite hop_from, bind_ok; cbn [hop_wire]; rewrite v6rd_decode_wire by apply Hw; rewrite bind_ok, app_length, length_rd_wire, length_be_bytes; reflexivity.
Qed.
Lemma snpas_past c buf pos : (length buf < pos)%nat -> (q <- snpa_skip c buf pos ;; rfrom buf q) = Panic.
Proof.
  intros H. destruct c as [|c]; cbn [snpa_skip].
  - rewrite bind_ok. unfold rfrom. destruct (Nat.leb_spec pos (length buf)); [lia|reflexivity].
  - unfold idx. assert (E : nth_error buf pos = None) by (apply nth_error_None; lia). rewrite E. reflexivity.
Qed.
Lemma snpas_skipped c : forall buf pos, (pos <= length buf)%nat ->
  (q <- snpa_skip c buf pos ;; rfrom buf q) = match behind_snpas c (skipn pos buf) with Some s => Ok s | None => Panic end.
Proof.
  induction c as [|c IH]; intros buf pos H; cbn [snpa_skip behind_snpas].
  - rewrite bind_ok, rfrom_ok by exact H. reflexivity.
  - destruct (skipn pos buf) as [|l r] eqn:E.
    + assert (L : length (skipn pos buf) = 0%nat) by now rewrite E. rewrite skipn_length in L.
      unfold idx. assert (X : nth_error buf pos = None) by (apply nth_error_None; lia). rewrite X. reflexivity.
    + assert (L : (length buf - pos)%nat = S (length r)) by (rewrite <- skipn_length, E; reflexivity).
      assert (I : idx buf pos = Ok l) by (rewrite <- (Nat.add_0_r pos), <- idx_skipn, E; reflexivity). rewrite I, bind_ok.
      destruct (Nat.leb_spec (N.to_nat l) (length r)) as [K|K].
      * rewrite IH by lia. rewrite <- skipn_skipn', E. reflexivity.
      * apply snpas_past. lia.
Qed.
Lemma known_afi afi sf h nh : known_hop afi sf h nh -> afi < 65536.
Proof. destruct h, nh; cbn [known_hop]; try contradiction; intros H; repeat match goal with H : _ /\ _ |- _ => destruct H | H : _ \/ _ |- _ => destruct H end; subst; reflexivity. Qed.
Lemma reserved_reported oc p f n afi sf h nh c r : hop_wf h -> known_hop afi sf h nh ->
  attr_decode oc p 14 f n (announcement_with c afi sf h r) =
  match behind_snpas (N.to_nat c) r with Some s => reported oc p afi sf nh s | None => Panic end.
Proof.
  intros Hw Hk. pose proof (known_afi _ _ _ _ Hk) as Ha. unfold attr_decode. cbn [attr_decode_n N.eqb Pos.eqb]. unfold mpupdates_decode, announcement_with, reported.
  rewrite getn_u16_be by exact Ha. rewrite bind_ok. pose proof (hop_read afi sf h nh ([c] ++ r) Hw Hk) as Hn.
  set (w := hop_wire h) in *. set (buf := be_bytes 2 afi ++ [sf; N.of_nat (length w)] ++ w ++ [c] ++ r) in *.
  change (idx buf 2) with (Ok sf). rewrite bind_ok. change (idx buf 3) with (Ok (N.of_nat (length w))). rewrite bind_ok, Nat2N.id, Hn, bind_ok.
  assert (K : skipn (4 + length w) buf = c :: r) by exact (at_end w (c :: r)).
  assert (I : idx buf (4 + length w) = Ok c) by (rewrite <- (Nat.add_0_r (4 + length w)), <- idx_skipn, K; reflexivity).
  assert (L : (4 + length w + 1 <= length buf)%nat).
  { pose proof (f_equal (@length N) K) as L. rewrite skipn_length in L. cbn [length] in L. clear - L. lia. }
  rewrite I, bind_ok. pose proof (snpas_skipped (N.to_nat c) buf (4 + length w + 1) L) as S.
  replace (skipn (4 + length w + 1) buf) with r in S by (rewrite <- skipn_skipn', K; reflexivity).
  destruct (snpa_skip (N.to_nat c) buf (4 + length w + 1)) as [q| | |]; cbn [bind] in S |- *; destruct (behind_snpas (N.to_nat c) r) as [s|]; try discriminate S; try reflexivity; rewrite S; try reflexivity.
  cbn [bind]. destruct (addrs_decode oc p afi sf s) as [[a m]| | |]; reflexivity.
Qed.
Lemma behind_short c : forall r, (length r < c)%nat -> behind_snpas c r = None.
Proof.
  induction c as [|c IH]; intros r H; [lia|]. destruct r as [|l r]; [reflexivity|]. cbn [behind_snpas length] in *.
  destruct (Nat.leb_spec (N.to_nat l) (length r)); [|reflexivity]. apply IH. rewrite skipn_length. lia.
Qed.
Lemma reserved_stops oc p f n afi sf h nh c r : hop_wf h -> known_hop afi sf h nh -> N.of_nat (length r) < c ->
  attr_decode oc p 14 f n (announcement_with c afi sf h r) = Panic.
Proof. intros Hw Hk Hc. rewrite (reserved_reported _ _ _ _ _ _ _ nh) by assumption. rewrite behind_short; [reflexivity|]. lia. Qed.
Lemma flow_vpn_hop oc p f n r a : bytes_ok r -> attr_decode oc p 14 f n (announcement 1 134 NoHop r) = Ok a ->
  exists rd x v t, a = AMPUpdates (BAV4RD rd x) v /\ 0 :: r = rd_wire rd ++ be_bytes 4 x ++ t.
Proof.
  intros B E. unfold attr_decode in E. cbn [attr_decode_n N.eqb Pos.eqb] in E. unfold mpupdates_decode, announcement in E. rewrite getn_u16_be in E by reflexivity. rewrite bind_ok in E.
  cbn [hop_wire length] in E. set (buf := be_bytes 2 1 ++ [134; N.of_nat 0] ++ [] ++ [0] ++ r) in *.
  change (idx buf 2) with (Ok 134) in E. rewrite bind_ok in E. change (idx buf 3) with (Ok 0) in E. rewrite bind_ok in E.
  apply bind_Ok_inv in E as ([nh v] & E & EA). injection EA as <-. apply bind_Ok_inv in E as ([nh' c] & M & E).
  unfold mp_nexthop in M. cbn [N.eqb Pos.eqb orb] in M. apply bind_Ok_inv in M as (s & Hs & M). change (rfrom buf 4) with (Ok (0 :: r)) in Hs. injection Hs as <-.
  apply bind_Ok_inv in M as ([[rd x] k] & M & X). injection X as <- <-.
  apply bind_Ok_inv in E as (c' & _ & E). apply bind_Ok_inv in E as (q & _ & E). apply bind_Ok_inv in E as (s & _ & E). apply bind_Ok_inv in E as ([v' m] & _ & E). injection E as <- <-.
  apply v4rd_exact in M as (_ & _ & _ & t & Et); [|apply Forall_cons; [reflexivity|exact B]]. exists rd, x, v', t. auto.
Qed.
