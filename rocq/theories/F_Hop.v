(** Proofs about the next hops of multiprotocol announcements. *)
From Verif Require Import Base BaseFacts M_Util S_Wire F_Util M_Prefix M_Nlri S_Nlri F_Nlri F_Lay M_Cap M_Open M_Session M_Addrs M_Attr F_Attr S_Hop.
Ltac Zify.zify_post_hook ::= idtac.

Lemma hop_len h : N.of_nat (length (hop_wire h)) < 256.
Proof. destruct h; cbn [hop_wire]; rewrite ?app_length, ?length_rd_wire, ?length_be_bytes; cbn [length]; clear; lia. Qed.
(** the next hop in front of anything *)
Lemma reach_steps oc p f n afi sf h r nh k s : afi < 65536 ->
  mp_nexthop afi sf (length (hop_wire h)) (be_bytes 2 afi ++ [sf; N.of_nat (length (hop_wire h))] ++ hop_wire h ++ [0] ++ r) = Ok (nh, (4 + k)%nat) ->
  skipn k (hop_wire h ++ [0] ++ r) = 0 :: s -> attr_decode oc p 14 f n (announcement afi sf h r) = reported oc p afi sf nh s.
Proof.
  intros Ha Hn Hs. unfold attr_decode. cbn [attr_decode_n N.eqb Pos.eqb]. unfold mpupdates_decode, announcement, reported.
  rewrite getn_u16_be by exact Ha. rewrite bind_ok.
  set (w := hop_wire h) in *. set (buf := be_bytes 2 afi ++ [sf; N.of_nat (length w)] ++ w ++ [0] ++ r) in *.
  change (idx buf 2) with (Ok sf). rewrite bind_ok. change (idx buf 3) with (Ok (N.of_nat (length w))). rewrite bind_ok, Nat2N.id, Hn, bind_ok.
  assert (K : skipn (4 + k) buf = 0 :: s) by exact Hs.
  assert (I : idx buf (4 + k) = Ok 0) by (rewrite <- (Nat.add_0_r (4 + k)), <- idx_skipn, K; reflexivity).
  rewrite I, bind_ok. cbn [N.to_nat snpa_skip]. rewrite bind_ok.
  assert (L : (4 + k + 1 <= length buf)%nat).
  { pose proof (f_equal (@length N) K) as L. rewrite skipn_length in L. cbn [length] in L. clear - L. lia. }
  rewrite rfrom_ok by exact L. rewrite bind_ok.
  replace (skipn (4 + k + 1) buf) with s by (rewrite <- skipn_skipn', K; reflexivity).
  destruct (addrs_decode oc p afi sf s) as [[a m]| | |]; reflexivity.
Qed.
Lemma hop_slice afi sf c w t : rslice (be_bytes 2 afi ++ [sf; c] ++ w ++ t) 4 (4 + length w) = Ok w.
Proof.
  change (be_bytes 2 afi ++ [sf; c] ++ w ++ t) with ((be_bytes 2 afi ++ [sf; c]) ++ w ++ t).
  rewrite rslice_ok by (rewrite ?app_length, ?length_be_bytes; cbn [length]; lia). f_equal. apply sub_app_exact; rewrite ?app_length, ?length_be_bytes; cbn [length]; lia.
Qed.
Lemma hop_from afi sf c t : rfrom (be_bytes 2 afi ++ [sf; c] ++ t) 4 = Ok t.
Proof. rewrite rfrom_ok by (rewrite ?app_length, ?length_be_bytes; cbn [length]; lia). reflexivity. Qed.
Lemma at_end {A} (w t : list A) : skipn (length w) (w ++ t) = t.
Proof. now apply skipn_app_exact. Qed.
Ltac sfs H := cbn [In] in H; repeat (destruct H as [H|H]; [subst; cbn [N.eqb Pos.eqb orb]|]); try contradiction.
Lemma top4 x : x < 2 ^ 128 -> be_bytes 16 x = be_bytes 4 (x / 2 ^ 96) ++ be_bytes 12 x /\ x / 2 ^ 96 < 2 ^ 32.
Proof.
  intros H. split; [exact (be_bytes_split 4 12 x)|]. apply N.div_lt_upper_bound; [discriminate|]. rewrite <- N.pow_add_r. exact H.
Qed.
Lemma known_reported oc p f n afi sf h nh r : hop_wf h -> known_hop afi sf h nh ->
  attr_decode oc p 14 f n (announcement afi sf h r) = reported oc p afi sf nh r.
Proof.
  intros Hw Hk. destruct h, nh; cbn [known_hop hop_wf] in *; try contradiction.
  - destruct Hk as (<- & [[-> Hs]|[-> Hs]]); (apply (reach_steps _ _ _ _ _ _ _ _ _ (length (hop_wire (Hop4 a)))); [reflexivity| |apply at_end]);
      unfold mp_nexthop; cbn [N.eqb Pos.eqb]; sfs Hs; rewrite ?hop_slice, ?hop_from, bind_ok; cbn [hop_wire];
      first [rewrite <- (app_nil_r (be_bytes 4 a)), decode_addrv4_be by exact Hw; rewrite app_nil_r; reflexivity|rewrite decode_addrv4_be by exact Hw; reflexivity].
  - destruct Hk as (<- & -> & Hs). apply (reach_steps _ _ _ _ _ _ _ _ _ (length (hop_wire (Hop6 a)))); [reflexivity| |apply at_end].
    unfold mp_nexthop; cbn [N.eqb Pos.eqb]; sfs Hs; rewrite hop_slice, bind_ok; cbn [hop_wire]; rewrite <- (app_nil_r (be_bytes 16 a)), decode_addrv6_be by exact Hw; rewrite app_nil_r; reflexivity.
  - destruct Hk as (<- & -> & Hs). destruct Hw as [Hw _]. apply (reach_steps _ _ _ _ _ _ _ _ _ (length (hop_wire (Hop6Local a b)))); [reflexivity| |apply at_end].
    unfold mp_nexthop; cbn [N.eqb Pos.eqb]; sfs Hs; rewrite hop_slice, bind_ok; cbn [hop_wire]; rewrite decode_addrv6_be by exact Hw; reflexivity.
  - destruct Hk as (<- & <- & -> & Hs). apply (reach_steps _ _ _ _ _ _ _ _ _ (length (hop_wire (HopRD4 rd a)))); [reflexivity| |apply at_end].
    unfold mp_nexthop; cbn [N.eqb Pos.eqb]; sfs Hs; rewrite hop_from, bind_ok; cbn [hop_wire]; rewrite v4rd_decode_wire by apply Hw; rewrite bind_ok, app_length, length_rd_wire, length_be_bytes; reflexivity.
  - destruct Hk as (<- & <- & -> & Hs). apply (reach_steps _ _ _ _ _ _ _ _ _ (length (hop_wire (HopRD6 rd a)))); [reflexivity| |apply at_end].
    unfold mp_nexthop; cbn [N.eqb Pos.eqb]; sfs Hs; rewrite hop_from, bind_ok; cbn [hop_wire]; rewrite v6rd_decode_wire by apply Hw; rewrite bind_ok, app_length, length_rd_wire, length_be_bytes; reflexivity.
Qed.

(** ** IPv6 next hops of other families *)
Lemma mixed_reported oc p f n afi sf x r h : x < 2 ^ 128 -> (h = Hop6 x \/ exists b, h = Hop6Local x b) ->
  (afi = 1 /\ In sf [1; 2; 4; 5; 66; 133] \/ afi = 25 /\ In sf [65; 70]) ->
  attr_decode oc p 14 f n (announcement afi sf h r) = reported oc p afi sf (BAV4 (x / 2 ^ 96)) r.
Proof.
  intros Hx Hh Hk. destruct (top4 x Hx) as [T B].
  assert (W : exists t, hop_wire h = be_bytes 4 (x / 2 ^ 96) ++ t).
  { destruct Hh as [->|[b ->]]; cbn [hop_wire]; rewrite T; [eauto|]. rewrite <- app_assoc. eauto. }
  destruct W as [t W]. apply (reach_steps _ _ _ _ _ _ _ _ _ (length (hop_wire h))); [destruct Hk as [[-> _]|[-> _]]; reflexivity| |apply at_end].
  destruct Hk as [[-> Hs]|[-> Hs]]; unfold mp_nexthop; cbn [N.eqb Pos.eqb]; sfs Hs; rewrite ?hop_slice, ?hop_from, bind_ok, W, <- ?app_assoc, decode_addrv4_be by exact B; reflexivity.
Qed.
Lemma mixed_vpn oc p f n sf rd x r a : rd_wf rd -> x < 2 ^ 128 -> In sf [128; 129; 134] ->
  attr_decode oc p 14 f n (announcement 1 sf (HopRD6 rd x) r) = Ok a -> exists v, a = AMPUpdates (BAV4RD rd (x / 2 ^ 96)) v.
Proof.
  intros Hr Hx Hs E. destruct (top4 x Hx) as [T B]. unfold attr_decode in E. cbn [attr_decode_n N.eqb Pos.eqb] in E.
  unfold mpupdates_decode, announcement in E. rewrite getn_u16_be in E by reflexivity. rewrite bind_ok in E.
  set (w := hop_wire (HopRD6 rd x)) in *. set (buf := be_bytes 2 1 ++ [sf; N.of_nat (length w)] ++ w ++ [0] ++ r) in *.
  change (idx buf 2) with (Ok sf) in E. rewrite bind_ok in E. change (idx buf 3) with (Ok (N.of_nat (length w))) in E. rewrite bind_ok, Nat2N.id in E.
  assert (M : mp_nexthop 1 sf (length w) buf = Ok (BAV4RD rd (x / 2 ^ 96), 16%nat)).
  { unfold mp_nexthop, buf. cbn [N.eqb Pos.eqb]. sfs Hs; rewrite hop_from, bind_ok; unfold w; cbn [hop_wire]; rewrite T;
      rewrite <- !app_assoc, (app_assoc (rd_wire rd)), v4rd_decode_wire by (exact Hr || exact B); reflexivity. }
  rewrite M, bind_ok in E. apply bind_Ok_inv in E as ([nh v] & E & EA). injection EA as <-.
  apply bind_Ok_inv in E as (c & _ & E). apply bind_Ok_inv in E as (q & _ & E). apply bind_Ok_inv in E as (s & _ & E).
  apply bind_Ok_inv in E as ([v' m] & _ & E). injection E as <- <-. eauto.
Qed.
Lemma local_vpn oc p f n sf rd x rd' y r : rd_wf rd -> x < 2 ^ 128 -> rdh rd' < 2 ^ 24 -> In sf [128; 129] ->
  attr_decode oc p 14 f n (announcement 2 sf (HopRD6Local rd x rd' y) r) =
  reported oc p 2 sf (BAV6RD rd x) (skipn 1 (rd_wire rd') ++ be_bytes 16 y ++ [0] ++ r).
Proof.
  intros Hr Hx Hd Hs. apply (reach_steps _ _ _ _ _ _ _ _ _ 24%nat); [reflexivity| |].
  - unfold mp_nexthop. cbn [N.eqb Pos.eqb]. sfs Hs; rewrite hop_from, bind_ok; cbn [hop_wire]; rewrite <- (app_assoc (rd_wire rd ++ be_bytes 16 x)), v6rd_decode_wire by assumption; reflexivity.
  - cbn [hop_wire]. rewrite <- (app_assoc (rd_wire rd ++ be_bytes 16 x)), skipn_app_exact by (rewrite app_length, length_rd_wire, length_be_bytes; reflexivity).
    rewrite <- app_assoc. unfold rd_wire. change (be_bytes 4 (rdh rd')) with (be_bytes (1 + 3) (rdh rd')). rewrite (be_bytes_split 1 3).
    change (8 * N.of_nat 3) with 24. rewrite N.div_small by exact Hd. reflexivity.
Qed.

(** ** flow specifications *)
Lemma flow_refused oc p f n r : attr_decode oc p 14 f n (announcement 1 133 NoHop r) = Err EOther /\
  forall h, attr_decode oc p 14 f n (announcement 2 133 h r) = Err EOther.
Proof.
  split.
  - unfold attr_decode. cbn [attr_decode_n N.eqb Pos.eqb]. reflexivity.
  - intros h. unfold attr_decode. cbn [attr_decode_n N.eqb Pos.eqb]. unfold mpupdates_decode, announcement. rewrite getn_u16_be by reflexivity. reflexivity.
Qed.
