(** Proofs of exactly which octets make attributes and UPDATE panic (C103). *)
From Verif Require Import Base BaseFacts M_Util S_Wire F_Util M_Prefix S_Prefix M_Nlri S_Nlri F_Nlri F_Nlri2 M_Session M_Vpls F_Vpls M_Mvpn S_Mvpn F_Mvpn M_Evpn S_Evpn F_Evpn
  M_Flowspec S_Flowspec F_Flowspec M_Cap M_Addrs S_Addrs M_Attr S_Attr S_Attr2 S_Attr3 F_Attr F_Attr3 F_Lay F_Attr4 M_Update S_Update F_Update S_Exact S_Exact2 F_Exact F_Exact2 F_Exact3 F_Exact4 F_Exact5 F_Exact6
  S_Panic F_Panic F_Panic2 F_Panic3.
Ltac Zify.zify_post_hook ::= idtac.

(** ** Multiprotocol attributes *)
Lemma v4rd_np b : bytes_ok b -> v4rd_decode b <> Panic.
Proof.
  intros B H. unfold v4rd_decode in H. destruct (Nat.leb_spec 12 (length b)) as [L|]; [|discriminate].
  rewrite rslice_ok, bind_ok in H by lia. assert (LS : (8 <= length (sub b 0 8))%nat) by (unfold sub; rewrite firstn_length, skipn_length; lia).
  destruct (rd_ok _ LS) as (rd & E). rewrite E, bind_ok, rslice_ok, bind_ok in H by lia.
  apply bind_Panic in H as [H|([a|a] & _ & H)]; [|discriminate..]. revert H. apply addr_np. unfold sub. now apply Forall_firstn, Forall_skipn.
Qed.
Lemma v6rd_np b : bytes_ok b -> v6rd_decode b <> Panic.
Proof.
  intros B H. unfold v6rd_decode in H. destruct (Nat.leb_spec 24 (length b)) as [L|]; [|discriminate].
  rewrite rslice_ok, bind_ok in H by lia. assert (LS : (8 <= length (sub b 0 8))%nat) by (unfold sub; rewrite firstn_length, skipn_length; lia).
  destruct (rd_ok _ LS) as (rd & E). rewrite E, bind_ok, rslice_ok, bind_ok in H by lia.
  apply bind_Panic in H as [H|([a|a] & _ & H)]; [|discriminate..]. revert H. apply addr_np. unfold sub. now apply Forall_firstn, Forall_skipn.
Qed.
Lemma hop_panic afi sf nhlen q s : length q = 4%nat -> bytes_ok s ->
  mp_nexthop afi sf (N.to_nat nhlen) (q ++ s) = Panic <-> bare_hop afi sf /\ (length s < N.to_nat nhlen)%nat.
Proof.
  intros Q B. unfold mp_nexthop, bare_hop.
  assert (R4 : rfrom (q ++ s) 4 = Ok s) by (rewrite (rfrom_peel q s 4) by (auto; lia); apply rfrom_0).
  assert (SL : forall {A} (g : list N -> res A), (forall w, g (firstn w s) <> Panic) ->
    (x <- rslice (q ++ s) 4 (4 + N.to_nat nhlen) ;; g x) = Panic <-> (length s < N.to_nat nhlen)%nat).
  { intros A g G. rewrite (rslice_peel q s 4) by (auto; lia). replace (4 - 4)%nat with 0%nat by lia. replace (4 + N.to_nat nhlen - 4)%nat with (N.to_nat nhlen) by lia.
    destruct (Nat.le_gt_cases (N.to_nat nhlen) (length s)) as [L|L].
    - rewrite rslice_ok, bind_ok by lia. unfold sub. cbn [skipn]. split; [|lia]. intros H. now destruct (G (N.to_nat nhlen - 0)%nat).
    - split; [auto|]. intros _. apply bind_Panic. left. apply rslice_Panic. now right. }
  assert (Bf : forall w, bytes_ok (firstn w s)) by (intros w; now apply Forall_firstn).
  assert (NO : forall {A} (e : res A), e <> Panic -> ~ (afi = 1 /\ In sf [1; 2; 4; 5; 66; 133] \/ afi = 2 /\ In sf [1; 2; 4; 66]) ->
    e = Panic <-> (afi = 1 /\ In sf [1; 2; 4; 5; 66; 133] \/ afi = 2 /\ In sf [1; 2; 4; 66]) /\ (length s < N.to_nat nhlen)%nat).
  { intros A e NE NB. split; [contradiction|]. intros (X & _). contradiction. }
  destruct (N.eqb_spec afi 1) as [->|A1]; [|destruct (N.eqb_spec afi 2) as [->|A2]; [|destruct (N.eqb_spec afi 25) as [->|A3]]].
  - match goal with |- (if ?c then _ else _) = _ <-> _ => destruct c eqn:S1 end; [apply sf_in6 in S1|apply Bool.not_true_iff_false in S1; rewrite sf_in6 in S1; apply NO; [|intros [(_ & X)|(X & _)]; [contradiction|discriminate]]].
    + rewrite SL; [split; [auto|intros (_ & X); exact X]|]. intros w H. apply bind_Panic_pure in H. revert H. apply dec4_np.
    + destruct (_ || _)%bool; [|discriminate]. rewrite R4, bind_ok. intros H. apply bind_Panic in H as [H|([[rd a] n] & _ & H)]; [|discriminate]. revert H. now apply v4rd_np.
  - match goal with |- (if ?c then _ else _) = _ <-> _ => destruct c eqn:S1 end; [apply sf_in4 in S1|apply Bool.not_true_iff_false in S1; rewrite sf_in4 in S1; apply NO; [|intros [(X & _)|(_ & X)]; [discriminate|contradiction]]].
    + rewrite SL; [split; [auto|intros (_ & X); exact X]|]. intros w H. apply bind_Panic_pure in H. revert H. now apply dec6_np.
    + destruct (_ || _)%bool; [|discriminate]. rewrite R4, bind_ok. intros H. apply bind_Panic in H as [H|([[rd a] n] & _ & H)]; [|discriminate]. revert H. now apply v6rd_np.
  - apply NO; [|intros [(X & _)|(X & _)]; discriminate]. destruct (_ || _)%bool; [|discriminate]. rewrite R4, bind_ok. intros H. apply bind_Panic_pure in H. revert H. apply dec4_np.
  - apply NO; [discriminate|]. intros [(X & _)|(X & _)]; contradiction.
Qed.

Lemma snpa_beyond c buf pos : (length buf < pos)%nat -> (e <- snpa_skip c buf pos ;; rfrom buf e) = Panic.
Proof.
  intros L. destruct c as [|c]; cbn [snpa_skip].
  - rewrite bind_ok. now apply rfrom_Panic.
  - replace (idx buf pos) with (@Panic N) by (symmetry; apply idx_Panic; lia). reflexivity.
Qed.
Lemma snpa_panic : forall c q t, bytes_ok t -> (e <- snpa_skip c (q ++ t) (length q) ;; rfrom (q ++ t) e) = Panic <-> snpas_cut c t.
Proof.
  induction c as [|c IH]; intros q t B.
  - cbn [snpa_skip]. rewrite bind_ok, rfrom_ok by (rewrite app_length; lia). split; [discriminate|]. intros H. inversion H.
  - destruct t as [|l t].
    + split; [intros _; constructor|]. intros _. cbn [snpa_skip]. replace (idx (q ++ []) (length q)) with (@Panic N) by (symmetry; apply idx_Panic; rewrite app_length; cbn; lia). reflexivity.
    + cbn [snpa_skip]. rewrite (idx_peel q _ (length q)), Nat.sub_diag by auto. rewrite idx_0, bind_ok.
      apply Forall_cons_iff in B as [Bl B]. unfold is_byte in Bl.
      destruct (Nat.le_gt_cases (N.to_nat l) (length t)) as [L|L].
      * destruct (take_raw (N.to_nat l) t B L) as (d & r & -> & Ld & Bd & Br).
        specialize (IH (q ++ l :: d) r Br). rewrite <- app_assoc in IH. cbn [app] in IH.
        replace (length (q ++ l :: d)) with (length q + (1 + N.to_nat l))%nat in IH by (rewrite app_length; cbn [length]; lia). rewrite IH. split.
        -- intros H. replace l with (N.of_nat (length d)) by lia. constructor; [lia|exact H].
        -- intros H. inversion H as [|k l' s X|k d' s X Y E1]; subst.
           { rewrite app_length in X. lia. }
           assert (LL : length d = length d') by lia. match goal with E : _ ++ _ = _ ++ _ |- _ => apply app_same_len in E as [-> ->]; [|lia] end. exact Y.
      * split; [intros _; now constructor|]. intros _. apply snpa_beyond. rewrite app_length. cbn [length]. lia.
Qed.
Lemma reach_panic oc p b : bytes_ok b -> mpupdates_decode oc p b = Panic <-> reach_crash oc p b.
Proof.
  intros B. unfold reach_crash.
  destruct (Nat.lt_ge_cases (length b) 4) as [L|L].
  - split; [auto|]. intros _. destruct b as [|x0 [|x1 [|x2 [|x3 b]]]]; try reflexivity. cbn in L. lia.
  - destruct (take_be 2 b B ltac:(lia)) as (afi & r & -> & V & Br). rewrite app_length, length_be_bytes in L.
    destruct r as [|sf [|nhlen s]]; [cbn in L; lia|cbn in L; lia|]. apply Forall_cons_iff in Br as [B1 Br]. apply Forall_cons_iff in Br as [B2 Bs].
    unfold mpupdates_decode. rewrite getn_u16_be, bind_ok by exact V. rewrite !(idx_peel (be_bytes 2 afi) _ 2) by (auto using length_be_bytes; lia).
    change (idx (sf :: nhlen :: s) (2 - 2)) with (Ok sf : res N). change (idx (sf :: nhlen :: s) (3 - 2)) with (Ok nhlen : res N). rewrite !bind_ok.
    assert (EB : be_bytes 2 afi ++ sf :: nhlen :: s = (be_bytes 2 afi ++ [sf; nhlen]) ++ s) by (rewrite <- app_assoc; reflexivity). rewrite EB.
    set (q := be_bytes 2 afi ++ [sf; nhlen]) in *. assert (Q : length q = 4%nat) by reflexivity.
    assert (TAIL : forall nh k, (snpa_count <- idx (q ++ s) (4 + k) ;; curpos <- snpa_skip (N.to_nat snpa_count) (q ++ s) (4 + k + 1) ;; s0 <- rfrom (q ++ s) curpos ;;
       '(a, _) <- addrs_decode oc p afi sf s0 ;; Ok (nh, a)) = Panic :> res (bgpaddr * addrs) <->
       ((length s <= k)%nat \/ exists c t, skipn k s = c :: t /\ (snpas_cut (N.to_nat c) t \/ exists rest, snpas (N.to_nat c) t rest /\ nlri_crash oc p afi sf rest))).
    { intros nh k. destruct (Nat.le_gt_cases (length s) k) as [Lk|Lk].
      - split; [auto|]. intros _. apply bind_Panic. left. apply idx_Panic. rewrite app_length. lia.
      - destruct (take_raw k s Bs ltac:(lia)) as (h & s1 & -> & Lh & Bh & B1'). rewrite (idx_peel q _ 4) by (auto; lia). replace (4 + k - 4)%nat with k by lia.
        rewrite (idx_peel h _ k), Nat.sub_diag by auto. rewrite skipn_app_exact by exact Lh. destruct s1 as [|c t]; [rewrite app_length in Lk; cbn in Lk; lia|].
        rewrite idx_0, bind_ok. apply Forall_cons_iff in B1' as [Bc Bt].
        replace (q ++ h ++ c :: t) with ((q ++ h ++ [c]) ++ t) by (now rewrite <- !app_assoc). replace (4 + k + 1)%nat with (length (q ++ h ++ [c])) by (rewrite !app_length; cbn [length]; lia).
        pose proof (snpa_panic (N.to_nat c) (q ++ h ++ [c]) t Bt) as SP.
        assert (SO : forall rest, (e <- snpa_skip (N.to_nat c) ((q ++ h ++ [c]) ++ t) (length (q ++ h ++ [c])) ;; rfrom ((q ++ h ++ [c]) ++ t) e) = Ok rest <-> snpas (N.to_nat c) t rest).
        { intros rest. split.
          - intros H. apply bind_Ok_inv in H as (e & E & H). apply rfrom_Ok_inv in H as [Le ->]. apply snpa_exact in E as (r' & R & <-); auto.
          - intros R. destruct (snpa_conv _ _ _ R (q ++ h ++ [c])) as (e & E & Le & ER). now rewrite E, bind_ok, rfrom_ok, ER by exact Le. }
        set (g := e <- snpa_skip (N.to_nat c) ((q ++ h ++ [c]) ++ t) (length (q ++ h ++ [c])) ;; rfrom ((q ++ h ++ [c]) ++ t) e) in *.
        replace (curpos <- _ ;; _) with (s0 <- g ;; '(a, _) <- addrs_decode oc p afi sf s0 ;; Ok (nh, a)) by (unfold g; destruct (snpa_skip _ _ _); reflexivity).
        assert (BR : forall rest, snpas (N.to_nat c) t rest -> bytes_ok rest).
        { intros rest R. clear - R Bt. revert Bt. induction R as [|k d s rest L R IH]; intros Bt; [exact Bt|]. apply IH. apply Forall_cons_iff in Bt as [_ Bt]. now apply bytes_app in Bt. }
        rewrite bind_Panic. split.
        + intros [H|(rest & H & K)]; right; exists c, t; (split; [reflexivity|]); [left; now apply SP|right]. exists rest. apply SO in H. split; [exact H|].
          apply bind_Panic in K as [K|([a n] & _ & K)]; [|discriminate]. apply nlri_panic_l in K; auto.
        + intros [X|(c' & t' & E & H)]; [lia|]. injection E as <- <-. destruct H as [H|(rest & R & H)]; [left; now apply SP|right]. exists rest. split; [now apply SO|].
          apply bind_Panic. left. apply nlri_panic_l; auto. }
    assert (HP := hop_panic afi sf nhlen q s Q Bs). assert (HO := fun nh k => hop_exact afi sf nhlen q s nh k Q Bs).
    rewrite bind_Panic. split.
    + intros [H|([nh k] & E & H)]; right; exists afi, sf, nhlen, s; (split; [exact (eq_sym EB)|]); (split; [exact V|]).
      * left. now apply HP.
      * right. apply HO in E as (j & -> & E). exists nh, j. split; [exact E|]. now apply (TAIL nh).
    + intros [X|(afi' & sf' & nhlen' & s' & E & V' & H)]; [rewrite app_length in X; lia|].
      rewrite <- EB in E. apply app_same_len in E as [E1 E2]; [|now rewrite !length_be_bytes]. apply be_bytes_inj in E1; [|exact V|exact V']. injection E2 as <- <- <-. subst afi'.
      destruct H as [H|(nh & k & R & H)]; [left; now apply HP|right]. exists (nh, (4 + k)%nat). split; [apply HO; eauto|]. now apply (TAIL nh).
Qed.
Lemma unreach_panic oc p b : bytes_ok b -> mpwithdraws_decode oc p b = Panic <-> unreach_crash oc p b.
Proof.
  intros B. unfold unreach_crash.
  destruct (Nat.lt_ge_cases (length b) 3) as [L|L].
  - split; [auto|]. intros _. destruct b as [|x0 [|x1 [|x2 b]]]; try reflexivity. cbn in L. lia.
  - destruct (take_be 2 b B ltac:(lia)) as (afi & r & -> & V & Br). rewrite app_length, length_be_bytes in L.
    destruct r as [|sf s]; [cbn in L; lia|]. apply Forall_cons_iff in Br as [B1 Bs].
    unfold mpwithdraws_decode. rewrite getn_u16_be, bind_ok by exact V. rewrite (idx_peel _ _ 2), (rfrom_peel _ _ 2) by (auto using length_be_bytes).
    change (idx (sf :: s) (2 - 2)) with (Ok sf : res N). change (rfrom (sf :: s) (3 - 2)) with (Ok s : res (list N)). rewrite !bind_ok. split.
    + intros H. apply bind_Panic in H as [H|([a n] & _ & H)]; [|discriminate]. right. exists afi, sf, s. apply nlri_panic_l in H; auto.
    + intros [X|(afi' & sf' & s' & E & V' & H)]; [rewrite app_length, length_be_bytes in X; lia|]. apply app_same_len in E as [E1 E2]; [|now rewrite !length_be_bytes].
      apply be_bytes_inj in E1; [|exact V|exact V']. injection E2 as <- <-. subst afi'. apply bind_Panic. left. apply nlri_panic_l; auto.
Qed.
