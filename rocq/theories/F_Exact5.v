(** Proofs about what octets mean: multiprotocol attributes and PMSI tunnels. *)
From Verif Require Import Base BaseFacts M_Util S_Wire F_Util M_Prefix S_Prefix M_Nlri S_Nlri F_Nlri F_Nlri2 M_Session M_Vpls F_Vpls M_Mvpn S_Mvpn F_Mvpn M_Evpn S_Evpn F_Evpn
  M_Flowspec S_Flowspec F_Flowspec M_Cap M_Addrs S_Addrs M_Attr S_Attr F_Attr F_Attr3 S_Attr3 F_Lay F_Attr4 M_Update S_Exact S_Exact2 F_Exact F_Exact2 F_Exact3 F_Exact4.
Ltac Zify.zify_post_hook ::= idtac.

Lemma v4rd_exact b rd a n : bytes_ok b -> v4rd_decode b = Ok (rd, a, n) <-> n = 12%nat /\ rd_wf rd /\ a < 2 ^ 32 /\ exists r, b = rd_wire rd ++ be_bytes 4 a ++ r.
Proof.
  intros B. split.
  - intros H. assert (L : (12 <= length b)%nat) by (unfold v4rd_decode in H; leb_in H; assumption).
    t_rd B L. t_be 4%nat B L. rewrite app_assoc in H. rewrite v4rd_decode_wire in H by assumption. assert (E := Ok_inj _ _ H).
    assert (E1 := f_equal (fun x => fst (fst x)) E). assert (E2 := f_equal (fun x => snd (fst x)) E). assert (E3 := f_equal snd E). cbn [fst snd] in E1, E2, E3. subst.
    split; [reflexivity|]. split; [assumption|]. split; [assumption|]. eexists. reflexivity.
  - intros (-> & W & A & r & ->). rewrite app_assoc. now apply v4rd_decode_wire.
Qed.
Lemma v6rd_exact b rd a n : bytes_ok b -> v6rd_decode b = Ok (rd, a, n) <-> n = 24%nat /\ rd_wf rd /\ a < 2 ^ 128 /\ exists r, b = rd_wire rd ++ be_bytes 16 a ++ r.
Proof.
  intros B. split.
  - intros H. assert (L : (24 <= length b)%nat) by (unfold v6rd_decode in H; leb_in H; assumption).
    t_rd B L. t_be 16%nat B L. rewrite app_assoc in H. rewrite v6rd_decode_wire in H by assumption. assert (E := Ok_inj _ _ H).
    assert (E1 := f_equal (fun x => fst (fst x)) E). assert (E2 := f_equal (fun x => snd (fst x)) E). assert (E3 := f_equal snd E). cbn [fst snd] in E1, E2, E3. subst.
    split; [reflexivity|]. split; [assumption|]. split; [assumption|]. eexists. reflexivity.
  - intros (-> & W & A & r & ->). rewrite app_assoc. now apply v6rd_decode_wire.
Qed.
Lemma addr4_exact b a : bytes_ok b -> decode_addrv4_from b = Ok a <-> a < 2 ^ 32 /\ exists r, b = be_bytes 4 a ++ r.
Proof.
  intros B. split.
  - intros H. assert (L := dec4_len _ _ H). t_be 4%nat B L. rewrite decode_addrv4_be in H by assumption. apply Ok_inj in H. subst. split; [assumption|]. eexists. reflexivity.
  - intros (A & r & ->). now apply decode_addrv4_be.
Qed.
Lemma addr6_exact b a : bytes_ok b -> decode_addrv6_from b = Ok a <-> a < 2 ^ 128 /\ exists r, b = be_bytes 16 a ++ r.
Proof.
  intros B. split.
  - intros H. assert (L := dec6_len _ _ H). t_be 16%nat B L. rewrite decode_addrv6_be in H by assumption. apply Ok_inj in H. subst. split; [assumption|]. eexists. reflexivity.
  - intros (A & r & ->). now apply decode_addrv6_be.
Qed.

(** the next hop: [q] is a list of four octets *)
Lemma sf_in6 sf : (sf =? 1) || (sf =? 2) || (sf =? 4) || (sf =? 5) || (sf =? 66) || (sf =? 133) = true <-> In sf [1; 2; 4; 5; 66; 133].
Proof. rewrite !orb_true_iff, !N.eqb_eq. cbn [In]. intuition congruence. Qed.
Lemma sf_in3 sf : (sf =? 128) || (sf =? 129) || (sf =? 134) = true <-> In sf [128; 129; 134].
Proof. rewrite !orb_true_iff, !N.eqb_eq. cbn [In]. intuition congruence. Qed.
Lemma sf_in4 sf : (sf =? 1) || (sf =? 2) || (sf =? 4) || (sf =? 66) = true <-> In sf [1; 2; 4; 66].
Proof. rewrite !orb_true_iff, !N.eqb_eq. cbn [In]. intuition congruence. Qed.
Lemma sf_in2 sf : (sf =? 128) || (sf =? 129) = true <-> In sf [128; 129].
Proof. rewrite !orb_true_iff, !N.eqb_eq. cbn [In]. intuition congruence. Qed.
Lemma sf_in25 sf : (sf =? 65) || (sf =? 70) = true <-> In sf [65; 70].
Proof. rewrite !orb_true_iff, !N.eqb_eq. cbn [In]. intuition congruence. Qed.
Lemma apart l1 l2 x : forallb (fun y => negb (existsb (N.eqb y) l2)) l1 = true -> In x l1 -> In x l2 -> False.
Proof.
  intros F I1 I2. rewrite forallb_forall in F. specialize (F x I1). apply negb_true_iff in F. apply Bool.not_true_iff_false in F. apply F.
  apply existsb_exists. exists x. split; [exact I2|apply N.eqb_refl].
Qed.
Ltac no_sf := match goal with H1 : In ?x _, H2 : In ?x _ |- _ => apply (apart _ _ x) with (2 := H1) (3 := H2); reflexivity end.

Lemma hop_exact afi sf nhlen q s nh k : length q = 4%nat -> bytes_ok s ->
  mp_nexthop afi sf (N.to_nat nhlen) (q ++ s) = Ok (nh, k) <-> exists j, k = (4 + j)%nat /\ hop_reads afi sf nhlen s nh j.
Proof.
  intros Q B. unfold mp_nexthop.
  assert (R4 : rfrom (q ++ s) 4 = Ok s) by (rewrite (rfrom_peel q s 4) by (auto; lia); apply rfrom_0).
  assert (SL : forall w, (rslice (q ++ s) 4 (4 + w) = Ok (firstn w s) /\ (w <= length s)%nat) \/ (rslice (q ++ s) 4 (4 + w) = Panic /\ (length s < w)%nat)).
  { intros w. rewrite (rslice_peel q s 4) by (auto; lia). replace (4 - 4)%nat with 0%nat by lia. replace (4 + w - 4)%nat with w by lia.
    destruct (Nat.le_gt_cases w (length s)) as [L|L].
    - left. split; [|exact L]. rewrite rslice_ok by lia. unfold sub. cbn [skipn]. now rewrite Nat.sub_0_r.
    - right. split; [|exact L]. unfold rslice. destruct (Nat.leb_spec w (length s)); [lia|]. now rewrite andb_false_r. }
  assert (Bf : forall w, bytes_ok (firstn w s)) by (intros w; now apply Forall_firstn).
  destruct (N.eqb_spec afi 1) as [->|A1]; [|destruct (N.eqb_spec afi 2) as [->|A2]; [|destruct (N.eqb_spec afi 25) as [->|A3]]].
  - match goal with |- (if ?c then _ else _) = _ <-> _ => destruct c eqn:S1 end; [apply sf_in6 in S1|match goal with |- (if ?c then _ else _) = _ <-> _ => destruct c eqn:S2 end; [apply sf_in3 in S2|]].
    + split.
      * intros H. destruct (SL (N.to_nat nhlen)) as [(E & L)|(E & L)]; rewrite E in H; [|discriminate]. rewrite bind_ok in H.
        apply bind_Ok_inv in H as (a & D & H). injection H as <- <-. apply addr4_exact in D as (A & r & D); [|apply Bf].
        exists (N.to_nat nhlen). split; [reflexivity|]. assert (LF : length (firstn (N.to_nat nhlen) s) = N.to_nat nhlen) by (rewrite firstn_length; lia).
        rewrite D, app_length, length_be_bytes in LF. rewrite <- LF. apply (hop_v4 _ _ _ _ a r (skipn (N.to_nat nhlen) s)); auto.
        { rewrite app_assoc, <- D. symmetry. apply firstn_skipn. } { lia. }
      * intros (j & -> & R). inversion R as [a h r EA ES EB HA EN|rd a r EA ES|a h r EA|rd a r EA|a r EA]; subst; try discriminate; [|exfalso; no_sf].
        replace (N.to_nat (N.of_nat (4 + length h))) with (4 + length h)%nat by lia. 
        destruct (SL (4 + length h)%nat) as [(E & L)|(E & L)]; [|rewrite !app_length, length_be_bytes in L; lia]. rewrite E, bind_ok.
        rewrite app_assoc. replace (4 + length h)%nat with (length (be_bytes 4 a ++ h)) at 1 by (now rewrite app_length, length_be_bytes).
        rewrite firstn_app, firstn_all, Nat.sub_diag, firstn_O, app_nil_r, decode_addrv4_be by exact HA. reflexivity.
    + rewrite R4, bind_ok. split.
      * intros H. apply bind_Ok_inv in H as ([[rd a] n] & D & H). injection H as <- <-. apply v4rd_exact in D as (-> & W & A & r & ->); [|exact B].
        exists 12%nat. split; [reflexivity|]. now apply (hop_rd4 _ _ _ _ rd a r).
      * intros (j & -> & R). inversion R as [a h r EA ES EB HA EN|rd a r EA ES EB W HA|a h r EA|rd a r EA|a r EA]; subst; try discriminate; [exfalso; no_sf|].
        rewrite app_assoc, v4rd_decode_wire by assumption. reflexivity.
    + split; [discriminate|]. intros (j & -> & R). exfalso. inversion R; subst; try discriminate.
      * apply Bool.not_true_iff_false in S1. apply S1, sf_in6. assumption.
      * apply Bool.not_true_iff_false in S2. apply S2, sf_in3. assumption.
  - match goal with |- (if ?c then _ else _) = _ <-> _ => destruct c eqn:S1 end; [apply sf_in4 in S1|match goal with |- (if ?c then _ else _) = _ <-> _ => destruct c eqn:S2 end; [apply sf_in2 in S2|]].
    + split.
      * intros H. destruct (SL (N.to_nat nhlen)) as [(E & L)|(E & L)]; rewrite E in H; [|discriminate]. rewrite bind_ok in H.
        apply bind_Ok_inv in H as (a & D & H). injection H as <- <-. apply addr6_exact in D as (A & r & D); [|apply Bf].
        exists (N.to_nat nhlen). split; [reflexivity|]. assert (LF : length (firstn (N.to_nat nhlen) s) = N.to_nat nhlen) by (rewrite firstn_length; lia).
        rewrite D, app_length, length_be_bytes in LF. rewrite <- LF. apply (hop_v6 _ _ _ _ a r (skipn (N.to_nat nhlen) s)); auto.
        { rewrite app_assoc, <- D. symmetry. apply firstn_skipn. } { lia. }
      * intros (j & -> & R). inversion R as [a h r EA|rd a r EA|a h r EA ES EB HA EN|rd a r EA ES EB W HA|a r EA]; subst; try discriminate; [|exfalso; no_sf].
        replace (N.to_nat (N.of_nat (16 + length h))) with (16 + length h)%nat by lia. 
        destruct (SL (16 + length h)%nat) as [(E & L)|(E & L)]; [|rewrite !app_length, length_be_bytes in L; lia]. rewrite E, bind_ok.
        rewrite app_assoc. replace (16 + length h)%nat with (length (be_bytes 16 a ++ h)) at 1 by (now rewrite app_length, length_be_bytes).
        rewrite firstn_app, firstn_all, Nat.sub_diag, firstn_O, app_nil_r, decode_addrv6_be by exact HA. reflexivity.
    + rewrite R4, bind_ok. split.
      * intros H. apply bind_Ok_inv in H as ([[rd a] n] & D & H). injection H as <- <-. apply v6rd_exact in D as (-> & W & A & r & ->); [|exact B].
        exists 24%nat. split; [reflexivity|]. now apply (hop_rd6 _ _ _ _ rd a r).
      * intros (j & -> & R). inversion R as [a h r EA|rd a r EA|a h r EA ES EB HA EN|rd a r EA ES EB W HA|a r EA]; subst; try discriminate; [exfalso; no_sf|].
        rewrite app_assoc, v6rd_decode_wire by assumption. reflexivity.
    + split; [discriminate|]. intros (j & -> & R). exfalso. inversion R; subst; try discriminate.
      * apply Bool.not_true_iff_false in S1. apply S1, sf_in4. assumption.
      * apply Bool.not_true_iff_false in S2. apply S2, sf_in2. assumption.
  - match goal with |- (if ?c then _ else _) = _ <-> _ => destruct c eqn:S1 end; [apply sf_in25 in S1|].
    + rewrite R4, bind_ok. split.
      * intros H. apply bind_Ok_inv in H as (a & D & H). injection H as <- <-. apply addr4_exact in D as (A & r & ->); [|exact B].
        exists (N.to_nat nhlen). split; [reflexivity|]. now apply (hop_l2 _ _ _ _ a r).
      * intros (j & -> & R). inversion R as [a h r EA|rd a r EA|a h r EA|rd a r EA|a r EA ES EB HA]; subst; try discriminate.
        rewrite decode_addrv4_be by assumption. reflexivity.
    + split; [discriminate|]. intros (j & -> & R). exfalso. inversion R; subst; try discriminate.
      apply Bool.not_true_iff_false in S1. apply S1, sf_in25. assumption.
  - split; [discriminate|]. intros (j & -> & R). exfalso. inversion R; congruence.
Qed.

(** SNPAs; the buffer is [q] and what follows *)
Lemma snpa_exact : forall c q s pos, length q = pos -> forall e, snpa_skip c (q ++ s) pos = Ok e -> (e <= length (q ++ s))%nat -> bytes_ok s ->
  exists rest, snpas c s rest /\ skipn e (q ++ s) = rest.
Proof.
  induction c as [|c IH]; intros q s pos <- e H Le B; cbn [snpa_skip] in H.
  - injection H as <-. exists s. split; [constructor|]. rewrite skipn_app, skipn_all, Nat.sub_diag. reflexivity.
  - apply bind_Ok_inv in H as (l & E & H). rewrite (idx_peel q s (length q)) in E by auto. rewrite Nat.sub_diag in E.
    destruct s as [|l' s]; [discriminate|]. injection E as ->. apply Forall_cons_iff in B as [Bl B].
    assert (G : forall c pos e, snpa_skip c (q ++ l :: s) pos = Ok e -> (pos <= e)%nat).
    { clear. induction c as [|c IH]; intros pos e H; cbn [snpa_skip] in H; [injection H as <-; lia|]. apply bind_Ok_inv in H as (x & _ & H). apply IH in H. lia. }
    pose proof (G _ _ _ H) as G1. rewrite app_length in Le. cbn [length] in Le.
    destruct (take (N.to_nat l) s) as (d & r & -> & Ld); [lia|].
    apply bytes_app in B as [Bd Br].
    replace (q ++ l :: d ++ r) with ((q ++ l :: d) ++ r) in * by (rewrite <- app_assoc; reflexivity).
    apply IH in H as (rest & R1 & R2); auto; [| |].
    + exists rest. split; [|exact R2]. replace l with (N.of_nat (length d)) by lia. constructor; [unfold is_byte in Bl; lia|exact R1].
    + rewrite app_length. cbn [length]. lia.
    + rewrite app_length, app_length. cbn [length]. rewrite app_length in Le. lia.
Qed.
Lemma snpa_conv c s rest : snpas c s rest -> forall q, exists e, snpa_skip c (q ++ s) (length q) = Ok e /\ (e <= length (q ++ s))%nat /\ skipn e (q ++ s) = rest.
Proof.
  induction 1 as [b|k d s rest L R IH]; intros q; cbn [snpa_skip].
  - exists (length q). split; [reflexivity|]. split; [rewrite app_length; lia|]. rewrite skipn_app, skipn_all, Nat.sub_diag. reflexivity.
  - rewrite (idx_peel q _ (length q)) by auto. rewrite Nat.sub_diag. change (idx (?x :: ?y) 0) with (Ok x). rewrite bind_ok.
    specialize (IH (q ++ N.of_nat (length d) :: d)). replace ((q ++ N.of_nat (length d) :: d) ++ s) with (q ++ N.of_nat (length d) :: d ++ s) in IH by (rewrite <- app_assoc; reflexivity).
    replace (length q + (1 + N.to_nat (N.of_nat (length d))))%nat with (length (q ++ N.of_nat (length d) :: d)); [exact IH|]. rewrite app_length. cbn [length]. lia.
Qed.

Lemma u16_need b v : getn_u16 b = Ok v -> (2 <= length b)%nat.
Proof. intros H. destruct (getn_u16_cases b) as [(w & _ & L)|(E & _)]; [exact L|congruence]. Qed.
Lemma rfrom_cut {A} (q s : list A) k : rfrom (q ++ s) (length q + k) = Ok (skipn k s) /\ (k <= length s)%nat \/ rfrom (q ++ s) (length q + k) = Panic /\ (length s < k)%nat.
Proof.
  rewrite (rfrom_peel q s (length q)) by (auto; lia). replace (length q + k - length q)%nat with k by lia. unfold rfrom.
  destruct (Nat.leb_spec k (length s)); auto.
Qed.
Lemma reach_exact oc p b nh a : bytes_ok b -> mpupdates_decode oc p b = Ok (nh, a) <-> reach_reads oc p b nh a.
Proof.
  intros B. unfold mpupdates_decode. split.
  - intros H. apply bind_Ok_inv in H as (afi & E1 & H). assert (L := u16_need _ _ E1). t_be 2%nat B L. rewrite getn_u16_be in E1 by exact V. apply Ok_inj in E1. subst afi.
    apply bind_Ok_inv in H as (sf & E2 & H). rewrite (idx_peel _ _ 2) in E2 by (auto using length_be_bytes). rewrite Nat.sub_diag in E2. destruct r as [|sf' r]; [discriminate|]. injection E2 as ->.
    apply bind_Ok_inv in H as (nhlen & E3 & H). rewrite (idx_peel _ _ 2) in E3 by (auto using length_be_bytes). change (3 - 2)%nat with 1%nat in E3. destruct r as [|nh' s]; [discriminate|]. injection E3 as ->.
    apply Forall_cons_iff in B as [B1 B]. apply Forall_cons_iff in B as [B2 B].
    replace (be_bytes 2 v ++ sf :: nhlen :: s) with ((be_bytes 2 v ++ [sf; nhlen]) ++ s) in * by (rewrite <- app_assoc; reflexivity).
    set (q := be_bytes 2 v ++ [sf; nhlen]) in *. assert (Q : length q = 4%nat) by reflexivity.
    apply bind_Ok_inv in H as ([nh' cur] & E4 & H). apply (hop_exact _ _ _ _ _ _ _ Q B) in E4 as (k & -> & E4).
    apply bind_Ok_inv in H as (c & E5 & H). rewrite (idx_peel q s 4) in E5 by (auto; lia). replace (4 + k - 4)%nat with k in E5 by lia.
    assert (Lk := idx_lt _ _ _ E5). destruct (take k s) as (h & s1 & -> & Lh); [lia|]. rewrite (idx_peel h s1 k) in E5 by auto. rewrite Nat.sub_diag in E5.
    destruct s1 as [|c' s1]; [discriminate|]. injection E5 as ->.
    apply bind_Ok_inv in H as (e & E6 & H). apply bind_Ok_inv in H as (s2 & E7 & H). apply rfrom_Ok_inv in E7 as [Le ->].
    apply bind_Ok_inv in H as ([a' n] & E8 & H). injection H as -> ->.
    apply bytes_app in B as [Bh B]. apply Forall_cons_iff in B as [Bc B].
    replace (q ++ h ++ c :: s1) with ((q ++ h ++ [c]) ++ s1) in * by (now rewrite <- !app_assoc).
    apply snpa_exact in E6 as (rest & E6 & ER); auto; [|rewrite !app_length; cbn [length]; lia]. rewrite ER in E8. subst k.
    exists v, sf, nhlen, h, c, s1, rest, n. split; [unfold q; rewrite <- !app_assoc; reflexivity|]. split; [exact V|]. split; [exact E4|]. split; [exact E6|].
    apply nlri_exact_l; [|exact E8]. rewrite <- ER. apply Forall_skipn. apply bytes_app. split; [|exact B]. apply bytes_app. split.
    + apply bytes_app. split; [apply be_bytes_ok|]. apply Forall_cons; [exact B1|apply Forall_cons; [exact B2|apply Forall_nil]].
    + apply bytes_app. split; [exact Bh|]. apply Forall_cons; [exact Bc|apply Forall_nil].
  - intros (afi & sf & nhlen & h & c & s & rest & n & -> & A & R & SN & NL).
    rewrite getn_u16_be, bind_ok by exact A. rewrite !(idx_peel (be_bytes 2 afi) _ 2) by (auto using length_be_bytes; lia).
    change (idx ([sf; nhlen] ++ h ++ [c] ++ s) (2 - 2)) with (Ok sf : res N). change (idx ([sf; nhlen] ++ h ++ [c] ++ s) (3 - 2)) with (Ok nhlen : res N). rewrite !bind_ok.
    replace (be_bytes 2 afi ++ [sf; nhlen] ++ h ++ [c] ++ s) with ((be_bytes 2 afi ++ [sf; nhlen]) ++ h ++ [c] ++ s) in * by (now rewrite <- app_assoc).
    set (q := be_bytes 2 afi ++ [sf; nhlen]) in *. assert (Q : length q = 4%nat) by reflexivity.
    apply bytes_app in B as [Bq B].
    assert (E4 : mp_nexthop afi sf (N.to_nat nhlen) (q ++ h ++ [c] ++ s) = Ok (nh, (4 + length h)%nat)) by (apply (hop_exact _ _ _ _ _ _ _ Q B); eauto).
    rewrite E4, bind_ok. rewrite (idx_peel q _ 4) by (auto; lia). replace (4 + length h - 4)%nat with (length h) by lia. rewrite (idx_peel h _ (length h)) by auto.
    rewrite Nat.sub_diag. change (idx ([c] ++ s) 0) with (Ok c : res N). rewrite bind_ok.
    destruct (snpa_conv _ _ _ SN (q ++ h ++ [c])) as (e & E6 & Le & ER).
    replace ((q ++ h ++ [c]) ++ s) with (q ++ h ++ [c] ++ s) in * by (now rewrite <- !app_assoc).
    replace (length (q ++ h ++ [c])) with (4 + length h + 1)%nat in E6 by (rewrite !app_length; cbn [length]; lia). rewrite E6, bind_ok, rfrom_ok, bind_ok by exact Le.
    rewrite ER. apply nlri_exact_l in NL; [now rewrite NL, bind_ok|]. rewrite <- ER. apply Forall_skipn. apply bytes_app. auto.
Qed.
Lemma unreach_exact oc p b a : bytes_ok b -> mpwithdraws_decode oc p b = Ok a <-> unreach_reads oc p b a.
Proof.
  intros B. unfold mpwithdraws_decode. split.
  - intros H. apply bind_Ok_inv in H as (afi & E1 & H). assert (L := u16_need _ _ E1). t_be 2%nat B L. rewrite getn_u16_be in E1 by exact V. apply Ok_inj in E1. subst afi.
    apply bind_Ok_inv in H as (sf & E2 & H). rewrite (idx_peel _ _ 2) in E2 by (auto using length_be_bytes). rewrite Nat.sub_diag in E2. destruct r as [|sf' r]; [discriminate|]. injection E2 as ->.
    rewrite (rfrom_peel _ _ 2) in H by (auto using length_be_bytes). change (rfrom (sf :: r) (3 - 2)) with (Ok r : res (list N)) in H. rewrite bind_ok in H.
    apply bind_Ok_inv in H as ([a' n] & E3 & H). injection H as ->. apply Forall_cons_iff in B as [B1 B]. apply nlri_exact_l in E3; [|exact B].
    exists v, sf, r, n. auto.
  - intros (afi & sf & s & n & -> & A & NL). rewrite getn_u16_be, bind_ok by exact A. rewrite (idx_peel _ _ 2), (rfrom_peel _ _ 2) by (auto using length_be_bytes).
    change (idx ([sf] ++ s) (2 - 2)) with (Ok sf : res N). change (rfrom ([sf] ++ s) (3 - 2)) with (Ok s : res (list N)). rewrite !bind_ok.
    apply bytes_app in B as [_ B]. apply Forall_cons_iff in B as [_ B]. apply nlri_exact_l in NL; [|exact B]. now rewrite NL.
Qed.

(** ** PMSI tunnel *)
Lemma ip4_at_need b i v : ip4_at b i = Ok v -> (i + 4 <= length b)%nat.
Proof. intros H. destruct (Nat.le_gt_cases (i + 4) (length b)) as [L|L]; [exact L|]. rewrite ip4_at_short in H by exact L. discriminate. Qed.
Lemma rsvp_at q e z i w r : length q = 5%nat -> e < 2 ^ 32 -> z < 2 ^ 16 -> i < 2 ^ 16 -> w < 2 ^ 32 ->
  pmsi_tunnel 1 5 (q ++ be_bytes 4 e ++ be_bytes 2 z ++ be_bytes 2 i ++ be_bytes 4 w ++ r) = Ok (PtRSVP e z i w).
Proof.
  intros Q He Hz Hi Hw. unfold pmsi_tunnel. cbn [N.eqb Pos.eqb]. rewrite ip4_at_be, bind_ok by auto.
  rewrite (rfrom_peel q _ 5), (rfrom_peel (be_bytes 4 e) _ 4) by (auto using length_be_bytes; lia). change (5 + 4 - 5 - 4)%nat with 0%nat. rewrite rfrom_0, bind_ok, getn_u16_be, bind_ok by exact Hz.
  rewrite (rfrom_peel q _ 5), (rfrom_peel (be_bytes 4 e) _ 4), (rfrom_peel (be_bytes 2 z) _ 2) by (auto using length_be_bytes; lia).
  change (5 + 6 - 5 - 4 - 2)%nat with 0%nat. rewrite rfrom_0, bind_ok, getn_u16_be, bind_ok by exact Hi.
  replace (q ++ be_bytes 4 e ++ be_bytes 2 z ++ be_bytes 2 i ++ be_bytes 4 w ++ r) with ((q ++ be_bytes 4 e ++ be_bytes 2 z ++ be_bytes 2 i) ++ be_bytes 4 w ++ r) by (now rewrite <- !app_assoc).
  rewrite ip4_at_be by (auto; rewrite !app_length, !length_be_bytes, Q; reflexivity). reflexivity.
Qed.
Lemma mldp_at q o1 f2 o2 a l r : length q = 5%nat -> f2 < 2 ^ 16 -> a < 2 ^ 32 -> l < 2 ^ 16 ->
  pmsi_tunnel 2 5 (q ++ [o1] ++ be_bytes 2 f2 ++ [o2] ++ be_bytes 4 a ++ be_bytes 2 l ++ r) =
  if (o1 =? 6) && (f2 =? 1) && (o2 =? 4) && Nat.leb 1 (length r) && Nat.leb (N.to_nat l) (length r) then Ok (PtMLDP (IPv4 a) (firstn (N.to_nat l) r)) else Err EOther.
Proof.
  intros Q Hf Ha Hl. unfold pmsi_tunnel. cbn [N.eqb Pos.eqb].
  set (buf := q ++ [o1] ++ be_bytes 2 f2 ++ [o2] ++ be_bytes 4 a ++ be_bytes 2 l ++ r).
  assert (LB : length buf = (15 + length r)%nat) by (unfold buf; rewrite !app_length, !length_be_bytes; cbn [length]; lia).
  assert (I5 : idx buf 5 = Ok o1) by (unfold buf; rewrite (idx_peel q _ 5) by auto; reflexivity).
  assert (P6 : forall i j, (6 <= i)%nat -> (6 <= j)%nat -> rslice buf i j = rslice (be_bytes 2 f2 ++ [o2] ++ be_bytes 4 a ++ be_bytes 2 l ++ r) (i - 6) (j - 6)).
  { intros i j Hi Hj. unfold buf. rewrite (rslice_peel q _ 5), (rslice_peel [o1] _ 1) by (auto; lia). f_equal; lia. }
  assert (P8 : forall i j, (8 <= i)%nat -> (8 <= j)%nat -> rslice buf i j = rslice ([o2] ++ be_bytes 4 a ++ be_bytes 2 l ++ r) (i - 8) (j - 8)).
  { intros i j Hi Hj. rewrite P6 by lia. rewrite (rslice_peel _ _ 2) by (auto using length_be_bytes; lia). f_equal; lia. }
  assert (P9 : forall i j, (9 <= i)%nat -> (9 <= j)%nat -> rslice buf i j = rslice (be_bytes 4 a ++ be_bytes 2 l ++ r) (i - 9) (j - 9)).
  { intros i j Hi Hj. rewrite P8 by lia. rewrite (rslice_peel _ _ 1) by (auto; lia). f_equal; lia. }
  assert (P13 : forall i j, (13 <= i)%nat -> (13 <= j)%nat -> rslice buf i j = rslice (be_bytes 2 l ++ r) (i - 13) (j - 13)).
  { intros i j Hi Hj. rewrite P9 by lia. rewrite (rslice_peel _ _ 4) by (auto using length_be_bytes; lia). f_equal; lia. }
  assert (P15 : forall i j, (15 <= i)%nat -> (15 <= j)%nat -> rslice buf i j = rslice r (i - 15) (j - 15)).
  { intros i j Hi Hj. rewrite P13 by lia. rewrite (rslice_peel _ _ 2) by (auto using length_be_bytes; lia). f_equal; lia. }
  assert (I8 : idx buf 8 = Ok o2).
  { unfold buf. rewrite (idx_peel q _ 5), (idx_peel [o1] _ 1), (idx_peel (be_bytes 2 f2) _ 2) by (auto using length_be_bytes; lia). reflexivity. }
  rewrite I5, bind_ok. destruct (o1 =? 6); [|reflexivity]. cbn [negb andb].
  destruct (Nat.ltb_spec (length buf) 16) as [L|L].
  { replace (Nat.leb 1 (length r)) with false by (symmetry; apply Nat.leb_gt; lia). now rewrite !andb_false_r. }
  replace (Nat.leb 1 (length r)) with true by (symmetry; apply Nat.leb_le; lia). rewrite andb_true_r.
  rewrite P6 by lia. change (6 - 6)%nat with 0%nat. change (8 - 6)%nat with 2%nat. rewrite rslice_front, bind_ok by apply length_be_bytes.
  rewrite <- (app_nil_r (be_bytes 2 f2)), getn_u16_be, bind_ok by exact Hf. destruct (f2 =? 1); [|reflexivity]. cbn [negb andb].
  rewrite I8, bind_ok. destruct (o2 =? 4); [|reflexivity]. cbn [negb andb].
  rewrite P9 by lia. change (9 - 9)%nat with 0%nat. change (13 - 9)%nat with 4%nat. rewrite rslice_front, bind_ok by apply length_be_bytes.
  change (decode_addr_from (be_bytes 4 a)) with (x <- decode_addrv4_from (be_bytes 4 a) ;; Ok (IPv4 x)).
  rewrite <- (app_nil_r (be_bytes 4 a)), decode_addrv4_be, !bind_ok by exact Ha.
  rewrite P13 by lia. change (13 - 13)%nat with 0%nat. change (15 - 13)%nat with 2%nat. rewrite rslice_front, bind_ok by apply length_be_bytes.
  rewrite <- (app_nil_r (be_bytes 2 l)), getn_u16_be, bind_ok by exact Hl.
  destruct (Nat.ltb_spec (length buf) (15 + N.to_nat l)) as [K|K].
  { now replace (Nat.leb (N.to_nat l) (length r)) with false by (symmetry; apply Nat.leb_gt; lia). }
  replace (Nat.leb (N.to_nat l) (length r)) with true by (symmetry; apply Nat.leb_le; lia).
  rewrite P15 by lia. rewrite rslice_ok by lia. rewrite bind_ok. unfold sub. replace (15 - 15)%nat with 0%nat by lia. cbn [skipn]. do 3 f_equal. lia.
Qed.
Lemma tunnel_exact t q b x : length q = 5%nat -> bytes_ok b -> pmsi_tunnel t 5 (q ++ b) = Ok x <-> tunnel_reads t b x.
Proof.
  intros Q B.
  destruct (N.eqb_spec t 0) as [->|T0]; [|destruct (N.eqb_spec t 1) as [->|T1]; [|destruct (N.eqb_spec t 2) as [->|T2]; [|destruct (N.eqb_spec t 6) as [->|T6]]]].
  - split; [intros H; injection H as <-; reflexivity|]. destruct x; cbn [tunnel_reads]; [reflexivity| | |]; intros (X & _); discriminate.
  - split.
    + intros H. assert (L : (17 <= length (q ++ b))%nat).
      { unfold pmsi_tunnel in H. cbn [N.eqb Pos.eqb] in H. apply bind_Ok_inv in H as (e & _ & H). apply bind_Ok_inv in H as (s1 & _ & H). apply bind_Ok_inv in H as (z & _ & H).
        apply bind_Ok_inv in H as (s2 & _ & H). apply bind_Ok_inv in H as (i & _ & H). apply bind_Ok_inv in H as (q' & E & _). now apply ip4_at_need in E. }
      rewrite app_length in L. destruct (take_be 4 b B ltac:(lia)) as (e & r1 & -> & He & B1). rewrite app_length, length_be_bytes in L.
      destruct (take_be 2 r1 B1 ltac:(lia)) as (z & r2 & -> & Hz & B2). rewrite app_length, length_be_bytes in L.
      destruct (take_be 2 r2 B2 ltac:(lia)) as (i & r3 & -> & Hi & B3). rewrite app_length, length_be_bytes in L.
      destruct (take_be 4 r3 B3 ltac:(lia)) as (w & r4 & -> & Hw & B4).
      rewrite rsvp_at in H by assumption. apply Ok_inj in H. subst x. cbn [tunnel_reads]. repeat (split; [assumption || reflexivity|]). now exists r4.
    + destruct x as [|e z i w|e|root o]; cbn [tunnel_reads]; try (intros X; discriminate X || (destruct X as [X _]; discriminate X)).
      intros (_ & He & Hz & Hi & Hw & r & ->). now apply rsvp_at.
  - split.
    + intros H. assert (L : (16 <= length (q ++ b))%nat).
      { unfold pmsi_tunnel in H. cbn [N.eqb Pos.eqb] in H. apply bind_Ok_inv in H as (k & _ & H). destruct (negb _); [discriminate|].
        destruct (Nat.ltb_spec (length (q ++ b)) 16); [discriminate|assumption]. }
      rewrite app_length in L. destruct (take1 b B ltac:(lia)) as (o1 & r1 & -> & O1 & B1). rewrite app_length in L. cbn [length] in L.
      destruct (take_be 2 r1 B1 ltac:(lia)) as (f2 & r2 & -> & Hf & B2). rewrite app_length, length_be_bytes in L.
      destruct (take1 r2 B2 ltac:(lia)) as (o2 & r3 & -> & O2 & B3). rewrite app_length in L. cbn [length] in L.
      destruct (take_be 4 r3 B3 ltac:(lia)) as (a & r4 & -> & Ha & B4). rewrite app_length, length_be_bytes in L.
      destruct (take_be 2 r4 B4 ltac:(lia)) as (l & r5 & -> & Hl & B5). rewrite app_length, length_be_bytes in L.
      rewrite mldp_at in H by assumption. destruct (_ && _)%bool eqn:C in H; [|discriminate]. apply Ok_inj in H. subst x.
      apply andb_true_iff in C as [C C5]. apply andb_true_iff in C as [C C4]. apply andb_true_iff in C as [C C3]. apply andb_true_iff in C as [C1 C2].
      apply N.eqb_eq in C1, C2, C3. apply Nat.leb_le in C4, C5. subst o1 f2 o2. cbn [tunnel_reads]. split; [reflexivity|].
      assert (LF : length (firstn (N.to_nat l) r5) = N.to_nat l) by (rewrite firstn_length; lia).
      exists a, (skipn (N.to_nat l) r5). rewrite LF, firstn_skipn, N2Nat.id. repeat (split; [assumption || reflexivity|]). split; [destruct r5; [cbn in C4; lia|discriminate]|reflexivity].
    + destruct x as [|e z i w|e|root o]; cbn [tunnel_reads]; try (intros X; discriminate X || (destruct X as [X _]; discriminate X)).
      intros (_ & a & r & -> & Ha & Ho & NE & ->). rewrite mldp_at by (assumption || reflexivity). rewrite Nat2N.id.
      replace (Nat.leb 1 (length (o ++ r))) with true by (symmetry; apply Nat.leb_le; destruct (o ++ r); [contradiction|cbn; lia]).
      replace (Nat.leb (length o) (length (o ++ r))) with true by (symmetry; apply Nat.leb_le; rewrite app_length; lia). cbn [N.eqb Pos.eqb andb].
      do 2 f_equal. now rewrite firstn_app, firstn_all, Nat.sub_diag, firstn_O, app_nil_r.
  - unfold pmsi_tunnel. cbn [N.eqb Pos.eqb]. split.
    + intros H. apply bind_Ok_inv in H as (e & E & H). apply Ok_inj in H. subst x. assert (L := ip4_at_need _ _ _ E). rewrite app_length in L.
      destruct (take_be 4 b B ltac:(lia)) as (v & r1 & -> & He & B1). rewrite ip4_at_be in E by auto. apply Ok_inj in E. subst v. cbn [tunnel_reads].
      split; [reflexivity|]. split; [exact He|]. now exists r1.
    + destruct x as [|e z i w|e|root o]; cbn [tunnel_reads]; try (intros X; discriminate X || (destruct X as [X _]; discriminate X)).
      intros (_ & He & r & ->). now rewrite ip4_at_be by auto.
  - assert (E : pmsi_tunnel t 5 (q ++ b) = Err EOther).
    { unfold pmsi_tunnel. rewrite (proj2 (N.eqb_neq t 0) T0), (proj2 (N.eqb_neq t 1) T1), (proj2 (N.eqb_neq t 2) T2), (proj2 (N.eqb_neq t 6) T6). reflexivity. }
    rewrite E. split; [discriminate|]. destruct x; cbn [tunnel_reads]; [congruence| | |]; intros (X & _); congruence.
Qed.
Lemma pmsi_exact oc b x : bytes_ok b -> pmsi_decode oc b = Ok x <-> pmsi_reads b x.
Proof.
  intros B. destruct b as [|f [|t [|l0 [|l1 [|l2 r]]]]]; try (split; [discriminate|intros (? & ? & ? & ? & X & _); discriminate]).
  rewrite pmsi_decode_5 by (unfold bytes_ok in B; repeat (apply Forall_cons_iff in B as [? B]); assumption).
  assert (Br : bytes_ok r) by (now apply (bytes_app [f; t; l0; l1; l2] r) in B).
  pose proof (fun x => tunnel_exact t [f; t; l0; l1; l2] r x eq_refl Br) as T. cbn [app] in T. split.
  - intros H. apply bind_Ok_inv in H as (y & E & H). apply Ok_inj in H. subst x. apply T in E. exists l0, l1, l2, r. cbn [pm_flags pm_type pm_label pm_tun]. auto.
  - intros (m0 & m1 & m2 & r' & E & EL & R). destruct x as [f' t' ls y]. cbn [pm_flags pm_type pm_label pm_tun app] in *. injection E as <- <- <- <- <- <-. apply T in R. now rewrite R, EL.
Qed.
