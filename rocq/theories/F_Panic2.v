(** Proofs of exactly which octets make the NLRI decoders panic (C102): VPLS, MCAST-VPN, EVPN, FlowSpec, every family. *)
From Verif Require Import Base BaseFacts M_Util S_Wire F_Util M_Prefix S_Prefix M_Nlri S_Nlri F_Nlri F_Nlri2 M_Session M_Vpls F_Vpls M_Mvpn S_Mvpn F_Mvpn M_Evpn S_Evpn F_Evpn
  M_Flowspec S_Flowspec F_Flowspec M_Cap M_Addrs S_Addrs M_Attr S_Attr S_Attr3 F_Lay F_Attr4 S_Exact F_Exact F_Exact2 F_Exact3 F_Exact4 S_Panic F_Panic.
Ltac Zify.zify_post_hook ::= idtac.

Lemma rslice_Panic {A} (l : list A) a b : rslice l a b = Panic <-> (b < a)%nat \/ (length l < b)%nat.
Proof.
  unfold rslice. destruct (Nat.leb_spec a b) as [H|H], (Nat.leb_spec b (length l)) as [H'|H']; cbn; split; try discriminate; try reflexivity; auto; intros [X|X]; lia.
Qed.
Lemma rfrom_Panic {A} (l : list A) a : rfrom l a = Panic <-> (length l < a)%nat.
Proof. unfold rfrom. destruct (Nat.leb_spec a (length l)); split; try discriminate; try reflexivity; auto; lia. Qed.
Lemma labels_mod k : 8 * N.of_nat k mod 256 < 256.
Proof. apply N.mod_lt. discriminate. Qed.

(** ** VPLS *)
Lemma l2a_panic oc d : bytes_ok d -> l2a_extract oc (length d) d = Panic <-> (17 <= length d)%nat /\ labels_crash oc (skipn 14 d).
Proof.
  intros B. destruct (Nat.ltb_spec (length d) 17) as [L|L].
  - unfold l2a_extract. destruct (Nat.ltb_spec (length d) 17) as [_|X]; [|lia]. split; [discriminate|]. intros [X _]. lia.
  - assert (L0 := L). destruct (take_rd d B) as (rd & r & -> & W & B1); [lia|]. flen L.
    destruct (take_be 2 r B1) as (si & r1 & -> & H1 & B2); [lia|]. flen L. destruct (take_be 2 r1 B2) as (of & r2 & -> & H2 & B3); [lia|]. flen L.
    destruct (take_be 2 r2 B3) as (ra & s & -> & H3 & B4); [lia|]. flen L.
    rewrite l2a_eq by (auto; try lia; rewrite !app_length, rd_len, !length_be_bytes; lia).
    assert (Es : skipn 14 (rd_wire rd ++ be_bytes 2 si ++ be_bytes 2 of ++ be_bytes 2 ra ++ s) = s).
    { rewrite !app_assoc. apply skipn_app_exact. now rewrite !app_length, rd_len, !length_be_bytes. }
    rewrite Es. unfold labels_crash. rewrite <- labels_panic by (auto using labels_mod). split.
    + intros H. split; [exact L0|]. apply bind_Panic in H as [H|([? ?] & _ & H)]; [exact H|discriminate].
    + intros [_ H]. apply bind_Panic. now left.
Qed.
Lemma vpls_panic oc : step_crash (decode_long_item (l2a_extract oc)) (vpls_crash oc).
Proof.
  intros b B _. unfold decode_long_item, vpls_crash. destruct (Nat.le_gt_cases 2 (length b)) as [L|L].
  - destruct (take_be 2 b B L) as (l & r & -> & Hl & Br). assert (Hl' : l < 65536) by exact Hl. run.
    rewrite (rslice_peel _ _ 2) by (auto using length_be_bytes; lia). replace (N.to_nat l + 2 - 2)%nat with (N.to_nat l) by lia. change (2 - 2)%nat with 0%nat.
    assert (U : forall l' r', be_bytes 2 l ++ r = be_bytes 2 l' ++ r' -> l' < 2 ^ 16 -> l' = l /\ r' = r).
    { intros l' r' E Hx. apply app_same_len in E as [E ->]; [|now rewrite !length_be_bytes]. split; [symmetry|reflexivity]. now apply (be_bytes_inj 2). }
    destruct (Nat.le_gt_cases (N.to_nat l) (length r)) as [L2|L2].
    + destruct (take_raw _ r Br L2) as (d & rest & -> & Ld & Bd & _). rewrite rslice_front, bind_ok, <- Ld by exact Ld.
      assert (Ef : firstn (N.to_nat l) (d ++ rest) = d) by now apply firstn_app_exact.
      split.
      * intros H. apply bind_Panic in H as [H|(y & _ & H)]; [|discriminate]. apply l2a_panic in H as [H1 H2]; [|exact Bd]. right. exists l, (d ++ rest).
        split; [reflexivity|]. split; [exact Hl|]. right. split; [lia|]. now rewrite Ef.
      * intros [X|(l' & r' & E & Hx & H)]; [lia|]. apply U in E as [-> ->]; [|exact Hx]. apply bind_Panic. left. destruct H as [H|[H1 H2]]; [lia|].
        apply l2a_panic; [exact Bd|]. split; [lia|]. now rewrite Ef in H2.
    + split.
      * intros _. right. exists l, r. split; [reflexivity|]. split; [exact Hl|]. now left.
      * intros _. apply bind_Panic. left. apply rslice_Panic. now right.
  - split; [intros _; now left|]. intros _. apply bind_Panic. left. apply rslice_Panic. right. lia.
Qed.

(** ** MCAST-VPN *)
Lemma addr_np s : bytes_ok s -> decode_addr_from s <> Panic.
Proof.
  intros B H. unfold decode_addr_from in H.
  repeat match type of H with context [match ?x with O => _ | S _ => _ end] => destruct x end; try discriminate H;
  (apply bind_Panic in H as [H|(y & _ & H)]; [first [exact (dec4_np _ H)|exact (dec6_np _ B H)]|discriminate]).
Qed.
Lemma rslice_np {A} (l : list A) a b : (a <= b)%nat -> (b <= length l)%nat -> rslice l a b <> Panic.
Proof. intros H1 H2 H. apply rslice_Panic in H. lia. Qed.
Lemma addr_at_np b i j : bytes_ok b -> (i <= j)%nat -> (j <= length b)%nat -> addr_at b i j <> Panic.
Proof.
  intros B H1 H2 H. unfold addr_at in H. apply bind_Panic in H as [H|(s & E & H)]; [now apply rslice_np in H|].
  apply addr_np in H; [exact H|]. apply rslice_Ok_inv in E as (_ & _ & ->). now apply Forall_sub.
Qed.
Lemma check_np b i j k : (i < length b)%nat -> (j < length b)%nat -> check_lens b i j k <> Panic.
Proof.
  intros H1 H2 H. unfold check_lens in H. apply bind_Panic in H as [H|(x & _ & H)]; [apply idx_Panic in H; lia|]. destruct (negb _); [discriminate|].
  apply bind_Panic in H as [H|(y & _ & H)]; [apply idx_Panic in H; lia|]. destruct (negb _); discriminate.
Qed.
Lemma u32_np s : (4 <= length s)%nat -> getn_u32 s <> Panic.
Proof. intros L. destruct s as [|a [|b [|c [|d r]]]]; cbn [length] in L; try lia. discriminate. Qed.
Lemma rd_np b : decode_rd_from b <> Panic.
Proof.
  unfold decode_rd_from. destruct (Nat.leb_spec 8 (length b)) as [L|L]; [|discriminate].
  do 8 (destruct b as [|? b]; [cbn [length] in L; lia|]). discriminate.
Qed.
Lemma u32_slice_np b i : (i + 4 <= length b)%nat -> (s <- rslice b i (i + 4) ;; getn_u32 s) <> Panic.
Proof.
  intros L H. apply bind_Panic in H as [H|(s & E & H)]; [apply rslice_Panic in H; lia|]. apply rslice_Ok_inv in E as (_ & _ & ->). apply u32_np in H; [exact H|].
  unfold sub. rewrite firstn_length, skipn_length. lia.
Qed.
Ltac npx B := repeat match goal with H : ?e = Panic |- _ => lazymatch e with
  | bind _ _ => apply bind_Panic in H as [H|(? & ? & H)]
  | (if ?c then _ else _) => destruct c eqn:?
  | (match ?x with pair _ _ => _ end) => destruct x
  | decode_rd_from _ => now apply rd_np in H
  | addr_at _ _ _ => apply addr_at_np in H; [exact H|exact B|lia|lia]
  | check_lens _ _ _ _ => apply check_np in H; [exact H|lia|lia]
  | rslice _ _ _ => apply rslice_Panic in H; lia
  | _ => discriminate H end end.
Lemma mvpn1_np m b : bytes_ok b -> mvpn1_decode m b <> Panic.
Proof.
  intros B H. unfold mvpn1_decode in H. apply bind_Panic in H as [H|([rd p] & E & H)]; [now apply rd_np in H|]. apply rd_pos in E. subst p.
  destruct m; match type of H with context [Nat.leb ?k ?l] => destruct (Nat.leb_spec k l) as [L|L] end; npx B.
Qed.
Lemma mvpn3_np m b : bytes_ok b -> mvpn3_decode m b <> Panic.
Proof.
  intros B H. unfold mvpn3_decode in H. apply bind_Panic in H as [H|([rd p] & E & H)]; [now apply rd_np in H|].
  destruct m; match type of H with context [Nat.leb ?k ?l] => destruct (Nat.leb_spec k l) as [L|L] end; npx B.
Qed.
Lemma mvpn5_np m b : bytes_ok b -> mvpn5_decode m b <> Panic.
Proof.
  intros B H. unfold mvpn5_decode in H. apply bind_Panic in H as [H|([rd p] & E & H)]; [now apply rd_np in H|].
  destruct m; match type of H with context [Nat.leb ?k ?l] => destruct (Nat.leb_spec k l) as [L|L] end; npx B.
Qed.
Lemma mvpn2_np b : mvpn2_decode b <> Panic.
Proof.
  intros H. unfold mvpn2_decode in H. destruct (Nat.leb_spec 12 (length b)) as [L|L]; [|discriminate].
  apply bind_Panic in H as [H|([rd p] & E & H)]; [now apply rd_np in H|].
  apply bind_Panic in H as [H|(s & E1 & H)]; [apply rslice_Panic in H; lia|]. apply rslice_Ok_inv in E1 as (_ & _ & ->).
  apply bind_Panic in H as [H|(? & _ & H)]; [|discriminate]. apply u32_np in H; [exact H|]. unfold sub. rewrite firstn_length, skipn_length. lia.
Qed.
Lemma mvpn67_np m b : bytes_ok b -> mvpn67_decode m b <> Panic.
Proof.
  intros B H. unfold mvpn67_decode in H. apply bind_Panic in H as [H|([rd p] & E & H)]; [now apply rd_np in H|].
  destruct m; match type of H with context [Nat.leb ?k ?l] => destruct (Nat.leb_spec k l) as [L|L] end; try discriminate;
  (apply bind_Panic in H as [H|(? & _ & H)]; [apply check_np in H; [exact H|lia|lia]|];
   apply bind_Panic in H as [H|(s & E1 & H)]; [apply rslice_Panic in H; lia|]; apply rslice_Ok_inv in E1 as (_ & _ & ->);
   apply bind_Panic in H as [H|(? & _ & H)]; [apply u32_np in H; [exact H|unfold sub; rewrite firstn_length, skipn_length; lia]|]; npx B).
Qed.
Lemma mvpn4_panic m b : bytes_ok b -> mvpn4_decode m b = Panic <-> b = [] \/ b = [3].
Proof.
  intros B. unfold mvpn4_decode. destruct b as [|x [|y s]].
  - split; auto.
  - cbn [idx nth_error bind]. destruct (N.eqb_spec x 3) as [->|Hx]; cbn [negb]; [split; auto|]. split; [discriminate|]. intros [X|X]; [discriminate|]. injection X as ->. contradiction.
  - split; [|intros [X|X]; discriminate]. intros H. exfalso. rewrite idx_0, bind_ok in H. destruct (negb _); [discriminate|]. rewrite idx_1, bind_ok in H. destruct (negb _); [discriminate|].
    change (rfrom (x :: y :: s) 2) with (Ok s : res (list N)) in H. rewrite bind_ok in H. do 2 apply Forall_inv_tail in B.
    destruct (mvpn3_decode m s) as [[sp k]| | |] eqn:E; try discriminate; [|now apply mvpn3_np in E].
    apply mv3_exact in E as (W & (t & ->) & ->); [|exact B].
    apply bind_Panic in H as [H|(s' & E & H)]; [apply rfrom_Panic in H; cbn [length] in H; rewrite app_length in H; lia|].
    apply rfrom_Ok_inv in E as [_ ->]. apply bind_Panic in H as [H|(o & _ & H)]; [|discriminate]. apply addr_np in H; [exact H|]. cbn [Nat.add skipn]. now apply Forall_skipn.
Qed.
Lemma mv_panic m : step_crash (mvpn_decode m) mv_crash.
Proof.
  intros b B _. unfold mv_crash. destruct b as [|t [|l s]]; [split; [intros _; left; cbn; lia|reflexivity]|split; [intros _; left; cbn; lia|reflexivity]|].
  unfold mvpn_decode. rewrite idx_0, bind_ok, idx_1, bind_ok. cbv zeta.
  assert (A : forall T (dec : list N -> res (T * nat)) wrap, mvpn_arm dec wrap (t :: l :: s) (N.to_nat l) = Panic <->
      (length s < N.to_nat l)%nat \/ (N.to_nat l <= length s)%nat /\ dec (firstn (N.to_nat l) s) = Panic).
  { intros T dec wrap. unfold mvpn_arm. destruct (Nat.le_gt_cases (N.to_nat l) (length s)) as [L|L].
    - change (t :: l :: s) with ([t; l] ++ s). rewrite (rslice_peel [t; l] _ 2) by (auto; lia). replace (2 + N.to_nat l - 2)%nat with (N.to_nat l) by lia. change (2 - 2)%nat with 0%nat.
      rewrite rslice_ok, bind_ok by lia. unfold sub. rewrite Nat.sub_0_r. cbn [skipn]. split.
      + intros H. right. split; [exact L|]. apply bind_Panic in H as [H|([? ?] & _ & H)]; [exact H|discriminate].
      + intros [H|[_ H]]; [lia|]. apply bind_Panic. now left.
    - split; [now left|]. intros _. apply bind_Panic. left. apply rslice_Panic. right. cbn [length]. lia. }
  assert (Bs : bytes_ok (firstn (N.to_nat l) s)) by (apply Forall_firstn; do 2 apply Forall_inv_tail in B; exact B).
  assert (K : forall (X : Prop), (X <-> (length s < N.to_nat l)%nat \/ t = 4 /\ (l = 0 \/ l = 1 /\ exists r', s = 3 :: r')) -> 1 <= t <= 7 ->
    X <-> ((length (t :: l :: s) < 2)%nat \/ exists t0 l0 r, t :: l :: s = t0 :: l0 :: r /\ 1 <= t0 <= 7 /\
      ((length r < N.to_nat l0)%nat \/ t0 = 4 /\ (l0 = 0 \/ l0 = 1 /\ exists r', r = 3 :: r')))).
  { intros X E Ht. rewrite E. split.
    - intros H. right. exists t, l, s. auto.
    - intros [H|(t0 & l0 & r & Eq & _ & H)]; [cbn in H; lia|]. assert (t = t0) by congruence. assert (l = l0) by congruence. assert (s = r) by congruence. now subst. }
  assert (NP : forall P : Prop, ~ P -> t <> 4 -> ((length s < N.to_nat l)%nat \/ (N.to_nat l <= length s)%nat /\ P) <->
     ((length s < N.to_nat l)%nat \/ t = 4 /\ (l = 0 \/ l = 1 /\ exists r', s = 3 :: r'))) by (intros P H1 H2; tauto).
  destruct (N.eqb_spec t 1) as [->|N1]; [|destruct (N.eqb_spec t 2) as [->|N2]; [|destruct (N.eqb_spec t 3) as [->|N3]; [|destruct (N.eqb_spec t 4) as [->|N4];
      [|destruct (N.eqb_spec t 5) as [->|N5]; [|destruct (N.eqb_spec t 6) as [->|N6]; [|destruct (N.eqb_spec t 7) as [->|N7]]]]]]];
  try (apply K; [rewrite A; apply NP; [auto using mvpn1_np, mvpn2_np, mvpn3_np, mvpn5_np, mvpn67_np|discriminate]|lia]).
  - apply K; [|lia]. rewrite A. split.
    + intros [H|[L H]]; [now left|]. right. split; [reflexivity|]. apply mvpn4_panic in H; [|exact Bs]. assert (Lf := firstn_length (N.to_nat l) s). destruct H as [H|H]; rewrite H in Lf; cbn [length] in Lf.
      * left. lia.
      * right. assert (l = 1) by lia. subst l. split; [reflexivity|]. destruct s as [|x r]; [discriminate|]. injection H as ->. now exists r.
    + intros [H|(_ & [->|(-> & r & ->)])]; [now left|right..].
      * split; [cbn; lia|]. now apply mvpn4_panic; [apply Forall_nil|left].
      * split; [cbn; lia|]. apply mvpn4_panic; [exact Bs|now right].
  - split; [discriminate|]. intros [H|(t0 & l0 & r & Eq & H & _)]; [cbn in H; lia|]. assert (t = t0) by congruence. subst t0. lia.
Qed.
