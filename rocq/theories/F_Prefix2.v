(** More proofs about prefixes and addresses. *)
From Verif Require Import Base BaseFacts M_Util S_Wire F_Util M_Prefix S_Prefix F_Prefix.
From Coq Require Import ZArith ZifyBool ZifyNat ZifyN.
Ltac Zify.zify_post_hook ::= idtac.

Lemma C01_v4_decode_l l : bytes_ok l ->
  if Nat.ltb (length l) 4 then decode_addrv4_from l = Err EOther
  else exists a, decode_addrv4_from l = Ok a /\ net_repr 4 a (firstn 4 l).
Proof.
  intros H. destruct (Nat.ltb_spec (length l) 4) as [L|L].
  - now apply decode_addrv4_short.
  - exists (be_val (firstn 4 l)). split; [now apply decode_addrv4_ok|].
    split; [now apply firstn_length_le|]. split; [now apply Forall_firstn|reflexivity].
Qed.
Lemma C01_v6_decode_l l : bytes_ok l ->
  if Nat.ltb (length l) 16 then decode_addrv6_from l = Err EOther
  else exists a, decode_addrv6_from l = Ok a /\ net_repr 16 a (firstn 16 l).
Proof.
  intros H. destruct (Nat.ltb_spec (length l) 16) as [L|L].
  - now apply decode_addrv6_short.
  - exists (be_val (firstn 16 l)). split; [apply decode_addrv6_ok; auto; now apply Forall_firstn|].
    split; [now apply firstn_length_le|]. split; [now apply Forall_firstn|reflexivity].
Qed.

Lemma C03_last_l oc p a : v6_wf p -> 1 <= v6_len p -> v6_len p < 128 ->
  member 128 (v6_len p) (v6_addr p) a -> (forall x, member 128 (v6_len p) (v6_addr p) x -> x <= a) ->
  v6_in_subnet oc p a = Ok false.
Proof.
  intros W L1 L2 M G. destruct (C03_exact_l oc p a W L1) as (b & E & B); [apply M|].
  destruct b; [|exact E]. exfalso. destruct (proj1 B eq_refl) as [_ [H|(y & Hy & L)]].
  - rewrite H in L2. now apply N.lt_irrefl in L2.
  - apply G in Hy. apply N.lt_nge in L. contradiction.
Qed.

Lemma member_len0 w a x : x < 2 ^ w -> member w 0 a x.
Proof. intros H. split; auto. intros i H1 H2. exfalso. clear - H1 H2. lia. Qed.
Lemma C05_refuted_all p : v4_wf p -> v4_len p = 0 -> v4_addr p <> 0 ->
  v4_range_first true p = Panic /\
  exists f x, v4_range_first false p = Ok f /\ member 32 (v4_len p) (v4_addr p) x /\ x < f.
Proof.
  intros W L A. destruct (C05_v4_first_len0_l p W L) as [H1 H2]. split; auto.
  exists (v4_addr p), 0. split; auto. rewrite L. split; [now apply member_len0|]. clear - A. lia.
Qed.
Lemma C05_v6_refuted_all p : v6_wf p -> v6_len p = 0 -> v6_addr p <> 0 ->
  v6_range_first true p = Panic /\
  exists f x, v6_range_first false p = Ok f /\ member 128 (v6_len p) (v6_addr p) x /\ x < f.
Proof.
  intros W L A. destruct (C05_v6_first_len0_l p W L) as [H1 H2]. split; auto.
  exists (v6_addr p), 0. split; auto. rewrite L. split; [now apply member_len0|]. clear - A. lia.
Qed.

Lemma cont_val_exact w ls s la a : s < 2 ^ w -> a < 2 ^ w -> ls <= w -> la <= w ->
  (cont_val w ls s la a = true <-> covers w ls s la a /\ (1 <= ls -> ls = la -> s = a)).
Proof.
  intros Hs Ha Hls Hla. split.
  - intros H. split; [now apply cont_val_sound|]. intros L E. unfold cont_val in H.
    destruct (N.ltb_spec ls 1) as [L'|L']; [clear - L L'; lia|].
    subst la. rewrite N.ltb_irrefl, N.eqb_refl in H. now apply N.eqb_eq.
  - intros [C E]. destruct (N.eq_dec ls la) as [->|D].
    + unfold cont_val. rewrite N.ltb_irrefl, N.eqb_refl. destruct (N.ltb_spec la 1) as [L|L]; auto.
      apply N.eqb_eq. auto.
    + apply cont_val_complete; auto.
Qed.
Lemma C06_exact_l oc p a : v4_wf p -> v4_wf a ->
  exists b, v4_contains oc p a = Ok b /\
    (b = true <-> covers 32 (v4_len p) (v4_addr p) (v4_len a) (v4_addr a) /\
       (1 <= v4_len p -> v4_len p = v4_len a -> v4_addr p = v4_addr a)).
Proof.
  intros Hp Ha. rewrite v4_contains_eval by auto. destruct Hp, Ha. eexists; split; [reflexivity|].
  now apply (cont_val_exact 32 (v4_len p) (v4_addr p) (v4_len a) (v4_addr a)).
Qed.
Lemma C07_v6_exact_l oc p a : v6_wf p -> v6_wf a ->
  exists b, v6_contains oc p a = Ok b /\
    (b = true <-> covers 128 (v6_len p) (v6_addr p) (v6_len a) (v6_addr a) /\
       (1 <= v6_len p -> v6_len p = v6_len a -> v6_addr p = v6_addr a)).
Proof.
  intros Hp Ha. rewrite v6_contains_eval by auto. destruct Hp, Ha. eexists; split; [reflexivity|].
  now apply (cont_val_exact 128 (v6_len p) (v6_addr p) (v6_len a) (v6_addr a)).
Qed.
Lemma C07_mac_exact_l oc p a : macp_wf p -> macp_wf a ->
  exists b, mac_contains oc p a = Ok b /\
    (b = true <-> covers 48 (mc_len p) (mac_val (mc_addr p)) (mc_len a) (mac_val (mc_addr a)) /\
       (1 <= mc_len p -> mc_len p = mc_len a -> mc_addr p = mc_addr a)).
Proof.
  intros Hp Ha. rewrite mac_contains_eval by auto. destruct Hp as [Hp L1], Ha as [Ha L2]. eexists; split; [reflexivity|].
  pose proof (mac_val_bound _ Hp) as B1. pose proof (mac_val_bound _ Ha) as B2.
  pose proof (cont_val_exact 48 (mc_len p) (mac_val (mc_addr p)) (mc_len a) (mac_val (mc_addr a)) B1 B2 L1 L2) as H.
  unfold cont_val in H. rewrite H. split; intros [C E]; split; auto; intros X Y; specialize (E X Y).
  - now apply mac_val_inj.
  - now rewrite E.
Qed.
(** Equal lengths, same network, different host bits: each covers the other, and the answer is no. *)
Lemma same_net_covers w l a b : a < 2 ^ w -> b < 2 ^ w -> l <= w -> agree w l a b -> covers w l a l b.
Proof.
  intros Ha Hb Hl H. apply covers_iff; auto; [reflexivity|]. now apply agree_div.
Qed.
Lemma C06_refuted_all oc p a : v4_wf p -> v4_wf a -> 1 <= v4_len p -> v4_len p = v4_len a ->
  agree 32 (v4_len p) (v4_addr p) (v4_addr a) -> v4_addr p <> v4_addr a ->
  covers 32 (v4_len p) (v4_addr p) (v4_len a) (v4_addr a) /\ v4_contains oc p a = Ok false.
Proof.
  intros Hp Ha L E G D. split.
  - rewrite <- E. destruct Hp, Ha. now apply same_net_covers.
  - rewrite C06_equal_len_l by auto. now rewrite (proj2 (N.eqb_neq _ _) D).
Qed.
Lemma C07_v6_refuted_all oc p a : v6_wf p -> v6_wf a -> 1 <= v6_len p -> v6_len p = v6_len a ->
  agree 128 (v6_len p) (v6_addr p) (v6_addr a) -> v6_addr p <> v6_addr a ->
  covers 128 (v6_len p) (v6_addr p) (v6_len a) (v6_addr a) /\ v6_contains oc p a = Ok false.
Proof.
  intros Hp Ha L E G D. split.
  - rewrite <- E. destruct Hp, Ha. now apply same_net_covers.
  - destruct (C07_v6_exact_l oc p a Hp Ha) as (b & -> & B). destruct b; auto.
    destruct (proj1 B eq_refl) as [_ X]. now destruct D; apply X.
Qed.
Lemma C07_mac_refuted_all oc p a : macp_wf p -> macp_wf a -> 1 <= mc_len p -> mc_len p = mc_len a ->
  agree 48 (mc_len p) (mac_val (mc_addr p)) (mac_val (mc_addr a)) -> mc_addr p <> mc_addr a ->
  covers 48 (mc_len p) (mac_val (mc_addr p)) (mc_len a) (mac_val (mc_addr a)) /\ mac_contains oc p a = Ok false.
Proof.
  intros Hp Ha L E G D. split.
  - rewrite <- E. destruct Hp as [Hp ?], Ha as [Ha ?]. apply mac_val_bound in Hp, Ha. now apply same_net_covers.
  - destruct (C07_mac_exact_l oc p a Hp Ha) as (b & -> & B). destruct b; auto.
    destruct (proj1 B eq_refl) as [_ X]. now destruct D; apply X.
Qed.

Lemma net_contains_kind oc s a : net_wf s -> net_wf a -> net_contains oc s a = Ok true ->
  net_kind s = net_kind a /\ covers (net_bits s) (net_len s) (net_val s) (net_len a) (net_val a).
Proof.
  destruct s as [s|s|s], a as [a|a|a]; cbn [net_contains net_kind net_bits net_len net_val net_wf];
    try discriminate; intros Ws Wa H; split; auto.
  - destruct (C06_exact_l oc s a Ws Wa) as (b & E & B). rewrite H in E. apply B. congruence.
  - destruct (C07_v6_exact_l oc s a Ws Wa) as (b & E & B). rewrite H in E. apply B. congruence.
  - destruct (C07_mac_exact_l oc s a Ws Wa) as (b & E & B). rewrite H in E. apply B. congruence.
Qed.

(** ** is_multicast *)
Lemma first_octet a : hd 0 (octets4 a) = (a / 2 ^ 24) mod 256.
Proof. reflexivity. Qed.
Lemma all_ones a : a < 2 ^ 32 -> forallb (fun b => b =? 255) (octets4 a) = (a =? 0xffffffff).
Proof.
  intros H. destruct (N.eqb_spec a 0xffffffff) as [->|D]; [reflexivity|].
  destruct (forallb (fun b => b =? 255) (octets4 a)) eqn:E; auto. exfalso. apply D.
  rewrite forallb_forall in E.
  assert (V : be_val (octets4 a) = a) by (apply be_val_be_bytes; exact H).
  assert (O : octets4 a = [255; 255; 255; 255]).
  { unfold octets4 in *. clear V. pose proof (length_be_bytes 4 a) as L. revert E L. generalize (be_bytes 4 a). intros l E L.
    destruct l as [|x0 [|x1 [|x2 [|x3 [|]]]]]; try discriminate L.
    pose proof (E x0 (or_introl eq_refl)) as E0.
    pose proof (E x1 (or_intror (or_introl eq_refl))) as E1.
    pose proof (E x2 (or_intror (or_intror (or_introl eq_refl)))) as E2.
    pose proof (E x3 (or_intror (or_intror (or_intror (or_introl eq_refl))))) as E3.
    apply N.eqb_eq in E0, E1, E2, E3. now subst. }
  rewrite O in V. rewrite <- V. reflexivity.
Qed.
Lemma is_multicast_eval p : v4_wf p ->
  v4_is_multicast p = negb (v4_addr p =? 0xffffffff) && (0xe0000000 <=? v4_addr p).
Proof.
  intros [H _]. unfold v4_is_multicast. rewrite all_ones by auto. f_equal. rewrite first_octet.
  rewrite N.mod_small by (apply N.div_lt_upper_bound; [discriminate|exact H]).
  change 0xe0000000 with (224 * 2 ^ 24).
  destruct (N.leb_spec 224 (v4_addr p / 2 ^ 24)) as [L|L]; destruct (N.leb_spec (224 * 2 ^ 24) (v4_addr p)) as [L'|L']; auto; exfalso.
  - apply N.lt_nge in L'. apply L'. apply (N.mul_le_mono_r _ _ (2 ^ 24)) in L.
    etransitivity; [exact L|]. rewrite N.mul_comm. apply N.mul_div_le. discriminate.
  - apply N.lt_nge in L. apply L. apply N.div_le_lower_bound; [discriminate|]. rewrite N.mul_comm. exact L'.
Qed.
Lemma mcast_agree a : a < 2 ^ 32 -> (agree 32 4 0xe0000000 a <-> 0xe0000000 <= a /\ a < 0xf0000000).
Proof.
  intros H. rewrite agree_div by (auto; reflexivity || (clear; lia)).
  rewrite <- interval_div. change (0xe0000000 / 2 ^ (32 - 4) * 2 ^ (32 - 4)) with 0xe0000000.
  change (0xe0000000 + (2 ^ (32 - 4) - 1)) with 0xefffffff. clear. split; intros [H1 H2]; split; auto; lia.
Qed.
Lemma C75_sound_l p : v4_wf p -> member 32 4 0xe0000000 (v4_addr p) -> v4_is_multicast p = true.
Proof.
  intros W [_ M]. rewrite is_multicast_eval by auto. apply mcast_agree in M as [M1 M2]; [|apply W].
  rewrite (proj2 (N.leb_le _ _) M1). destruct (N.eqb_spec (v4_addr p) 0xffffffff) as [E|E]; auto.
  exfalso. clear - E M2. lia.
Qed.
Lemma C75_exact_l p : v4_wf p ->
  (v4_is_multicast p = true <->
   member 32 4 0xe0000000 (v4_addr p) \/ (member 32 4 0xf0000000 (v4_addr p) /\ v4_addr p <> 0xffffffff)).
Proof.
  intros W. rewrite is_multicast_eval by auto. destruct W as [W _].
  assert (A2 : agree 32 4 0xf0000000 (v4_addr p) <-> 0xf0000000 <= v4_addr p).
  { rewrite agree_div by (auto; reflexivity || (clear; lia)).
    rewrite <- interval_div. change (0xf0000000 / 2 ^ (32 - 4) * 2 ^ (32 - 4)) with 0xf0000000.
    change (0xf0000000 + (2 ^ (32 - 4) - 1)) with 0xffffffff. change (2 ^ 32) with 0x100000000 in W. clear - W. lia. }
  unfold member. rewrite (mcast_agree _ W), A2.
  destruct (N.eqb_spec (v4_addr p) 0xffffffff) as [E|E]; destruct (N.leb_spec 0xe0000000 (v4_addr p)) as [L|L];
    cbn; change (2 ^ 32) with 0x100000000 in *; clear - W E L; split; intros; try discriminate; try lia.
Qed.
Lemma C75_refuted_l p : v4_wf p -> member 32 4 0xf0000000 (v4_addr p) -> v4_addr p <> 0xffffffff ->
  ~ member 32 4 0xe0000000 (v4_addr p) /\ v4_is_multicast p = true.
Proof.
  intros W M D. split; [|apply C75_exact_l; auto].
  intros [_ M']. apply mcast_agree in M' as [_ M']; [|apply W].
  destruct M as [B M]. apply agree_div in M; [|reflexivity|exact B|clear; lia].
  apply interval_div in M. destruct M as [M _]. change (0xf0000000 / 2 ^ (32 - 4) * 2 ^ (32 - 4)) with 0xf0000000 in M.
  clear - M M'. lia.
Qed.
