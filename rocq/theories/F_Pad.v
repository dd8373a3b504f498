(** Proofs about the bits that fill the last octet of a prefix. *)
From Verif Require Import Base BaseFacts M_Util S_Wire F_Util M_Prefix S_Prefix F_Prefix M_Nlri S_Nlri F_Nlri M_Vpls M_Cap M_Open M_Session M_Mvpn S_Mvpn M_Evpn S_Evpn M_Flowspec S_Flowspec M_Addrs S_Addrs
  M_Attr S_Attr S_Exact S_Exact2 F_Exact F_Exact2 F_Exact3 F_Exact4 S_Pad.
Ltac Zify.zify_post_hook ::= idtac.

Lemma one_prefix4 oc p bits s : check_addpath_receive p 1 1 = false -> bits <= 32 -> 1 <= bits -> length s = prefix_octets bits -> bytes_ok s ->
  addrs_decode oc p 1 1 (bits :: s) = Ok (IPV4U [mkV4 (be_val (s ++ repeat 0 (4 - length s))) bits], S (length s)) /\
  be_bytes 4 (be_val (s ++ repeat 0 (4 - length s))) = s ++ repeat 0 (4 - length s) /\ be_val (s ++ repeat 0 (4 - length s)) < 2 ^ 32.
Proof.
  intros C Hb H1 L B. pose proof (prefix_octets_le bits 4 Hb) as L4. rewrite <- L in L4.
  destruct (pad_be 4 (length s) s ltac:(exact L4) ltac:(lia) B) as [E1 E2]. rewrite firstn_all in E1, E2.
  split; [|split; [exact E1|exact E2]]. apply nlri_exact_l; [apply Forall_cons; [unfold is_byte; clear - Hb; lia|exact B]|]. cbn [nlri_reads]. right. split.
  - intros [X|(_ & _ & r & X)]; [congruence|]. injection X as X _. clear - X H1. lia.
  - eexists. split; [|reflexivity]. replace (S (length s)) with (S (length s) + 0)%nat by lia. apply many_cons; [discriminate| |].
    + exists bits, s, (length s). split; [reflexivity|]. split; [|reflexivity]. split; [exact Hb|]. split; [exact L|]. split; [reflexivity|]. split; [exact E2|].
      exists s, []. rewrite app_nil_r. auto.
    + cbn [skipn]. rewrite skipn_all. constructor.
Qed.
Lemma one_prefix6 oc p bits s : check_addpath_receive p 2 1 = false -> bits <= 128 -> 1 <= bits -> length s = prefix_octets bits -> bytes_ok s ->
  addrs_decode oc p 2 1 (bits :: s) = Ok (IPV6U [mkV6 (be_val (s ++ repeat 0 (16 - length s))) bits], S (length s)) /\
  be_bytes 16 (be_val (s ++ repeat 0 (16 - length s))) = s ++ repeat 0 (16 - length s) /\ be_val (s ++ repeat 0 (16 - length s)) < 2 ^ 128.
Proof.
  intros C Hb H1 L B. pose proof (prefix_octets_le bits 16 Hb) as L4. rewrite <- L in L4.
  destruct (pad_be 16 (length s) s ltac:(exact L4) ltac:(lia) B) as [E1 E2]. rewrite firstn_all in E1, E2.
  split; [|split; [exact E1|exact E2]]. apply nlri_exact_l; [apply Forall_cons; [unfold is_byte; clear - Hb; lia|exact B]|]. cbn [nlri_reads]. right. split.
  - intros [X|(_ & _ & r & X)]; [congruence|]. injection X as X _. clear - X H1. lia.
  - eexists. split; [|reflexivity]. replace (S (length s)) with (S (length s) + 0)%nat by lia. apply many_cons; [discriminate| |].
    + exists bits, s, (length s). split; [reflexivity|]. split; [|reflexivity]. split; [exact Hb|]. split; [exact L|]. split; [reflexivity|]. split; [exact E2|].
      exists s, []. rewrite app_nil_r. auto.
    + cbn [skipn]. rewrite skipn_all. constructor.
Qed.
Lemma same_agree w W bits s s' : W = 8 * N.of_nat w -> (length s <= w)%nat -> bits <= 8 * N.of_nat (length s) -> same_bits bits s s' ->
  agree W bits (be_val (s ++ repeat 0 (w - length s))) (be_val (s' ++ repeat 0 (w - length s'))).
Proof.
  intros -> Lw Hb [L E] i Hi _. rewrite <- L. rewrite !be_val_app, repeat_length, be_val_zeros, !N.add_0_r.
  set (k := length s) in *. set (j := 8 * N.of_nat (w - k)). assert (J : j <= i) by (unfold j; lia).
  rewrite !N.mul_pow2_bits_high by exact J. set (d := 8 * N.of_nat k - bits) in *.
  replace (i - j) with ((i - j - d) + d) by (unfold d, j in *; lia). rewrite <- !N.div_pow2_bits. now rewrite E.
Qed.
Lemma nonempty bits (s s' : list N) : length s = prefix_octets bits -> length s' = prefix_octets bits -> s <> s' -> 1 <= bits.
Proof.
  intros L L' D. destruct (N.eq_dec bits 0) as [->|]; [|lia]. cbn in L, L'. destruct s, s'; try discriminate. contradiction.
Qed.
Lemma padding4 oc p bits s s' : check_addpath_receive p 1 1 = false -> bits <= 32 -> length s = prefix_octets bits -> length s' = prefix_octets bits -> bytes_ok s -> bytes_ok s' -> s <> s' ->
  exists a a' n, addrs_decode oc p 1 1 (bits :: s) = Ok (IPV4U [a], n) /\ addrs_decode oc p 1 1 (bits :: s') = Ok (IPV4U [a'], n) /\ a <> a' /\ v4_len a = bits /\ v4_len a' = bits /\
    (same_bits bits s s' -> forall x, x < 2 ^ 32 -> v4_in_subnet oc a x = v4_in_subnet oc a' x).
Proof.
  intros C Hb L L' B B' D. pose proof (nonempty _ _ _ L L' D) as H1.
  destruct (one_prefix4 oc p bits s C Hb H1 L B) as (E & F & G). destruct (one_prefix4 oc p bits s' C Hb H1 L' B') as (E' & F' & G').
  eexists _, _, (S (length s)). split; [exact E|]. split; [replace (S (length s)) with (S (length s')) by congruence; exact E'|]. split; [|split; [reflexivity|split; [reflexivity|]]].
  - intros X. apply (f_equal v4_addr) in X. cbn [v4_addr] in X. apply D. assert (Y : s ++ repeat 0 (4 - length s) = s' ++ repeat 0 (4 - length s')) by exact (eq_trans (eq_sym F) (eq_trans (f_equal (be_bytes 4) X) F')). rewrite L, L' in Y. now apply app_inv_tail in Y.
  - intros S x Hx. assert (A : agree 32 bits (be_val (s ++ repeat 0 (4 - length s))) (be_val (s' ++ repeat 0 (4 - length s')))).
    { apply (same_agree 4); [reflexivity|rewrite L; now apply prefix_octets_le|rewrite L; apply prefix_octets_spec|exact S]. }
    set (a := mkV4 (be_val (s ++ repeat 0 (4 - length s))) bits). set (a' := mkV4 (be_val (s' ++ repeat 0 (4 - length s'))) bits).
    destruct (v4_in_subnet_ok oc a x) as (b & -> & Hb1); [split; [exact G|exact Hb]|exact Hx|].
    destruct (v4_in_subnet_ok oc a' x) as (b' & -> & Hb2); [split; [exact G'|exact Hb]|exact Hx|].
    f_equal. cbn [v4_len v4_addr a a'] in Hb1, Hb2. apply Bool.eq_iff_eq_true. rewrite Hb1, Hb2. unfold a, a'. cbn [v4_addr v4_len].
    split; intros Y i I1 I2; [rewrite <- (A i I1 I2)|rewrite (A i I1 I2)]; now apply Y.
Qed.
Lemma padding6 oc p bits s s' : check_addpath_receive p 2 1 = false -> bits <= 128 -> length s = prefix_octets bits -> length s' = prefix_octets bits -> bytes_ok s -> bytes_ok s' -> s <> s' ->
  exists a a' n, addrs_decode oc p 2 1 (bits :: s) = Ok (IPV6U [a], n) /\ addrs_decode oc p 2 1 (bits :: s') = Ok (IPV6U [a'], n) /\ a <> a' /\ v6_len a = bits /\ v6_len a' = bits /\
    (same_bits bits s s' -> forall x, x < 2 ^ 128 -> v6_in_subnet oc a x = v6_in_subnet oc a' x).
Proof.
  intros C Hb L L' B B' D. pose proof (nonempty _ _ _ L L' D) as H1.
  destruct (one_prefix6 oc p bits s C Hb H1 L B) as (E & F & G). destruct (one_prefix6 oc p bits s' C Hb H1 L' B') as (E' & F' & G').
  eexists _, _, (S (length s)). split; [exact E|]. split; [replace (S (length s)) with (S (length s')) by congruence; exact E'|]. split; [|split; [reflexivity|split; [reflexivity|]]].
  - intros X. apply (f_equal v6_addr) in X. cbn [v6_addr] in X. apply D. assert (Y : s ++ repeat 0 (16 - length s) = s' ++ repeat 0 (16 - length s')) by exact (eq_trans (eq_sym F) (eq_trans (f_equal (be_bytes 16) X) F')). rewrite L, L' in Y. now apply app_inv_tail in Y.
  - intros S x Hx. assert (A : agree 128 bits (be_val (s ++ repeat 0 (16 - length s))) (be_val (s' ++ repeat 0 (16 - length s')))).
    { apply (same_agree 16); [reflexivity|rewrite L; now apply prefix_octets_le|rewrite L; apply prefix_octets_spec|exact S]. }
    set (a := mkV6 (be_val (s ++ repeat 0 (16 - length s))) bits). set (a' := mkV6 (be_val (s' ++ repeat 0 (16 - length s'))) bits).
    assert (M : forall y, member 128 bits (v6_addr a) y <-> member 128 bits (v6_addr a') y).
    { intros y. unfold member, a, a'. cbn [v6_addr]. split; intros [Y0 Y]; (split; [exact Y0|]); intros i I1 I2; [rewrite <- (A i I1 I2)|rewrite (A i I1 I2)]; now apply Y. }
    destruct (C03_exact_l oc a x) as (b & -> & Hb1); [split; [exact G|exact Hb]|exact H1|exact Hx|].
    destruct (C03_exact_l oc a' x) as (b' & -> & Hb2); [split; [exact G'|exact Hb]|exact H1|exact Hx|].
    f_equal. apply Bool.eq_iff_eq_true. rewrite Hb1, Hb2. change (v6_len a) with bits. change (v6_len a') with bits.
    split; (intros [Y [Z|(y & Y1 & Y2)]]; (split; [apply M; exact Y|]); [left; exact Z|right; exists y; split; [apply M; exact Y1|exact Y2]]).
Qed.
