(** Proofs about small public helpers. *)
From Verif Require Import Base BaseFacts M_Util S_Wire F_Util M_Prefix S_Prefix F_Prefix F_Prefix2 M_Nlri S_Nlri F_Nlri M_Vpls F_Room6 M_Small S_Small.
Ltac Zify.zify_post_hook ::= idtac.

Lemma on_from_Ok_inv {A} k (e : Enc A) buf v b : on_from k e buf = Ok (v, b) -> exists b', e (skipn k buf) = Ok (v, b').
Proof. unfold on_from. destruct (Nat.leb k (length buf)); [|discriminate]. destruct (e (skipn k buf)) as [[x b']| | |]; try discriminate. intros E. exists b'. congruence. Qed.
Lemma elift_Ok_inv {A} (r : res A) buf v b : elift r buf = Ok (v, b) -> r = Ok v.
Proof. unfold elift. destruct r; try discriminate. congruence. Qed.
Lemma eret_Ok_inv {A} (x : A) buf v b : eret x buf = Ok (v, b) -> v = x.
Proof. unfold eret. congruence. Qed.
Lemma uadd_val oc a b s : uadd oc 8 a b = Ok s -> s = (a + b) mod 256.
Proof.
  unfold uadd. change (2 ^ 8) with 256. destruct (N.ltb_spec (a + b) 256) as [L|L].
  - intros E. rewrite N.mod_small by exact L. congruence.
  - destruct oc; [discriminate|]. congruence.
Qed.
Lemma bits_bytes_val oc l n : l <= 128 -> bits_bytes oc l = Ok n -> N.of_nat n = (l + 7) / 8.
Proof.
  unfold bits_bytes. intros L E. apply bind_Ok_inv in E as (s & U & E). apply uadd_val in U. rewrite N.mod_small in U by (clear - L; lia).
  assert (n = N.to_nat (s / 8)) as -> by congruence. rewrite N2Nat.id. now rewrite U.
Qed.
Lemma v4_written : written_as v4_to_bits v4_prefixlen 0 (fun p => v4_len p <= 32).
Proof.
  intros oc x buf b n buf' L E. unfold v4_prefixlen. rewrite !N.add_0_r. unfold v4_to_bits in E. destruct (N.eqb_spec (v4_len x) 0) as [Z|Z].
  - apply eret_Ok_inv in E. rewrite Z. assert (b = 0) as -> by congruence. assert (n = 0%nat) as -> by congruence. now split.
  - apply ebind_Ok_inv in E as (bytes & b1 & B & E). apply elift_Ok_inv in B. apply ebind_Ok_inv in E as (s & b2 & _ & E). apply ebind_Ok_inv in E as (u & b3 & _ & E).
    apply eret_Ok_inv in E. assert (b = v4_len x) as -> by congruence. assert (n = bytes) as -> by congruence. split; [symmetry; apply N.mod_small; clear - L; lia|].
    apply (bits_bytes_val oc); [clear - L; lia|exact B].
Qed.
Lemma v6_written : written_as v6_to_bits v6_prefixlen 0 (fun p => v6_len p <= 128).
Proof.
  intros oc x buf b n buf' L E. unfold v6_prefixlen. rewrite !N.add_0_r. unfold v6_to_bits in E. destruct (N.eqb_spec (v6_len x) 0) as [Z|Z].
  - apply eret_Ok_inv in E. rewrite Z. assert (b = 0) as -> by congruence. assert (n = 0%nat) as -> by congruence. now split.
  - apply ebind_Ok_inv in E as (bytes & b1 & B & E). apply elift_Ok_inv in B. apply ebind_Ok_inv in E as (s & b2 & _ & E). apply ebind_Ok_inv in E as (u & b3 & _ & E).
    apply eret_Ok_inv in E. assert (b = v6_len x) as -> by congruence. assert (n = bytes) as -> by congruence. split; [symmetry; apply N.mod_small; clear - L; lia|].
    apply (bits_bytes_val oc); [clear - L; lia|exact B].
Qed.
Lemma labels_write_val : forall v p buf q b, labels_write v p buf = Ok (q, b) -> q = (p + 3 * length v)%nat.
Proof.
  induction v as [|l v IH]; intros p buf q b E; cbn [labels_write] in E.
  - apply eret_Ok_inv in E. cbn [length]. lia.
  - apply ebind_Ok_inv in E as (u1 & b1 & _ & E). apply ebind_Ok_inv in E as (u2 & b2 & _ & E). apply ebind_Ok_inv in E as (u3 & b3 & _ & E). apply IH in E. cbn [length]. lia.
Qed.
Lemma labels_set_val v buf b n buf' : labels_set v buf = Ok ((b, n), buf') -> b = labels_prefixlen v mod 256 /\ N.of_nat n * 8 = labels_prefixlen v.
Proof.
  unfold labels_prefixlen. destruct v as [|l v]; intros E; cbn [labels_set] in E.
  - apply eret_Ok_inv in E. assert (b = 0) as -> by congruence. assert (n = 0%nat) as -> by congruence. now split.
  - apply ebind_Ok_inv in E as (p & b1 & W & E). apply labels_write_val in W. apply ebind_Ok_inv in E as (u & b2 & _ & E). apply eret_Ok_inv in E.
    assert (Q : N.of_nat p * 8 = N.of_nat (length (l :: v)) * 24) by (clear - W; lia). assert (b = cast 8 (N.of_nat p * 8)) as -> by congruence. assert (n = p) as -> by congruence.
    unfold cast. change (2 ^ 8) with 256. rewrite Q. now split.
Qed.
Lemma labeled_written {T} (st : setter T) len (P : T -> Prop) : written_as st len 0 P -> written_as (labeled_set st) (labeled_prefixlen len) 0 (fun x => P (lab_prefix x)).
Proof.
  intros H oc x buf b n buf' Px E. unfold labeled_set in E. apply ebind_Ok_inv in E as ((lb & ln) & b1 & L & E). apply labels_set_val in L as [L1 L2].
  apply ebind_Ok_inv in E as ((pb & pn) & b2 & S & E). apply on_from_Ok_inv in S as (b' & S). apply H in S as [S1 S2]; [|exact Px]. rewrite N.add_0_r in S1, S2.
  apply ebind_Ok_inv in E as (c & b3 & A & E). apply elift_Ok_inv, uadd_val in A. apply eret_Ok_inv in E. assert (b = c) as -> by congruence. assert (n = (ln + pn)%nat) as -> by congruence.
  unfold labeled_prefixlen. rewrite N.add_0_r. split.
  - rewrite A, L1, S1. now rewrite <- N.add_mod by discriminate.
  - rewrite Nat2N.inj_add, S2, <- L2. rewrite <- N.add_assoc, (N.add_comm (N.of_nat ln * 8)). rewrite N.div_add by discriminate. apply N.add_comm.
Qed.
Lemma rd_written rd buf n buf' : encode_rd_to rd buf = Ok (n, buf') -> n = 8%nat.
Proof. unfold encode_rd_to. intros E. apply ebind_Ok_inv in E as (u1 & b1 & _ & E). apply ebind_Ok_inv in E as (u2 & b2 & _ & E). now apply eret_Ok_inv in E. Qed.
Lemma withrd_written {T} (st : setter T) len k (P : T -> Prop) : written_as st len k P -> written_as (withrd_set st) (withrd_prefixlen len) k (fun x => P (wrd_prefix x)).
Proof.
  intros H oc x buf b n buf' Px E. unfold withrd_set in E. apply ebind_Ok_inv in E as (rn & b1 & L & E). apply rd_written in L. subst rn.
  apply ebind_Ok_inv in E as ((pb & pn) & b2 & S & E). apply on_from_Ok_inv in S as (b' & S). apply H in S as [S1 S2]; [|exact Px].
  apply ebind_Ok_inv in E as (c & b3 & A & E). apply elift_Ok_inv, uadd_val in A. apply eret_Ok_inv in E. assert (b = c) as -> by congruence. assert (n = (8 + pn)%nat) as -> by congruence.
  unfold withrd_prefixlen. split.
  - rewrite A, S1. change (cast 8 (N.of_nat 8 * 8)) with 64. rewrite N.add_mod_idemp_r by discriminate. f_equal. apply N.add_assoc.
  - rewrite Nat2N.inj_add, S2. replace (64 + len (wrd_prefix x) + k + 7) with (len (wrd_prefix x) + k + 7 + 8 * 8) by lia. rewrite N.div_add by discriminate. apply N.add_comm.
Qed.
Lemma mdt4_written : written_as mdt4_set mdt4_prefixlen 32 (fun x => v4_len (mdt4_addr x) <= 32).
Proof.
  intros oc x buf b n buf' L E. unfold mdt4_prefixlen. unfold mdt4_set in E. cbv zeta in E. apply ebind_Ok_inv in E as (bytes & b1 & B & E).
  apply ebind_Ok_inv in E as (u & b2 & _ & E). apply ebind_Ok_inv in E as (c & b3 & A & E). apply elift_Ok_inv, uadd_val in A. apply eret_Ok_inv in E.
  assert (b = c) as -> by congruence. assert (n = (bytes + 4)%nat) as -> by congruence. split; [exact A|]. rewrite Nat2N.inj_add.
  replace (v4_len (mdt4_addr x) + 32 + 7) with (v4_len (mdt4_addr x) + 7 + 4 * 8) by lia. rewrite N.div_add by discriminate. f_equal.
  destruct (N.ltb_spec 0 (v4_len (mdt4_addr x))) as [Z|Z].
  - apply ebind_Ok_inv in B as (y & b4 & B & Q). apply elift_Ok_inv in B. apply ebind_Ok_inv in Q as (s & b5 & _ & Q). apply ebind_Ok_inv in Q as (w & b6 & _ & Q). apply eret_Ok_inv in Q. subst y.
    apply (bits_bytes_val oc); [clear - L; lia|exact B].
  - apply eret_Ok_inv in B. subst bytes. replace (v4_len (mdt4_addr x)) with 0 by (clear - Z; lia). reflexivity.
Qed.
Lemma mdt6_written : written_as mdt6_set mdt6_prefixlen 128 (fun x => v6_len (mdt6_addr x) <= 128).
Proof.
  intros oc x buf b n buf' L E. unfold mdt6_prefixlen. unfold mdt6_set in E. cbv zeta in E. apply ebind_Ok_inv in E as (bytes & b1 & B & E).
  apply ebind_Ok_inv in E as (u & b2 & _ & E). apply ebind_Ok_inv in E as (c & b3 & A & E). apply elift_Ok_inv, uadd_val in A. apply eret_Ok_inv in E.
  assert (b = c) as -> by congruence. assert (n = (bytes + 16)%nat) as -> by congruence. split; [exact A|]. rewrite Nat2N.inj_add.
  replace (v6_len (mdt6_addr x) + 128 + 7) with (v6_len (mdt6_addr x) + 7 + 16 * 8) by lia. rewrite N.div_add by discriminate. f_equal.
  destruct (N.ltb_spec 0 (v6_len (mdt6_addr x))) as [Z|Z].
  - apply ebind_Ok_inv in B as (y & b4 & B & Q). apply elift_Ok_inv in B. apply ebind_Ok_inv in Q as (s & b5 & _ & Q). apply ebind_Ok_inv in Q as (w & b6 & _ & Q). apply eret_Ok_inv in Q. subst y.
    apply (bits_bytes_val oc); [clear - L; lia|exact B].
  - apply eret_Ok_inv in B. subst bytes. replace (v6_len (mdt6_addr x)) with 0 by (clear - Z; lia). reflexivity.
Qed.

(** ** Reading *)
Lemma usub_val oc a b s : a < 256 -> b < 256 -> usub oc 8 a b = Ok s -> s < 256 /\ (b + s) mod 256 = a.
Proof.
  intros A B. unfold usub. change (2 ^ 8) with 256. destruct (N.leb_spec b a) as [L|L].
  - intros E. assert (s = a - b) as -> by congruence. split; [clear - A; lia|]. rewrite N.mod_small by (clear - A L; lia). clear - L. lia.
  - destruct oc; [discriminate|]. intros E. assert (s = (a + 256 - b) mod 256 \/ s = a + 256 - b) as Q by (first [left; congruence|right; congruence]).
    assert (K : a + 256 - b < 256) by (clear - L A B; lia).
    assert (s = a + 256 - b) as -> by (destruct Q as [ -> | -> ]; [now apply N.mod_small|reflexivity]). split; [exact K|].
    replace (b + (a + 256 - b)) with (a + 1 * 256) by (clear - A B L; lia). rewrite N.mod_add by discriminate. now apply N.mod_small.
Qed.
Lemma v4_read : read_as v4_from_bits v4_prefixlen 0.
Proof.
  intros oc bits buf x n B E. unfold v4_prefixlen. rewrite N.add_0_r. unfold v4_from_bits in E. apply bind_Ok_inv in E as (bytes & _ & E).
  destruct (_ || _)%bool; [discriminate|]. destruct (N.eqb_spec bits 0) as [->|Z].
  - apply bind_Ok_inv in E as (a & _ & E). assert (x = mkV4 a 0) as -> by congruence. reflexivity.
  - apply bind_Ok_inv in E as (bf & _ & E). apply bind_Ok_inv in E as (a & _ & E). assert (x = mkV4 a bits) as -> by congruence. now apply N.mod_small.
Qed.
Lemma v6_read : read_as v6_from_bits v6_prefixlen 0.
Proof.
  intros oc bits buf x n B E. unfold v6_prefixlen. rewrite N.add_0_r. unfold v6_from_bits in E. apply bind_Ok_inv in E as (bytes & _ & E).
  destruct (_ || _)%bool; [discriminate|]. destruct (N.eqb_spec bits 0) as [->|Z].
  - apply bind_Ok_inv in E as (a & _ & E). assert (x = mkV6 a 0) as -> by congruence. reflexivity.
  - apply bind_Ok_inv in E as (bf & _ & E). apply bind_Ok_inv in E as (a & _ & E). assert (x = mkV6 a bits) as -> by congruence. now apply N.mod_small.
Qed.
Lemma labels_loop_val oc : forall f left buf p v q, labels_loop oc f left buf p = Ok (v, q) -> q = (p + 3 * length v)%nat.
Proof.
  induction f as [|f IH]; intros left buf p v q E; cbn [labels_loop] in E; [discriminate|]. destruct (0 <? left).
  - apply bind_Ok_inv in E as (b0 & _ & E). apply bind_Ok_inv in E as (b1 & _ & E). apply bind_Ok_inv in E as (b2 & _ & E). cbv zeta in E. apply bind_Ok_inv in E as (l' & _ & E).
    match type of E with context [label_ends ?z] => set (lv := z) in E; clearbody lv end.
    destruct (label_ends lv). { assert (v = [lv]) as -> by congruence. cbn [length]. assert (q = (p + 3)%nat) by congruence. lia. }
    apply bind_Ok_inv in E as (b & _ & E). destruct (negb (N.land b 1 =? 0)). { assert (v = [lv]) as -> by congruence. cbn [length]. assert (q = (p + 3)%nat) by congruence. lia. }
    apply bind_Ok_inv in E as ((v' & p') & R & E). apply IH in R. assert (v = lv :: v') as -> by congruence. cbn [length]. assert (q = p') by congruence. lia.
  - assert (v = []) as -> by congruence. cbn [length]. assert (q = p) by congruence. lia.
Qed.
Lemma labeled_read {T} (ex : extractor T) len : read_as ex len 0 -> read_as (labeled_extract ex) (labeled_prefixlen len) 0.
Proof.
  intros H oc bits buf x n B E. unfold labeled_extract in E. apply bind_Ok_inv in E as ((l & ln) & L & E). apply labels_loop_val in L. apply bind_Ok_inv in E as (rb & U & E).
  apply usub_val in U as [U1 U2]; [|exact B|unfold cast; apply N.mod_lt; discriminate]. apply bind_Ok_inv in E as (s & _ & E). apply bind_Ok_inv in E as ((p & pn) & R & E).
  apply H in R; [|exact U1]. rewrite N.add_0_r in R. assert (x = mkLab p l) as -> by congruence. unfold labeled_prefixlen, labels_prefixlen. cbn [lab_labels lab_prefix]. rewrite N.add_0_r.
  unfold cast in U2. change (2 ^ 8) with 256 in U2. rewrite N.add_mod_idemp_l in U2 by discriminate. replace (N.of_nat ln * 8) with (N.of_nat (length l) * 24) in U2 by (clear - L; lia).
  rewrite <- R, N.add_mod_idemp_r in U2 by discriminate. exact U2.
Qed.
Lemma withrd_read {T} (ex : extractor T) len k : read_as ex len k -> read_as (withrd_extract ex) (withrd_prefixlen len) k.
Proof.
  intros H oc bits buf x n B E. unfold withrd_extract in E. destruct (Nat.ltb _ _); [discriminate|]. apply bind_Ok_inv in E as (s8 & _ & E). apply bind_Ok_inv in E as ((r & rn) & D & E).
  assert (rn = 8%nat) as ->. { unfold decode_rd_from in D. destruct (Nat.leb _ _); [|discriminate]. apply bind_Ok_inv in D as (? & _ & D). apply bind_Ok_inv in D as (? & _ & D). apply bind_Ok_inv in D as (? & _ & D). apply bind_Ok_inv in D as (? & _ & D). congruence. }
  apply bind_Ok_inv in E as (rb & U & E). change (cast 8 (N.of_nat 8 * 8)) with 64 in U. apply usub_val in U as [U1 U2]; [|exact B|reflexivity].
  apply bind_Ok_inv in E as (s & _ & E). apply bind_Ok_inv in E as ((p & pn) & R & E). apply H in R; [|exact U1]. assert (x = mkWRD p r) as -> by congruence.
  unfold withrd_prefixlen. cbn [wrd_prefix]. rewrite <- R, N.add_mod_idemp_r in U2 by discriminate. rewrite <- N.add_assoc. exact U2.
Qed.
Lemma mdt4_read : read_as mdt4_extract mdt4_prefixlen 32.
Proof.
  intros oc bits buf x n B E. unfold mdt4_prefixlen. unfold mdt4_extract in E. destruct (negb _); [discriminate|]. destruct (N.eqb_spec bits 32) as [->|Z].
  - apply bind_Ok_inv in E as (a & _ & E). apply bind_Ok_inv in E as (g & _ & E). assert (x = mkMdt4 (mkV4 a 0) g) as -> by congruence. reflexivity.
  - apply bind_Ok_inv in E as (b & U & E). apply usub_val in U as [U1 U2]; [|exact B|reflexivity]. apply bind_Ok_inv in E as (y & _ & E). apply bind_Ok_inv in E as (bf & _ & E). apply bind_Ok_inv in E as (a & _ & E).
    apply bind_Ok_inv in E as (s & _ & E). apply bind_Ok_inv in E as (g & _ & E). assert (x = mkMdt4 (mkV4 a b) g) as -> by congruence. cbn [mdt4_addr v4_len]. rewrite N.add_comm. exact U2.
Qed.
Lemma mdt6_read : read_as mdt6_extract mdt6_prefixlen 128.
Proof.
  intros oc bits buf x n B E. unfold mdt6_prefixlen. unfold mdt6_extract in E. destruct (negb _); [discriminate|]. destruct (N.eqb_spec bits 128) as [->|Z].
  - apply bind_Ok_inv in E as (a & _ & E). apply bind_Ok_inv in E as (g & _ & E). assert (x = mkMdt6 (mkV6 a 0) g) as -> by congruence. reflexivity.
  - apply bind_Ok_inv in E as (b & U & E). apply usub_val in U as [U1 U2]; [|exact B|reflexivity]. apply bind_Ok_inv in E as (y & _ & E). apply bind_Ok_inv in E as (bf & _ & E). apply bind_Ok_inv in E as (a & _ & E).
    apply bind_Ok_inv in E as (s & _ & E). apply bind_Ok_inv in E as (g & _ & E). assert (x = mkMdt6 (mkV6 a b) g) as -> by congruence. cbn [mdt6_addr v6_len]. rewrite N.add_comm. exact U2.
Qed.

(** ** Multicast *)
Lemma v6_multicast p : v6_wf p -> (v6_is_multicast p = true <-> member 128 8 (255 * 2 ^ 120) (v6_addr p)).
Proof.
  intros [H _]. unfold v6_is_multicast, member.
  assert (F : nth 0 (octets16 (v6_addr p)) 0 = v6_addr p / 2 ^ 120).
  { unfold octets16. rewrite <- (N.mod_small (v6_addr p / 2 ^ 120) 256) by (apply N.div_lt_upper_bound; [discriminate|exact H]). generalize (v6_addr p). intros a. cbn [be_bytes nth]. reflexivity. }
  rewrite F. rewrite N.eqb_eq. rewrite agree_div; [|reflexivity|exact H|clear; lia]. change (128 - 8) with 120. rewrite N.div_mul by discriminate. split; [intros ->; now split|intros [_ <-]; reflexivity].
Qed.
Lemma slice_exact {T} (buf : list T) a b s : util_slice buf a b = Ok s <-> exists l r, buf = l ++ s ++ r /\ length l = a /\ b = (a + length s)%nat.
Proof.
  unfold util_slice. split.
  - destruct (Nat.leb_spec a b) as [L|L]; cbn [andb]; [|discriminate]. destruct (Nat.leb_spec b (length buf)) as [M|M]; [|discriminate]. intros E. assert (s = firstn (b - a) (skipn a buf)) as -> by congruence.
    exists (firstn a buf), (skipn (b - a) (skipn a buf)). rewrite firstn_skipn, firstn_skipn. split; [reflexivity|]. rewrite !firstn_length, skipn_length. split; lia.
  - intros (l & r & -> & <- & ->). rewrite !app_length. replace (Nat.leb _ _) with true by (symmetry; apply Nat.leb_le; lia). replace (Nat.leb _ _) with true by (symmetry; apply Nat.leb_le; lia).
    cbn [andb]. f_equal. rewrite skipn_app, skipn_all, Nat.sub_diag. cbn [app skipn]. replace (length l + length s - length l)%nat with (length s) by lia.
    rewrite firstn_app, firstn_all, Nat.sub_diag. cbn [firstn]. apply app_nil_r.
Qed.
Lemma slice_fails {T} (buf : list T) a b : util_slice buf a b = Err EInsufficient <-> (b < a \/ length buf < b)%nat.
Proof.
  unfold util_slice. destruct (Nat.leb_spec a b), (Nat.leb_spec b (length buf)); cbn [andb]; split; intros; try discriminate; try reflexivity; lia.
Qed.

(** ** Reading with overflow checks *)
Lemma usub_exact a b s : usub true 8 a b = Ok s -> b <= a /\ s = a - b.
Proof. unfold usub. destruct (N.leb_spec b a) as [L|L]; [|discriminate]. intros E. split; [exact L|congruence]. Qed.
Lemma v4_exact : read_exact v4_from_bits v4_prefixlen 0.
Proof.
  intros bits buf x n B E. unfold v4_prefixlen. rewrite N.add_0_r. unfold v4_from_bits in E. apply bind_Ok_inv in E as (bytes & _ & E).
  destruct (_ || _)%bool; [discriminate|]. destruct (N.eqb_spec bits 0) as [->|Z].
  - apply bind_Ok_inv in E as (a & _ & E). assert (x = mkV4 a 0) as -> by congruence. reflexivity.
  - apply bind_Ok_inv in E as (bf & _ & E). apply bind_Ok_inv in E as (a & _ & E). assert (x = mkV4 a bits) as -> by congruence. reflexivity.
Qed.
Lemma v6_exact : read_exact v6_from_bits v6_prefixlen 0.
Proof.
  intros bits buf x n B E. unfold v6_prefixlen. rewrite N.add_0_r. unfold v6_from_bits in E. apply bind_Ok_inv in E as (bytes & _ & E).
  destruct (_ || _)%bool; [discriminate|]. destruct (N.eqb_spec bits 0) as [->|Z].
  - apply bind_Ok_inv in E as (a & _ & E). assert (x = mkV6 a 0) as -> by congruence. reflexivity.
  - apply bind_Ok_inv in E as (bf & _ & E). apply bind_Ok_inv in E as (a & _ & E). assert (x = mkV6 a bits) as -> by congruence. reflexivity.
Qed.
Lemma labels_loop_fits : forall f left buf p v q, labels_loop true f left buf p = Ok (v, q) -> N.of_nat (length v) * 24 <= left.
Proof.
  induction f as [|f IH]; intros left buf p v q E; cbn [labels_loop] in E; [discriminate|]. destruct (0 <? left).
  - apply bind_Ok_inv in E as (b0 & _ & E). apply bind_Ok_inv in E as (b1 & _ & E). apply bind_Ok_inv in E as (b2 & _ & E). cbv zeta in E. apply bind_Ok_inv in E as (l' & U & E).
    apply usub_exact in U as [U1 U2].
    match type of E with context [label_ends ?z] => set (lv := z) in E; clearbody lv end.
    destruct (label_ends lv). { assert (v = [lv]) as -> by congruence. cbn [length]. clear - U1. lia. }
    apply bind_Ok_inv in E as (b & _ & E). destruct (negb (N.land b 1 =? 0)). { assert (v = [lv]) as -> by congruence. cbn [length]. clear - U1. lia. }
    apply bind_Ok_inv in E as ((v' & p') & R & E). apply IH in R. assert (v = lv :: v') as -> by congruence. cbn [length]. clear - R U1 U2. lia.
  - assert (v = []) as -> by congruence. cbn [length]. clear. lia.
Qed.
Lemma labeled_exact {T} (ex : extractor T) len : read_exact ex len 0 -> read_exact (labeled_extract ex) (labeled_prefixlen len) 0.
Proof.
  intros H bits buf x n B E. unfold labeled_extract in E. apply bind_Ok_inv in E as ((l & ln) & L & E). pose proof (labels_loop_fits _ _ _ _ _ _ L) as F. apply labels_loop_val in L. apply bind_Ok_inv in E as (rb & U & E).
  assert (Q : N.of_nat ln * 8 = N.of_nat (length l) * 24) by (clear - L; lia). rewrite Q in U. unfold cast in U. change (2 ^ 8) with 256 in U. rewrite N.mod_small in U by (clear - F B; lia). apply usub_exact in U as [U1 U2].
  apply bind_Ok_inv in E as (s & _ & E). apply bind_Ok_inv in E as ((p & pn) & R & E).
  apply H in R; [|clear - B U2; lia]. rewrite N.add_0_r in R. assert (x = mkLab p l) as -> by congruence. unfold labeled_prefixlen, labels_prefixlen. cbn [lab_labels lab_prefix]. rewrite N.add_0_r, R. clear - U1 U2. lia.
Qed.
Lemma withrd_exact {T} (ex : extractor T) len k : read_exact ex len k -> read_exact (withrd_extract ex) (withrd_prefixlen len) k.
Proof.
  intros H bits buf x n B E. unfold withrd_extract in E. destruct (Nat.ltb _ _); [discriminate|]. apply bind_Ok_inv in E as (s8 & _ & E). apply bind_Ok_inv in E as ((r & rn) & D & E).
  assert (rn = 8%nat) as ->. { unfold decode_rd_from in D. destruct (Nat.leb _ _); [|discriminate]. apply bind_Ok_inv in D as (? & _ & D). apply bind_Ok_inv in D as (? & _ & D). apply bind_Ok_inv in D as (? & _ & D). apply bind_Ok_inv in D as (? & _ & D). congruence. }
  apply bind_Ok_inv in E as (rb & U & E). change (cast 8 (N.of_nat 8 * 8)) with 64 in U. apply usub_exact in U as [U1 U2].
  apply bind_Ok_inv in E as (s & _ & E). apply bind_Ok_inv in E as ((p & pn) & R & E). apply H in R; [|clear - B U2; lia]. assert (x = mkWRD p r) as -> by congruence.
  unfold withrd_prefixlen. cbn [wrd_prefix]. rewrite <- N.add_assoc, R. clear - U1 U2. lia.
Qed.
Lemma mdt4_exact : read_exact mdt4_extract mdt4_prefixlen 32.
Proof.
  intros bits buf x n B E. unfold mdt4_prefixlen. unfold mdt4_extract in E. destruct (negb _); [discriminate|]. destruct (N.eqb_spec bits 32) as [->|Z].
  - apply bind_Ok_inv in E as (a & _ & E). apply bind_Ok_inv in E as (g & _ & E). assert (x = mkMdt4 (mkV4 a 0) g) as -> by congruence. reflexivity.
  - apply bind_Ok_inv in E as (b & U & E). apply usub_exact in U as [U1 U2]. apply bind_Ok_inv in E as (y & _ & E). apply bind_Ok_inv in E as (bf & _ & E). apply bind_Ok_inv in E as (a & _ & E).
    apply bind_Ok_inv in E as (s & _ & E). apply bind_Ok_inv in E as (g & _ & E). assert (x = mkMdt4 (mkV4 a b) g) as -> by congruence. cbn [mdt4_addr v4_len]. clear - U1 U2. lia.
Qed.
Lemma mdt6_exact : read_exact mdt6_extract mdt6_prefixlen 128.
Proof.
  intros bits buf x n B E. unfold mdt6_prefixlen. unfold mdt6_extract in E. destruct (negb _); [discriminate|]. destruct (N.eqb_spec bits 128) as [->|Z].
  - apply bind_Ok_inv in E as (a & _ & E). apply bind_Ok_inv in E as (g & _ & E). assert (x = mkMdt6 (mkV6 a 0) g) as -> by congruence. reflexivity.
  - apply bind_Ok_inv in E as (b & U & E). apply usub_exact in U as [U1 U2]. apply bind_Ok_inv in E as (y & _ & E). apply bind_Ok_inv in E as (bf & _ & E). apply bind_Ok_inv in E as (a & _ & E).
    apply bind_Ok_inv in E as (s & _ & E). apply bind_Ok_inv in E as (g & _ & E). assert (x = mkMdt6 (mkV6 a b) g) as -> by congruence. cbn [mdt6_addr v6_len]. clear - U1 U2. lia.
Qed.

(** ** MDT routes *)
Lemma mdt4_never : forall oc x buf b n buf', v4_len (mdt4_addr x) <= 32 -> mdt4_set oc x buf = Ok ((b, n), buf') -> b <> mdt4_prefixlen x.
Proof.
  intros oc x buf b n buf' L E. apply mdt4_written in E as [-> _]; [|exact L]. unfold mdt4_prefixlen in *. rewrite N.mod_small by (clear - L; lia). clear. lia.
Qed.
Lemma mdt6_never : forall oc x buf b n buf', v6_len (mdt6_addr x) <= 128 -> mdt6_set oc x buf = Ok ((b, n), buf') -> b <> mdt6_prefixlen x.
Proof.
  intros oc x buf b n buf' L E. apply mdt6_written in E as [-> _]; [|exact L]. unfold mdt6_prefixlen in *. destruct (N.eq_dec (v6_len (mdt6_addr x)) 128) as [->|Z]; [discriminate|].
  rewrite N.mod_small by (clear - L Z; lia). clear. lia.
Qed.

(** ** The route types of the address families *)
Lemma families_small :
  written_as (labeled_set v4_to_bits) (labeled_prefixlen v4_prefixlen) 0 (fun x => v4_len (lab_prefix x) <= 32) /\
  written_as (labeled_set v6_to_bits) (labeled_prefixlen v6_prefixlen) 0 (fun x => v6_len (lab_prefix x) <= 128) /\
  written_as (labeled_set (withrd_set v4_to_bits)) (labeled_prefixlen (withrd_prefixlen v4_prefixlen)) 0 (fun x => v4_len (wrd_prefix (lab_prefix x)) <= 32) /\
  written_as (labeled_set (withrd_set v6_to_bits)) (labeled_prefixlen (withrd_prefixlen v6_prefixlen)) 0 (fun x => v6_len (wrd_prefix (lab_prefix x)) <= 128) /\
  read_exact (labeled_extract v4_from_bits) (labeled_prefixlen v4_prefixlen) 0 /\
  read_exact (labeled_extract v6_from_bits) (labeled_prefixlen v6_prefixlen) 0 /\
  read_exact (labeled_extract (withrd_extract v4_from_bits)) (labeled_prefixlen (withrd_prefixlen v4_prefixlen)) 0 /\
  read_exact (labeled_extract (withrd_extract v6_from_bits)) (labeled_prefixlen (withrd_prefixlen v6_prefixlen)) 0.
Proof.
  split; [exact (labeled_written _ _ _ v4_written)|]. split; [exact (labeled_written _ _ _ v6_written)|].
  split; [exact (labeled_written _ _ _ (withrd_written _ _ _ _ v4_written))|]. split; [exact (labeled_written _ _ _ (withrd_written _ _ _ _ v6_written))|].
  split; [exact (labeled_exact _ _ v4_exact)|]. split; [exact (labeled_exact _ _ v6_exact)|].
  split; [exact (labeled_exact _ _ (withrd_exact _ _ _ v4_exact))|exact (labeled_exact _ _ (withrd_exact _ _ _ v6_exact))].
Qed.
