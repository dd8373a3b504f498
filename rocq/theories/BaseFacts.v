(** Facts about the base vocabulary. *)
From Verif Require Import Base.
From Coq Require Import ZArith ZifyBool ZifyNat ZifyN.
Ltac Zify.zify_post_hook ::= Z.div_mod_to_equations.

(** ** Bind *)
Lemma bind_ok {A B} (a : A) (f : A -> res B) : bind (Ok a) f = f a.
Proof. reflexivity. Qed.

Lemma bind_Ok_inv {A B} (x : res A) (f : A -> res B) b :
  bind x f = Ok b -> exists a, x = Ok a /\ f a = Ok b.
Proof. destruct x; cbn; intros; try discriminate; eauto. Qed.

Lemma bind_assoc {A B C} (x : res A) (f : A -> res B) (g : B -> res C) :
  bind (bind x f) g = bind x (fun a => bind (f a) g).
Proof. destruct x; reflexivity. Qed.

(** ** Lists *)
Lemma skipn_app_exact {A} n (l1 l2 : list A) : length l1 = n -> skipn n (l1 ++ l2) = l2.
Proof. intros <-. rewrite skipn_app, skipn_all, Nat.sub_diag. reflexivity. Qed.

Lemma firstn_app_exact {A} n (l1 l2 : list A) : length l1 = n -> firstn n (l1 ++ l2) = l1.
Proof. intros <-. rewrite firstn_app, firstn_all, Nat.sub_diag, firstn_O, app_nil_r. reflexivity. Qed.

Lemma skipn_skipn' {A} a b (l : list A) : skipn a (skipn b l) = skipn (b + a) l.
Proof.
  revert l; induction b; intros l; cbn; auto.
  destruct l; [now rewrite skipn_nil|apply IHb].
Qed.

Lemma nth_error_skipn {A} n i (l : list A) : nth_error (skipn n l) i = nth_error l (n + i).
Proof.
  revert l; induction n; intros l; cbn; auto.
  destruct l; [now destruct i|apply IHn].
Qed.

Lemma sub_app_exact {A} (pre mid post : list A) a b :
  length pre = a -> length mid = (b - a)%nat -> sub (pre ++ mid ++ post) a b = mid.
Proof. intros Ha Hm. unfold sub. rewrite (skipn_app_exact a) by auto. now apply firstn_app_exact. Qed.

Lemma length_sub {A} (l : list A) a b :
  (a <= b)%nat -> (b <= length l)%nat -> length (sub l a b) = (b - a)%nat.
Proof. intros. unfold sub. rewrite firstn_length, skipn_length. lia. Qed.

Lemma Forall_firstn {A} (P : A -> Prop) n l : Forall P l -> Forall P (firstn n l).
Proof. intros H; revert n; induction H; intros [|n]; cbn; auto. Qed.
Lemma Forall_skipn {A} (P : A -> Prop) n l : Forall P l -> Forall P (skipn n l).
Proof. intros H; revert n; induction H; intros [|n]; cbn; auto. Qed.
Lemma Forall_sub {A} (P : A -> Prop) l a b : Forall P l -> Forall P (sub l a b).
Proof. intros. now apply Forall_firstn, Forall_skipn. Qed.

Lemma bytes_okb_ok l : bytes_okb l = true <-> bytes_ok l.
Proof.
  unfold bytes_okb, bytes_ok. rewrite forallb_forall, Forall_forall.
  unfold is_byte. setoid_rewrite N.ltb_lt. tauto.
Qed.

(** ** Reading *)
Lemma idx_app_l {A} (l r : list A) i : (i < length l)%nat -> idx (l ++ r) i = idx l i.
Proof. intros. unfold idx. now rewrite nth_error_app1. Qed.
Lemma idx_skipn {A} (l : list A) n i : idx (skipn n l) i = idx l (n + i).
Proof. unfold idx. now rewrite nth_error_skipn. Qed.
Lemma idx_ok {A} (l : list A) i : (i < length l)%nat -> exists b, idx l i = Ok b /\ In b l.
Proof.
  intros H. unfold idx. destruct (nth_error l i) eqn:E.
  - eexists; split; eauto. eapply nth_error_In; eauto.
  - apply nth_error_None in E. lia.
Qed.
Lemma idx_panic {A} (l : list A) i : (length l <= i)%nat -> idx l i = Panic.
Proof. intros H. unfold idx. apply nth_error_None in H. now rewrite H. Qed.
Lemma idx_Ok_inv {A} (l : list A) i b : idx l i = Ok b -> (i < length l)%nat /\ In b l.
Proof.
  unfold idx. destruct (nth_error l i) eqn:E; intros H; inversion H; subst.
  split; [|eapply nth_error_In; eauto]. apply nth_error_Some. congruence.
Qed.

Lemma rslice_ok {A} (l : list A) a b :
  (a <= b)%nat -> (b <= length l)%nat -> rslice l a b = Ok (sub l a b).
Proof.
  intros. unfold rslice.
  replace (Nat.leb a b) with true by (symmetry; apply Nat.leb_le; lia).
  now replace (Nat.leb b (length l)) with true by (symmetry; apply Nat.leb_le; lia).
Qed.
Lemma rslice_Ok_inv {A} (l : list A) a b s :
  rslice l a b = Ok s -> (a <= b)%nat /\ (b <= length l)%nat /\ s = sub l a b.
Proof.
  unfold rslice. destruct (Nat.leb a b) eqn:E1, (Nat.leb b (length l)) eqn:E2; cbn; intros H; inversion H.
  apply Nat.leb_le in E1, E2. auto.
Qed.
Lemma eslice_ok {A} (l : list A) a b :
  (a <= b)%nat -> (b <= length l)%nat -> eslice l a b = Ok (sub l a b).
Proof.
  intros. unfold eslice.
  replace (Nat.leb a b) with true by (symmetry; apply Nat.leb_le; lia).
  now replace (Nat.leb b (length l)) with true by (symmetry; apply Nat.leb_le; lia).
Qed.
Lemma eslice_Ok_inv {A} (l : list A) a b s :
  eslice l a b = Ok s -> (a <= b)%nat /\ (b <= length l)%nat /\ s = sub l a b.
Proof.
  unfold eslice. destruct (Nat.leb a b) eqn:E1, (Nat.leb b (length l)) eqn:E2; cbn; intros H; inversion H.
  apply Nat.leb_le in E1, E2. auto.
Qed.
Lemma eslice_cases {A} (l : list A) a b :
  (exists s, eslice l a b = Ok s /\ (a <= b)%nat /\ (b <= length l)%nat /\ s = sub l a b)
  \/ eslice l a b = Err EInsufficient.
Proof.
  unfold eslice. destruct (Nat.leb a b) eqn:E1, (Nat.leb b (length l)) eqn:E2; cbn; auto.
  apply Nat.leb_le in E1, E2. left; eauto 6.
Qed.
Lemma rfrom_ok {A} (l : list A) a : (a <= length l)%nat -> rfrom l a = Ok (skipn a l).
Proof. intros. unfold rfrom. now replace (Nat.leb a (length l)) with true by (symmetry; apply Nat.leb_le; lia). Qed.
Lemma rfrom_Ok_inv {A} (l : list A) a s :
  rfrom l a = Ok s -> (a <= length l)%nat /\ s = skipn a l.
Proof. unfold rfrom. destruct (Nat.leb a (length l)) eqn:E; intros H; inversion H. apply Nat.leb_le in E; auto. Qed.

(** ** Splice and writes *)
Lemma length_splice p bs buf :
  (p + length bs <= length buf)%nat -> length (splice p bs buf) = length buf.
Proof. intros. unfold splice. rewrite !app_length, firstn_length, skipn_length. lia. Qed.

Lemma splice_nil p buf : (p <= length buf)%nat -> splice p [] buf = buf.
Proof. intros. unfold splice. cbn. rewrite Nat.add_0_r. apply firstn_skipn. Qed.

Lemma splice_splice_adj p a b buf :
  (p + length a + length b <= length buf)%nat ->
  splice (p + length a) b (splice p a buf) = splice p (a ++ b) buf.
Proof.
  intros H. unfold splice.
  assert (Hf : length (firstn p buf) = p) by (rewrite firstn_length; lia).
  rewrite (app_assoc (firstn p buf) a).
  rewrite (firstn_app_exact (p + length a)) by (rewrite app_length; lia).
  rewrite <- !app_assoc. f_equal. f_equal. f_equal.
  rewrite (app_assoc (firstn p buf) a), skipn_app.
  rewrite app_length, Hf.
  rewrite skipn_all2 by (rewrite app_length; lia). cbn.
  rewrite skipn_skipn', app_length. f_equal. lia.
Qed.

(** writing the part behind first, then the part in front *)
Lemma splice_splice_adj_rev p a b buf :
  (p + length a + length b <= length buf)%nat ->
  splice p a (splice (p + length a) b buf) = splice p (a ++ b) buf.
Proof.
  intros H. unfold splice.
  rewrite firstn_app, firstn_firstn, firstn_length.
  replace (Nat.min p (p + length a)) with p by lia.
  replace (p - Nat.min (p + length a) (length buf))%nat with 0%nat by lia.
  cbn. rewrite app_nil_r, <- app_assoc. f_equal. f_equal.
  rewrite skipn_app_exact by (rewrite firstn_length; lia).
  rewrite app_length. do 2 f_equal. lia.
Qed.

(** overwriting bytes inside an already written region *)
Lemma splice_over p a b c d buf :
  length b = length d -> (p + length a + length b + length c <= length buf)%nat ->
  splice (p + length a) d (splice p (a ++ b ++ c) buf) = splice p (a ++ d ++ c) buf.
Proof.
  intros Hl H. unfold splice.
  assert (Hf : length (firstn p buf) = p) by (rewrite firstn_length; lia).
  rewrite <- !app_assoc.
  rewrite (app_assoc (firstn p buf) a).
  rewrite (firstn_app_exact (p + length a)) by (rewrite app_length; lia).
  rewrite <- !app_assoc. do 3 f_equal.
  rewrite (app_assoc (firstn p buf) a), (app_assoc (firstn p buf ++ a) b).
  rewrite skipn_app_exact by (rewrite !app_length; lia).
  do 2 f_equal. rewrite !app_length. lia.
Qed.

Lemma writes_at_eret {A} p (a : A) : forall buf, (p <= length buf)%nat -> eret a buf = Ok (a, splice p [] buf).
Proof. intros. unfold eret. now rewrite splice_nil. Qed.

Lemma writes_at_ret {A} p (a : A) : writes_at p (eret a) [] a.
Proof. intros buf H. apply writes_at_eret. cbn in H; lia. Qed.

Lemma writes_at_bind {A B} p (m : Enc A) (f : A -> Enc B) bs1 bs2 a b :
  writes_at p m bs1 a ->
  writes_at (p + length bs1) (f a) bs2 b ->
  writes_at p (ebind m f) (bs1 ++ bs2) b.
Proof.
  intros H1 H2 buf H. rewrite app_length in H. unfold ebind.
  rewrite H1 by lia. rewrite H2 by (rewrite length_splice; lia).
  f_equal. f_equal. apply splice_splice_adj. lia.
Qed.

Lemma writes_at_bind_rev {A B} p (m : Enc A) (f : A -> Enc B) bs1 bs2 a b :
  writes_at (p + length bs1) m bs2 a ->
  writes_at p (f a) bs1 b ->
  writes_at p (ebind m f) (bs1 ++ bs2) b.
Proof.
  intros H1 H2 buf H. rewrite app_length in H. unfold ebind.
  rewrite H1 by lia. rewrite H2 by (rewrite length_splice; lia).
  f_equal. f_equal. apply splice_splice_adj_rev. lia.
Qed.

Lemma writes_at_map {A B} p (m : Enc A) (f : A -> Enc B) bs a b :
  writes_at p m bs a -> (forall buf, (p + length bs <= length buf)%nat -> f a buf = Ok (b, buf)) ->
  writes_at p (ebind m f) bs b.
Proof.
  intros H1 H2 buf H. unfold ebind. rewrite H1 by lia. rewrite H2 by (rewrite length_splice; lia). reflexivity.
Qed.

Lemma writes_at_set_idx p b : writes_at p (set_idx p b) [b] tt.
Proof.
  intros buf H. cbn in H. unfold set_idx.
  now replace (Nat.ltb p (length buf)) with true by (symmetry; apply Nat.ltb_lt; lia).
Qed.

Lemma writes_at_write_at p bs : writes_at p (write_at p bs) bs tt.
Proof.
  intros buf H. unfold write_at.
  now replace (Nat.leb (p + length bs) (length buf)) with true by (symmetry; apply Nat.leb_le; lia).
Qed.

Lemma splice_on_from n q bs buf :
  (n + q + length bs <= length buf)%nat ->
  firstn n buf ++ splice q bs (skipn n buf) = splice (n + q) bs buf.
Proof.
  intros H. unfold splice. rewrite !app_assoc. rewrite skipn_skipn'.
  rewrite <- Nat.add_assoc. do 2 f_equal.
  rewrite <- (firstn_skipn n buf) at 3.
  rewrite firstn_app, firstn_length.
  replace (n + q - Nat.min n (length buf))%nat with q by lia.
  rewrite (firstn_all2 (firstn n buf)) by (rewrite firstn_length; lia). reflexivity.
Qed.

Lemma writes_at_on_from {A} n q (e : Enc A) bs a :
  writes_at q e bs a -> writes_at (n + q) (on_from n e) bs a.
Proof.
  intros H1 buf H. unfold on_from.
  replace (Nat.leb n (length buf)) with true by (symmetry; apply Nat.leb_le; lia).
  rewrite H1 by (rewrite skipn_length; lia).
  rewrite splice_on_from by lia. reflexivity.
Qed.

Lemma writes_on_from {A} n (e : Enc A) bs a :
  writes e bs a -> writes_at n (on_from n e) bs a.
Proof. intros H. apply (writes_at_on_from n 0) in H. now rewrite Nat.add_0_r in H. Qed.

Lemma splice_full bs buf : length bs = length buf -> splice 0 bs buf = bs.
Proof. intros H. unfold splice. cbn. rewrite skipn_all2 by lia. apply app_nil_r. Qed.

(** encoder run on an exactly sized sub-slice *)
Lemma writes_on_slice {A} n m (e : Enc A) bs a :
  length bs = (m - n)%nat -> (n <= m)%nat ->
  writes e bs a -> writes_at n (on_slice n m e) bs a.
Proof.
  intros Hl Hnm H1 buf H. unfold on_slice.
  replace (Nat.leb n m) with true by (symmetry; apply Nat.leb_le; lia).
  replace (Nat.leb m (length buf)) with true by (symmetry; apply Nat.leb_le; lia). cbn.
  rewrite H1 by (rewrite length_sub; lia).
  rewrite splice_full by (rewrite length_sub; lia).
  unfold splice. now replace (n + length bs)%nat with m by lia.
Qed.
Lemma writes_on_eslice {A} n m (e : Enc A) bs a :
  length bs = (m - n)%nat -> (n <= m)%nat ->
  writes e bs a -> writes_at n (on_eslice n m e) bs a.
Proof.
  intros Hl Hnm H1 buf H. unfold on_eslice.
  replace (Nat.leb n m) with true by (symmetry; apply Nat.leb_le; lia).
  replace (Nat.leb m (length buf)) with true by (symmetry; apply Nat.leb_le; lia). cbn.
  rewrite H1 by (rewrite length_sub; lia).
  rewrite splice_full by (rewrite length_sub; lia).
  unfold splice. now replace (n + length bs)%nat with m by lia.
Qed.

Lemma writes_at_eq {A} p p' (e : Enc A) bs bs' a a' :
  writes_at p' e bs' a' -> p = p' -> bs = bs' -> a = a' -> writes_at p e bs a.
Proof. intros; subst; auto. Qed.

(** explicit form of [writes] *)
Lemma writes_spec {A} (e : Enc A) bs a :
  writes e bs a <->
  (forall buf, (length bs <= length buf)%nat -> e buf = Ok (a, bs ++ skipn (length bs) buf)).
Proof. unfold writes, writes_at, splice. cbn. tauto. Qed.

(** ** Big-endian *)
Lemma length_be_bytes k n : length (be_bytes k n) = k.
Proof. induction k; cbn; auto. Qed.

Lemma be_bytes_ok k n : bytes_ok (be_bytes k n).
Proof.
  induction k; constructor; auto. unfold is_byte. apply N.mod_lt. lia.
Qed.

Lemma be_val_app_acc l acc : fold_left (fun a b => a * 256 + b) l acc
  = acc * 2 ^ (8 * N.of_nat (length l)) + be_val l.
Proof.
  revert acc; induction l as [|b l IH]; intros acc; cbn -[N.pow N.mul N.add N.of_nat].
  - unfold be_val; cbn. lia.
  - unfold be_val. cbn -[N.pow N.mul N.add N.of_nat]. rewrite IH, (IH (0 * 256 + b)).
    replace (8 * N.of_nat (S (length l))) with (8 + 8 * N.of_nat (length l)) by lia.
    rewrite N.pow_add_r. change (2 ^ 8) with 256. nia.
Qed.

Lemma be_val_cons b l : be_val (b :: l) = b * 2 ^ (8 * N.of_nat (length l)) + be_val l.
Proof. unfold be_val at 1. cbn [fold_left]. rewrite be_val_app_acc. now rewrite N.mul_0_l, N.add_0_l. Qed.

Lemma be_val_app l1 l2 : be_val (l1 ++ l2) = be_val l1 * 2 ^ (8 * N.of_nat (length l2)) + be_val l2.
Proof. unfold be_val at 1. rewrite fold_left_app. apply be_val_app_acc. Qed.

Lemma be_val_bound l : bytes_ok l -> be_val l < 2 ^ (8 * N.of_nat (length l)).
Proof.
  induction 1 as [|b l Hb Hl IH]; [unfold be_val; cbn; lia|].
  rewrite be_val_cons. cbn [length].
  replace (8 * N.of_nat (S (length l))) with (8 + 8 * N.of_nat (length l)) by lia.
  rewrite N.pow_add_r. change (2 ^ 8) with 256. unfold is_byte in Hb. nia.
Qed.

Lemma pow2_nz k : 2 ^ k <> 0.
Proof. apply N.pow_nonzero. lia. Qed.

Lemma div_mod_pow2 n q r : (n mod 2 ^ (q + r)) / 2 ^ q = (n / 2 ^ q) mod 2 ^ r.
Proof.
  rewrite N.pow_add_r, N.mod_mul_r by apply pow2_nz.
  rewrite (N.add_comm (n mod _)), N.mul_comm, N.div_add_l by apply pow2_nz.
  rewrite (N.div_small (n mod 2 ^ q)) by (apply N.mod_lt, pow2_nz). now rewrite N.add_0_r.
Qed.
Lemma mod_mod_pow2 n q r : q <= r -> (n mod 2 ^ r) mod 2 ^ q = n mod 2 ^ q.
Proof.
  intros H. replace r with (q + (r - q)) by lia.
  rewrite N.pow_add_r, N.mod_mul_r by apply pow2_nz.
  rewrite (N.mul_comm (2 ^ q)), N.mod_add by apply pow2_nz. apply N.mod_mod, pow2_nz.
Qed.

Lemma be_bytes_mod k n m : N.of_nat k * 8 <= m -> be_bytes k (n mod 2 ^ m) = be_bytes k n.
Proof.
  induction k; intros Hm; cbn -[N.pow N.mul N.of_nat]; auto.
  f_equal; [|apply IHk; lia].
  set (q := 8 * N.of_nat k). assert (Hq : q + 8 <= m) by (unfold q; lia).
  replace m with (q + (m - q)) by lia. rewrite div_mod_pow2.
  change 256 with (2 ^ 8). apply mod_mod_pow2. lia.
Qed.

Lemma be_val_be_bytes k n : n < 2 ^ (8 * N.of_nat k) -> be_val (be_bytes k n) = n.
Proof.
  revert n; induction k; intros n H.
  - cbn in *. unfold be_val; cbn. lia.
  - cbn -[N.pow N.mul N.of_nat]. rewrite be_val_cons, length_be_bytes.
    set (q := 8 * N.of_nat k) in *.
    replace (8 * N.of_nat (S k)) with (8 + q) in H by lia.
    rewrite N.pow_add_r in H. change (2 ^ 8) with 256 in H.
    rewrite <- (be_bytes_mod k n q) by lia.
    rewrite IHk by (apply N.mod_lt, pow2_nz).
    rewrite (N.mod_small (n / 2 ^ q)) by (apply N.div_lt_upper_bound; [apply pow2_nz|lia]).
    rewrite N.mul_comm. symmetry. apply N.div_mod, pow2_nz.
Qed.

Lemma be_bytes_be_val l : bytes_ok l -> be_bytes (length l) (be_val l) = l.
Proof.
  induction 1 as [|b l Hb Hl IH]; cbn -[N.pow N.mul N.of_nat]; auto.
  rewrite be_val_cons. set (q := 8 * N.of_nat (length l)).
  pose proof (be_val_bound l Hl) as Hv. fold q in Hv. f_equal.
  - rewrite N.div_add_l by apply pow2_nz. rewrite (N.div_small (be_val l)) by auto.
    rewrite N.add_0_r. now apply N.mod_small.
  - transitivity (be_bytes (length l) (be_val l)); [|exact IH].
    rewrite <- (be_bytes_mod (length l) (b * _ + _) q) by lia.
    rewrite N.add_comm, N.mod_add by apply pow2_nz. now rewrite N.mod_small.
Qed.

Lemma be_bytes_inj k a b : a < 2 ^ (8 * N.of_nat k) -> b < 2 ^ (8 * N.of_nat k) ->
  be_bytes k a = be_bytes k b -> a = b.
Proof. intros Ha Hb H. rewrite <- (be_val_be_bytes k a), <- (be_val_be_bytes k b) by auto. congruence. Qed.

Lemma be_bytes_split j k n : be_bytes (j + k) n = be_bytes j (n / 2 ^ (8 * N.of_nat k)) ++ be_bytes k n.
Proof.
  induction j; cbn -[N.pow N.mul N.of_nat]; auto.
  rewrite IHj. f_equal. f_equal.
  rewrite N.div_div by apply pow2_nz. rewrite <- N.pow_add_r. do 2 f_equal. lia.
Qed.

(** ** Shifts, masks *)
Lemma lor_disj k x y : x mod 2 ^ k = 0 -> y < 2 ^ k -> N.lor x y = x + y.
Proof.
  intros Hx Hy. symmetry. rewrite <- N.lxor_lor.
  - apply N.add_nocarry_lxor. apply N.bits_inj. intros i. rewrite N.land_spec, N.bits_0.
    destruct (N.lt_ge_cases i k) as [Hi|Hi].
    + rewrite <- (N.mod_pow2_bits_low x k i) by auto. rewrite Hx, N.bits_0. reflexivity.
    + rewrite <- (N.mod_small y (2 ^ k)) by auto. rewrite N.mod_pow2_bits_high by auto. apply andb_false_r.
  - apply N.bits_inj. intros i. rewrite N.land_spec, N.bits_0.
    destruct (N.lt_ge_cases i k) as [Hi|Hi].
    + rewrite <- (N.mod_pow2_bits_low x k i) by auto. rewrite Hx, N.bits_0. reflexivity.
    + rewrite <- (N.mod_small y (2 ^ k)) by auto. rewrite N.mod_pow2_bits_high by auto. apply andb_false_r.
Qed.

Lemma lor_shiftl k a y : y < 2 ^ k -> N.lor (N.shiftl a k) y = a * 2 ^ k + y.
Proof.
  intros. rewrite N.shiftl_mul_pow2. apply (lor_disj k); auto.
  apply N.mod_mul, pow2_nz.
Qed.

Lemma land_mask k x : N.land x (2 ^ k - 1) = x mod 2 ^ k.
Proof. rewrite <- N.land_ones. now rewrite N.ones_equiv, N.sub_1_r. Qed.

Lemma land_255 x : N.land x 255 = x mod 256.
Proof. exact (land_mask 8 x). Qed.
Lemma land_65535 x : N.land x 65535 = x mod 65536.
Proof. exact (land_mask 16 x). Qed.

(** ** Small finite sweeps over bytes *)
Definition byte_range : list N := map N.of_nat (seq 0 256).
Lemma byte_sweep (P : N -> bool) : forallb P byte_range = true -> forall b, b < 256 -> P b = true.
Proof.
  intros H b Hb. rewrite forallb_forall in H. apply H. unfold byte_range.
  apply in_map_iff. exists (N.to_nat b). split; [lia|]. apply in_seq. lia.
Qed.

Lemma uadd_ok oc w a b : a + b < 2 ^ w -> uadd oc w a b = Ok (a + b).
Proof. intros. unfold uadd. now replace (a + b <? 2 ^ w) with true by (symmetry; apply N.ltb_lt; auto). Qed.
Lemma usub_ok oc w a b : b <= a -> usub oc w a b = Ok (a - b).
Proof. intros. unfold usub. now replace (b <=? a) with true by (symmetry; apply N.leb_le; auto). Qed.
Lemma ushl_ok oc w a n : n < w -> ushl oc w a n = Ok (N.shiftl a n mod 2 ^ w).
Proof. intros. unfold ushl. now replace (n <? w) with true by (symmetry; apply N.ltb_lt; auto). Qed.
