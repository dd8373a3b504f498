(** Proofs about what octets mean: labels, prefixes, lists. *)
From Verif Require Import Base BaseFacts M_Util S_Wire F_Util M_Prefix S_Prefix M_Nlri S_Nlri F_Nlri F_Nlri2 M_Session M_Vpls M_Cap M_Addrs S_Addrs M_Attr S_Attr S_Attr3 F_Lay F_Attr4 S_Exact.
Ltac Zify.zify_post_hook ::= idtac.

Lemma idx_lt {A} (l : list A) i x : idx l i = Ok x -> (i < length l)%nat.
Proof. unfold idx. intros H. apply nth_error_Some. destruct (nth_error l i); discriminate. Qed.
Lemma Ok_inj {A} (x y : A) : Ok x = Ok y -> x = y.
Proof. intros H. now injection H. Qed.
(** ** Reading at an offset *)
Lemma rslice_peel {A} (a b : list A) k i j : length a = k -> (k <= i)%nat -> (k <= j)%nat -> rslice (a ++ b) i j = rslice b (i - k) (j - k).
Proof.
  intros <- H1 H2. unfold rslice. rewrite app_length.
  replace (Nat.leb (i - length a) (j - length a)) with (Nat.leb i j) by (destruct (Nat.leb_spec i j), (Nat.leb_spec (i - length a) (j - length a)); auto; lia).
  replace (Nat.leb (j - length a) (length b)) with (Nat.leb j (length a + length b)) by (destruct (Nat.leb_spec j (length a + length b)), (Nat.leb_spec (j - length a) (length b)); auto; lia).
  destruct (Nat.leb i j && _)%bool; [|reflexivity]. f_equal. unfold sub. rewrite skipn_app, skipn_all2 by lia. cbn [app]. f_equal. lia.
Qed.
Lemma rfrom_peel {A} (a b : list A) k i : length a = k -> (k <= i)%nat -> rfrom (a ++ b) i = rfrom b (i - k).
Proof.
  intros <- H1. unfold rfrom. rewrite app_length.
  replace (Nat.leb (i - length a) (length b)) with (Nat.leb i (length a + length b)) by (destruct (Nat.leb_spec i (length a + length b)), (Nat.leb_spec (i - length a) (length b)); auto; lia).
  destruct (Nat.leb _ _); [|reflexivity]. f_equal. now rewrite skipn_app, skipn_all2 by lia.
Qed.
Lemma idx_peel {A} (a b : list A) k i : length a = k -> (k <= i)%nat -> idx (a ++ b) i = idx b (i - k).
Proof. intros <- H. unfold idx. now rewrite nth_error_app2 by exact H. Qed.
Lemma rslice_front {A} (a b : list A) k : length a = k -> rslice (a ++ b) 0 k = Ok a.
Proof.
  intros <-. rewrite rslice_ok by (rewrite ?app_length; lia). f_equal.
  apply (sub_app_exact [] a b); [reflexivity|now rewrite Nat.sub_0_r].
Qed.
Lemma rfrom_0 {A} (l : list A) : rfrom l 0 = Ok l. Proof. unfold rfrom. reflexivity. Qed.

(** ** Lists *)
Definition step_exact {T} (step : list N -> res (T * nat)) (P : reading T) : Prop := forall s x k, bytes_ok s -> step s = Ok (x, k) <-> P s x k.
Definition advances {T} (P : reading T) : Prop := forall s x k, P s x k -> (1 <= k)%nat.
Lemma dec_loop_exact {T} (step : list N -> res (T * nat)) P : step_exact step P -> advances P -> forall fuel buf pos v q, bytes_ok buf ->
  (length buf - pos < fuel)%nat -> dec_loop step fuel buf pos = Ok (v, q) <-> exists n, q = (pos + n)%nat /\ many P (skipn pos buf) v n.
Proof.
  intros E A. induction fuel as [|fuel IH]; intros buf pos v q B L; [lia|]. cbn [dec_loop]. destruct (Nat.ltb_spec pos (length buf)) as [Hp|Hp].
  - rewrite rfrom_ok, bind_ok by lia. assert (Bs : bytes_ok (skipn pos buf)) by now apply Forall_skipn. split.
    + intros H. apply bind_Ok_inv in H as ([x k] & E1 & H). apply bind_Ok_inv in H as ([v' q'] & E2 & H). injection H as <- <-.
      apply E in E1; auto. pose proof (A _ _ _ E1) as K. apply IH in E2 as (n & -> & M); auto; [|lia].
      exists (k + n)%nat. split; [lia|]. rewrite <- skipn_skipn' in M. apply many_cons; auto.
      intros Z. apply (f_equal (@length N)) in Z. rewrite skipn_length in Z. cbn in Z. lia.
    + intros (n & -> & M). inversion M as [Z1 Z2 Z3|b x k v' n' Hb E1 M' Z1 Z2 Z3].
      * apply (f_equal (@length N)) in Z1. rewrite skipn_length in Z1. cbn in Z1. lia.
      * subst. pose proof (A _ _ _ E1) as K. apply E in E1; auto. rewrite E1, bind_ok. 
        rewrite (proj2 (IH buf (pos + k)%nat v' (pos + k + n')%nat B ltac:(lia))); [now rewrite bind_ok, Nat.add_assoc|].
        exists n'. split; [reflexivity|]. now rewrite <- skipn_skipn'.
  - rewrite skipn_all2 by exact Hp. split.
    + intros H. injection H as <- <-. exists 0%nat. split; [lia|constructor].
    + intros (n & -> & M). inversion M; subst; [now rewrite Nat.add_0_r|contradiction].
Qed.
Lemma items_exact {T} (step : list N -> res (T * nat)) P b v n : step_exact step P -> advances P -> bytes_ok b ->
  dec_loop step (S (length b)) b 0 = Ok (v, n) <-> many P b v n.
Proof.
  intros E A B. rewrite (dec_loop_exact step P E A) by (auto; lia). cbn [skipn Nat.add]. split; [now intros (m & -> & M)|eauto].
Qed.
Lemma pid_loop_exact {T} oc (ex : extractor T) P : step_exact (decode_bgpitem_from oc ex) P -> advances P -> forall fuel buf pos v q, bytes_ok buf ->
  (length buf - pos < fuel)%nat -> (pos <= length buf)%nat -> (forall s x k, bytes_ok s -> P s x k -> (k <= length s)%nat) ->
  dec_pathid_loop oc ex fuel buf pos = Ok (v, q) <-> exists n, q = (pos + n)%nat /\ many_pid P (skipn pos buf) v n.
Proof.
  intros E A. induction fuel as [|fuel IH]; intros buf pos v q B L Lp K; [lia|]. cbn [dec_pathid_loop].
  assert (Bs : bytes_ok (skipn pos buf)) by now apply Forall_skipn.
  destruct (Nat.ltb_spec (pos + 4) (length buf)) as [Hp|Hp].
  - rewrite rfrom_ok, bind_ok by lia. destruct (take_be 4 (skipn pos buf) Bs) as (i & s & Es & Hi & Bt); [rewrite skipn_length; lia|].
    rewrite Es, getn_u32_be, bind_ok by exact Hi. rewrite rfrom_ok, bind_ok by lia.
    rewrite <- skipn_skipn', Es. replace (skipn 4 (be_bytes 4 i ++ s)) with s by reflexivity.
    assert (Ls : (length buf = pos + 4 + length s)%nat). { apply (f_equal (@length N)) in Es. rewrite skipn_length, app_length, length_be_bytes in Es. lia. }
    assert (T4 : forall k, skipn (pos + 4 + k) buf = skipn k s) by (intros k; rewrite <- skipn_skipn', <- (skipn_skipn' 4 pos), Es; reflexivity).
    split.
    + intros H. apply bind_Ok_inv in H as ([x k] & E1 & H). apply bind_Ok_inv in H as ([v' q'] & E2 & H). injection H as <- <-.
      apply E in E1; auto. pose proof (A _ _ _ E1) as K1. pose proof (K _ _ _ Bt E1) as K2. apply IH in E2 as (n & -> & M); auto; [|lia|lia].
      rewrite T4 in M. exists (4 + k + n)%nat. split; [lia|]. apply (many_pid_cons P _ i s x k v' n); auto. intros ->. cbn in K2. lia.
    + intros (n & -> & M). inversion M as [b Hb Z1 Z2|b i' s' x k v' n' Eb Hi' Hs E1 M' Z1 Z2 Z3].
      * subst. rewrite app_length, length_be_bytes in Hb. lia.
      * subst. assert (i' = i /\ s' = s) as [-> ->]. 
        { clear - Eb Hi Hi'. assert (X := f_equal (firstn 4) Eb). assert (Y := f_equal (skipn 4) Eb). cbn [firstn skipn app] in Y.
          split; [|now symmetry]. change (firstn 4 (be_bytes 4 i ++ s)) with (be_bytes 4 i) in X. change (firstn 4 (be_bytes 4 i' ++ s')) with (be_bytes 4 i') in X.
          apply (f_equal be_val) in X. rewrite !be_val_be_bytes in X by assumption. now symmetry. }
        pose proof (A _ _ _ E1) as K1. pose proof (K _ _ _ Bt E1) as K2. apply E in E1; auto. rewrite E1, bind_ok.
        rewrite (proj2 (IH buf (pos + 4 + k)%nat v' (pos + 4 + k + n')%nat B ltac:(lia) ltac:(lia) K)); [rewrite bind_ok; do 2 f_equal; lia|].
        exists n'. split; [reflexivity|]. now rewrite T4.
  - split.
    + intros H. injection H as <- <-. exists 0%nat. split; [lia|]. constructor. rewrite skipn_length. lia.
    + intros (n & -> & M). inversion M as [b Hb Z1 Z2|b i' s' x k v' n' Eb Hi' Hs E1 M' Z1 Z2 Z3]; subst; [now rewrite Nat.add_0_r|].
      apply (f_equal (@length N)) in Eb. rewrite skipn_length, app_length, length_be_bytes in Eb. destruct s'; [contradiction|cbn in Eb; lia].
Qed.

(** ** Labels *)
Lemma usub_less oc bits used left : bits < 256 -> used < 256 -> usub oc 8 bits used = Ok left <-> less oc bits used left.
Proof.
  intros Hb Hu. unfold less, usub. change (2 ^ 8) with 256.
  assert (U : forall l, l < 256 -> (l + used) mod 256 = bits -> l + used = bits \/ l + used = bits + 256).
  { intros l Hl E. destruct (N.lt_ge_cases (l + used) 256) as [X|X]; [rewrite N.mod_small in E by exact X; lia|].
    replace (l + used) with (l + used - 256 + 1 * 256) in E by lia. rewrite N.mod_add, N.mod_small in E by lia. lia. }
  destruct (N.leb_spec used bits) as [H|H].
  - split.
    + intros E. apply Ok_inj in E. subst left. split; [lia|]. split; [|auto]. replace (bits - used + used) with bits by lia. now apply N.mod_small.
    + intros (L & E & _). f_equal. destruct (U left L E); lia.
  - destruct oc.
    + split; [discriminate|]. intros (_ & _ & X). specialize (X eq_refl). lia.
    + assert (M : (bits + 256 - used) mod 256 = bits + 256 - used) by (apply N.mod_small; lia). rewrite M. split.
      * intros E. apply Ok_inj in E. subst left. split; [lia|]. split; [|discriminate]. replace (bits + 256 - used + used) with (bits + 1 * 256) by lia.
        rewrite N.mod_add by discriminate. now apply N.mod_small.
      * intros (L & E & _). f_equal. destruct (U left L E); lia.
Qed.


Lemma labels_loop_exact oc : forall fuel left buf p ls q, bytes_ok buf -> left < 256 -> (p <= length buf)%nat -> (length buf - p < fuel)%nat ->
  labels_loop oc fuel left buf p = Ok (ls, q) <-> stack_of oc left (skipn p buf) ls /\ q = (p + 3 * length ls)%nat.
Proof.
  induction fuel as [|fuel IH]; intros left buf p ls q B Hl Hp Hf; [lia|]. destruct (N.eq_0_gt_0_cases left) as [->|H0].
  - cbn [labels_loop]. change (0 <? 0) with false. cbn iota. split.
    + intros H. injection H as <- <-. split; [constructor|cbn; lia].
    + intros [H ->]. inversion H; subst; try lia. cbn. now rewrite Nat.add_0_r.
  - destruct (Nat.le_gt_cases (p + 3) (length buf)) as [L3|L3].
    + assert (Bs : bytes_ok (skipn p buf)) by now apply Forall_skipn.
      assert (Es := firstn_skipn p buf). assert (Lp : length (firstn p buf) = p) by (rewrite firstn_length; lia).
      assert (Ls := skipn_length p buf). destruct (skipn p buf) as [|b0 [|b1 [|b2 r]]] eqn:Er; cbn [length] in Ls; try lia.
      assert (Tr : skipn (p + 3) buf = r) by (rewrite <- skipn_skipn', Er; reflexivity).
      inversion Bs as [|? ? B0 Bs1]; subst. inversion Bs1 as [|? ? B1 Bs2]; subst. inversion Bs2 as [|? ? B2 Br]; subst. cbv beta in B0, B1, B2.
      rewrite (labels_loop_step oc fuel left buf p b0 b1 b2 (skipn (p + 3) buf) (firstn p buf)) by (auto; now rewrite <- Es at 1).
      pose proof (entry_ends_dec b0 b1 b2 B2) as D. cbv zeta. split.
      * intros H. apply bind_Ok_inv in H as (l' & U & H). apply usub_less in U; [|exact Hl|reflexivity].
        destruct (label_ends _) eqn:E1; [|destruct (negb (N.land b2 1 =? 0)) eqn:E2].
        -- injection H as <- <-. split; [|reflexivity]. apply (st_last oc left l'); auto. now apply D.
        -- injection H as <- <-. split; [|reflexivity]. apply (st_last oc left l'); auto. now apply D.
        -- apply bind_Ok_inv in H as ([v q'] & E & H). injection H as <- <-. destruct U as (U1 & U2). apply IH in E as [E ->]; auto; try lia.
           split; [|cbn [length]; lia]. apply (st_more oc left l'); auto; [split; assumption|]. rewrite D. discriminate.
      * intros [H ->]. inversion H as [b|bits l' c0 c1 c2 r' H1 U EE|bits l' c0 c1 c2 r' ls' H1 U EE M]; subst; [lia| |];
          (assert (UU := U); destruct UU as [UU _]; apply usub_less in U; [|exact Hl|reflexivity]); rewrite U, bind_ok.
        -- apply D, orb_true_iff in EE. destruct (label_ends _); [reflexivity|]. destruct EE as [EE|EE]; [discriminate|]. rewrite EE. reflexivity.
        -- rewrite D in EE. apply not_true_is_false, orb_false_iff in EE as [-> ->].
           rewrite (proj2 (IH l' buf (p + 3)%nat ls' (p + 3 + 3 * length ls')%nat B UU L3 ltac:(lia))) by auto. rewrite bind_ok. cbn [length]. do 2 f_equal. lia.
    + split.
      * intros H. exfalso. cbn [labels_loop] in H. apply N.ltb_lt in H0. rewrite H0 in H. apply bind_Ok_inv in H as (x0 & _ & H). apply bind_Ok_inv in H as (x1 & _ & H). apply bind_Ok_inv in H as (x2 & X2 & H). apply idx_lt in X2. lia.
      * intros [H _]. exfalso. assert (Ls := skipn_length p buf). inversion H; subst; [lia| |];
          (match goal with X : _ = skipn p buf |- _ => rewrite <- X in Ls; cbn [length] in Ls; lia end).
Qed.
Lemma labels_exact oc bits b ls n : bits < 256 -> bytes_ok b -> labels_extract oc bits b = Ok (ls, n) <-> stack_of oc bits b ls /\ n = (3 * length ls)%nat.
Proof. intros Hb B. unfold labels_extract. rewrite labels_loop_exact by (auto; lia). reflexivity. Qed.
Lemma stack_length oc bits b ls : stack_of oc bits b ls -> (3 * length ls <= length b)%nat.
Proof. induction 1; cbn [length] in *; lia. Qed.

(** ** Prefixes *)
Definition ex_exact {T} (ex : extractor T) (P : bit_reading T) : Prop :=
  forall oc bits b x m, bits < 256 -> bytes_ok b -> ex oc bits b = Ok (x, m) <-> P oc bits b x m.
Definition ex_within {T} (P : bit_reading T) : Prop := forall oc bits b x m, P oc bits b x m -> (m <= length b)%nat.
Lemma octets_le bits k : bits <= 8 * N.of_nat k <-> (prefix_octets bits <= k)%nat.
Proof. destruct (prefix_octets_spec bits). split; intros; lia. Qed.
Lemma bytes_zero k : bytes_ok (repeat 0 k).
Proof. apply Forall_forall. intros x H. apply repeat_spec in H. subst. reflexivity. Qed.
Lemma pad_be K n b : (n <= K)%nat -> (n <= length b)%nat -> bytes_ok b ->
  be_bytes K (be_val (firstn n b ++ repeat 0 (K - n))) = firstn n b ++ repeat 0 (K - n) /\ be_val (firstn n b ++ repeat 0 (K - n)) < 2 ^ (8 * N.of_nat K).
Proof.
  intros HK Hn B. assert (L : length (firstn n b ++ repeat 0 (K - n)) = K) by (rewrite app_length, firstn_length, repeat_length; lia).
  assert (B' : bytes_ok (firstn n b ++ repeat 0 (K - n))) by (apply Forall_app; split; [now apply Forall_firstn|apply bytes_zero]).
  remember (firstn n b ++ repeat 0 (K - n)) as w eqn:Ew. clear Ew. subst K. split; [now apply be_bytes_be_val|]. now apply be_val_bound.
Qed.
Lemma pfx4_exact : ex_exact v4_from_bits pfx4.
Proof.
  intros oc bits b [a l] m Hb B. unfold v4_from_bits, pfx4. cbn [v4_len v4_addr].
  assert (Sp := octets_le bits 4). change (8 * N.of_nat 4) with 32 in Sp.
  destruct (N.le_gt_cases bits 32) as [H|H].
  - rewrite bits_bytes_ok, bind_ok by lia. replace (32 <? bits) with false by (symmetry; now apply N.ltb_ge). rewrite orb_false_l.
    apply Sp in H as Hs. destruct (Nat.ltb_spec (length b) (prefix_octets bits)) as [L|L].
    + split; [discriminate|]. intros (_ & -> & _ & _ & s & r & -> & Ls & _). rewrite app_length in L. lia.
    + destruct (pad_be 4 (prefix_octets bits) b Hs L B) as [P1 P2]. change (2 ^ (8 * N.of_nat 4)) with (2 ^ 32) in P2.
      set (z := be_val _) in P1, P2.
      assert (E : (if bits =? 0 then a0 <- decode_addrv4_from (repeat 0 4);; Ok (mkV4 a0 0, 0%nat)
        else bf <- fill_zeroed 4 (prefix_octets bits) b;; a0 <- decode_addrv4_from bf;; Ok (mkV4 a0 bits, prefix_octets bits)) = Ok (mkV4 z bits, prefix_octets bits)).
      { destruct (N.eqb_spec bits 0) as [->|Hn]; [subst z; reflexivity|]. rewrite fill_zeroed_ok, bind_ok by assumption. rewrite <- P1.
        rewrite <- (app_nil_r (be_bytes 4 z)), decode_addrv4_be by exact P2. reflexivity. }
      rewrite E. split.
      * intros X. injection X as <- <- <-. repeat (split; auto). exists (firstn (prefix_octets bits) b), (skipn (prefix_octets bits) b).
        split; [now rewrite firstn_skipn|]. split; [rewrite firstn_length; lia|exact P1].
      * intros (_ & -> & -> & Ha & s & r & Es & Ls & Eb). do 2 f_equal. f_equal. rewrite <- (be_val_be_bytes 4 a) by exact Ha. rewrite Eb. unfold z. f_equal. f_equal.
        rewrite Es, <- Ls, firstn_app, firstn_all, Nat.sub_diag. now rewrite app_nil_r.
  - split; [|intros (X & _); lia]. intros X. exfalso. apply bind_Ok_inv in X as (k & _ & X). replace (32 <? bits) with true in X by (symmetry; now apply N.ltb_lt). discriminate.
Qed.
Lemma pfx6_exact : ex_exact v6_from_bits pfx6.
Proof.
  intros oc bits b [a l] m Hb B. unfold v6_from_bits, pfx6. cbn [v6_len v6_addr].
  assert (Sp := octets_le bits 16). change (8 * N.of_nat 16) with 128 in Sp.
  destruct (N.le_gt_cases bits 128) as [H|H].
  - rewrite bits_bytes_ok, bind_ok by lia. replace (128 <? bits) with false by (symmetry; now apply N.ltb_ge). rewrite orb_false_l.
    apply Sp in H as Hs. destruct (Nat.ltb_spec (length b) (prefix_octets bits)) as [L|L].
    + split; [discriminate|]. intros (_ & -> & _ & _ & s & r & -> & Ls & _). rewrite app_length in L. lia.
    + destruct (pad_be 16 (prefix_octets bits) b Hs L B) as [P1 P2]. change (2 ^ (8 * N.of_nat 16)) with (2 ^ 128) in P2.
      set (z := be_val _) in P1, P2.
      assert (E : (if bits =? 0 then a0 <- decode_addrv6_from (repeat 0 16);; Ok (mkV6 a0 0, 0%nat)
        else bf <- fill_zeroed 16 (prefix_octets bits) b;; a0 <- decode_addrv6_from bf;; Ok (mkV6 a0 bits, prefix_octets bits)) = Ok (mkV6 z bits, prefix_octets bits)).
      { destruct (N.eqb_spec bits 0) as [->|Hn]; [subst z; reflexivity|]. rewrite fill_zeroed_ok, bind_ok by assumption. rewrite <- P1.
        rewrite <- (app_nil_r (be_bytes 16 z)), decode_addrv6_be by exact P2. reflexivity. }
      rewrite E. split.
      * intros X. injection X as <- <- <-. repeat (split; auto). exists (firstn (prefix_octets bits) b), (skipn (prefix_octets bits) b).
        split; [now rewrite firstn_skipn|]. split; [rewrite firstn_length; lia|exact P1].
      * intros (_ & -> & -> & Ha & s & r & Es & Ls & Eb). do 2 f_equal. f_equal. rewrite <- (be_val_be_bytes 16 a) by exact Ha. rewrite Eb. unfold z. f_equal. f_equal.
        rewrite Es, <- Ls, firstn_app, firstn_all, Nat.sub_diag. now rewrite app_nil_r.
  - split; [|intros (X & _); lia]. intros X. exfalso. apply bind_Ok_inv in X as (k & _ & X). replace (128 <? bits) with true in X by (symmetry; now apply N.ltb_lt). discriminate.
Qed.
Lemma pfx4_within : ex_within pfx4.
Proof. intros oc bits b x m (_ & _ & _ & _ & s & r & -> & <- & _). rewrite app_length. lia. Qed.
Lemma pfx6_within : ex_within pfx6.
Proof. intros oc bits b x m (_ & _ & _ & _ & s & r & -> & <- & _). rewrite app_length. lia. Qed.

Lemma labelled_exact {T} (ex : extractor T) P : ex_exact ex P -> ex_exact (labeled_extract ex) (labelled P).
Proof.
  intros E oc bits b [x ls] m Hb B. unfold labeled_extract, labelled. cbn [lab_labels lab_prefix].
  assert (C : forall k, cast 8 (N.of_nat (3 * k) * 8) = 24 * N.of_nat k mod 256) by (intros k; unfold cast; change (2 ^ 8) with 256; f_equal; lia).
  split.
  - intros H. apply bind_Ok_inv in H as ([ls' n] & E1 & H). apply labels_exact in E1 as [St ->]; auto.
    apply bind_Ok_inv in H as (l & U & H). rewrite C in U. apply usub_less in U; [|exact Hb|apply N.mod_lt; discriminate].
    apply bind_Ok_inv in H as (s & E2 & H). apply rfrom_Ok_inv in E2 as [_ ->]. apply bind_Ok_inv in H as ([y k] & E3 & H).
    injection H as <- <- <-. destruct U as [U1 U2]. apply E in E3; [|exact U1|now apply Forall_skipn].
    exists l, k. split; [exact St|]. split; [split; assumption|]. split; [exact E3|reflexivity].
  - intros (l & k & St & U & E3 & ->). pose proof (stack_length _ _ _ _ St) as L.
    rewrite (proj2 (labels_exact oc bits b ls (3 * length ls) Hb B)), bind_ok by auto. assert (UU := U). destruct UU as [UU _].
    apply usub_less in U; [|exact Hb|apply N.mod_lt; discriminate]. rewrite C, U, bind_ok, rfrom_ok, bind_ok by exact L.
    apply E in E3; [|exact UU|now apply Forall_skipn]. now rewrite E3, bind_ok.
Qed.
Lemma labelled_within {T} (P : bit_reading T) : ex_within P -> ex_within (labelled P).
Proof. intros W oc bits b x m (l & k & St & U & H & ->). apply W in H. apply stack_length in St. rewrite skipn_length in H. lia. Qed.

Lemma take_rd b : bytes_ok b -> (8 <= length b)%nat -> exists rd r, b = rd_wire rd ++ r /\ rd_wf rd /\ bytes_ok r.
Proof.
  intros B L. destruct (take_be 4 b B) as (h & s & -> & Hh & Bs); [lia|]. rewrite app_length, length_be_bytes in L.
  destruct (take_be 4 s Bs) as (l & r & -> & Hl & Br); [lia|]. exists (mkRD h l), r. split; [unfold rd_wire; cbn [rdh rdl]; now rewrite <- app_assoc|]. split; [split; cbn; assumption|exact Br].
Qed.
Lemma rd_front rd r rd' r' : rd_wire rd ++ r = rd_wire rd' ++ r' -> rd_wf rd -> rd_wf rd' -> rd = rd' /\ r = r'.
Proof.
  intros E W W'. assert (X := decode_rd_wire rd r W). rewrite E, decode_rd_wire in X by exact W'.
  injection X as ->. split; [reflexivity|]. now apply app_inv_head in E.
Qed.
Lemma distinguished_exact {T} (ex : extractor T) P : ex_exact ex P -> ex_exact (withrd_extract ex) (distinguished P).
Proof.
  intros E oc bits b [x rd] m Hb B. unfold withrd_extract, distinguished. cbn [wrd_rd wrd_prefix].
  destruct (Nat.ltb_spec (length b) 8) as [L|L].
  - split; [discriminate|]. intros (l & r & k & -> & _). rewrite app_length in L. unfold rd_wire in L. rewrite app_length, !length_be_bytes in L. lia.
  - destruct (take_rd b B L) as (rd0 & r0 & -> & W0 & B0). assert (Lr : length (rd_wire rd0) = 8%nat) by (unfold rd_wire; now rewrite app_length, !length_be_bytes).
    rewrite rslice_front, bind_ok by exact Lr. rewrite decode_rd_exact, bind_ok by exact W0. change (cast 8 (N.of_nat 8 * 8)) with 64.
    rewrite (rfrom_peel _ _ 8) by (auto; lia). change (8 - 8)%nat with 0%nat. rewrite rfrom_0. split.
    + intros H. apply bind_Ok_inv in H as (l & U & H). apply usub_less in U; [|exact Hb|reflexivity]. rewrite bind_ok in H.
      apply bind_Ok_inv in H as ([y k] & E3 & H). injection H as <- <- <-. destruct U as [U1 U2]. apply E in E3; auto.
      exists l, r0, k. split; [reflexivity|]. split; [exact W0|]. split; [split; assumption|]. split; [exact E3|reflexivity].
    + intros (l & r & k & Eb & W & U & H & ->). apply rd_front in Eb as [<- <-]; auto. assert (UU := U). destruct UU as [UU _].
      apply usub_less in U; [|exact Hb|reflexivity]. rewrite U, !bind_ok. apply E in H; auto. now rewrite H, bind_ok.
Qed.
Lemma distinguished_within {T} (P : bit_reading T) : ex_within P -> ex_within (distinguished P).
Proof.
  intros W oc bits b x m (l & r & k & -> & _ & _ & H & ->). apply W in H. rewrite app_length. unfold rd_wire. rewrite app_length, !length_be_bytes. lia.
Qed.
