(** Proofs about text forms. *)
From Coq Require Import Ascii String ZArith.
From Verif Require Import Base BaseFacts M_Util S_Wire M_Prefix S_Prefix F_Prefix M_Nlri S_Nlri M_Vpls M_Attr S_Attr F_Attr M_Text S_Text.
Ltac Zify.zify_post_hook ::= idtac.

(** ** Digits *)

Lemma to_digit_iff radix c d : radix <= 36 -> to_digit radix c = Some d <-> is_digit radix c d.
Proof.
  intros R. unfold to_digit, is_digit. cbv zeta.
  destruct (N.leb_spec 48 c), (N.leb_spec c 57), (N.leb_spec 97 c), (N.leb_spec c 122), (N.leb_spec 65 c), (N.leb_spec c 90); cbn [andb];
    match goal with |- context [?x <? radix] => destruct (N.ltb_spec x radix) end;
    (split; [intros E; try discriminate E; assert (E' : forall x y : N, Some x = Some y -> x = y) by congruence; apply E' in E; lia
            |intros (? & [[? ?]|[? [?|?]]]); try lia; f_equal; lia]).
Qed.
Lemma to_digit_none radix c : radix <= 36 -> to_digit radix c = None <-> forall d, ~ is_digit radix c d.
Proof.
  intros R. split.
  - intros E d H. apply (to_digit_iff radix c d R) in H. congruence.
  - intros H. destruct (to_digit radix c) as [d|] eqn:E; auto. apply (to_digit_iff radix c d R) in E. now apply H in E.
Qed.
Lemma digit_fun radix c d d' : radix <= 36 -> is_digit radix c d -> is_digit radix c d' -> d = d'.
Proof. intros R H H'. apply (to_digit_iff radix c d R) in H. apply (to_digit_iff radix c d' R) in H'. congruence. Qed.
Lemma digit_char_ok radix d : d < radix -> is_digit radix (digit_char d) d.
Proof. intros H. unfold digit_char, is_digit. destruct (N.ltb_spec d 10); lia. Qed.
Lemma digit_char_lower d : d < 36 -> digit_char d < 65 \/ 90 < digit_char d.
Proof. intros. unfold digit_char. destruct (N.ltb_spec d 10); lia. Qed.

Lemma fold_app radix ds d acc : fold_left (fun a d => a * radix + d) (ds ++ [d]) acc = fold_left (fun a d => a * radix + d) ds acc * radix + d.
Proof. rewrite fold_left_app. reflexivity. Qed.
Lemma fold_ge radix ds : forall acc, 1 <= radix -> acc <= fold_left (fun a d => a * radix + d) ds acc.
Proof.
  induction ds as [|d ds IH]; intros acc R; cbn [fold_left]; [lia|].
  specialize (IH (acc * radix + d) R). assert (acc * 1 <= acc * radix) by (apply N.mul_le_mono_l; exact R). clear - IH H. lia.
Qed.

Lemma fmt_digits_ok radix : 2 <= radix -> radix <= 36 -> forall fuel n acc, n < 2 ^ N.of_nat fuel -> (0 < fuel)%nat ->
  exists s ds, fmt_digits radix fuel n acc = s ++ acc /\ Forall2 (is_digit radix) s ds /\ ds <> [] /\ digits_value radix ds = n /\
    (n <> 0 -> forall s', s <> 48 :: s') /\ (n = 0 -> s = [48]) /\ Forall (fun c => c < 65 \/ 90 < c) s.
Proof.
  intros R R'. induction fuel as [|fuel IH]; intros n acc Hn Hf; [lia|]. cbn [fmt_digits].
  assert (Hm : n mod radix < radix) by (apply N.mod_lt; clear - R; lia).
  assert (Hd : n = radix * (n / radix) + n mod radix) by (apply N.div_mod; clear - R; lia).
  destruct (N.eqb_spec (n / radix) 0) as [E|E].
  - exists [digit_char (n mod radix)], [n mod radix]. split; [reflexivity|].
    split; [constructor; [now apply digit_char_ok|constructor]|]. split; [discriminate|].
    rewrite E in Hd. assert (Hn' : n = n mod radix) by (clear - Hd; lia).
    split; [unfold digits_value; cbn [fold_left]; clear - Hn'; lia|]. rewrite <- Hn' in Hm |- *. split; [|split].
    + intros Hz s' F. injection F as F _. unfold digit_char in F. destruct (N.ltb_spec n 10); clear - F Hz H; lia.
    + intros ->. reflexivity.
    + apply Forall_cons; [apply digit_char_lower; clear - Hm R'; lia|apply Forall_nil].
  - destruct fuel as [|fuel'].
    { exfalso. apply E. change (2 ^ N.of_nat 1) with 2 in Hn. apply N.div_small. clear - Hn R. lia. }
    destruct (IH (n / radix) (digit_char (n mod radix) :: acc)) as (s & ds & -> & F & Nz & V & L & Z & Lo).
    { apply N.div_lt_upper_bound; [clear - R; lia|]. apply N.lt_le_trans with (2 ^ N.of_nat (S (S fuel'))); [exact Hn|].
      rewrite (Nat2N.inj_succ (S fuel')), N.pow_succ_r'. apply N.mul_le_mono_r. exact R. }
    { lia. }
    exists (s ++ [digit_char (n mod radix)]), (ds ++ [n mod radix]). split; [now rewrite <- app_assoc|].
    split; [apply Forall2_app; [exact F|constructor; [now apply digit_char_ok|constructor]]|].
    split; [now destruct ds|]. split; [unfold digits_value in *; rewrite fold_app, V; clear - Hd; lia|].
    split; [|split].
    + intros _ s' H. destruct s as [|c s]; [inversion F; subst; now apply Nz|]. cbn [app] in H. injection H as -> H. now apply (L E s).
    + intros ->. rewrite N.div_0_l in E by (clear - R; lia). now contradiction E.
    + apply Forall_app. split; [exact Lo|]. apply Forall_cons; [apply digit_char_lower; clear - Hm R'; lia|apply Forall_nil].
Qed.

Lemma size_bound n : n < 2 ^ N.of_nat (S (N.size_nat n)).
Proof.
  apply N.lt_le_trans with (2 ^ N.of_nat (N.size_nat n)); [|apply N.pow_le_mono_r; lia].
  destruct n as [|p]; [reflexivity|]. cbn [N.size_nat]. rewrite <- (N2Nat.id (2 ^ _)).
  induction p as [p IH|p IH|]; cbn [Pos.size_nat]; [| |reflexivity].
  - rewrite N2Nat.id in *. rewrite Nat2N.inj_succ, N.pow_succ_r'. lia.
  - rewrite N2Nat.id in *. rewrite Nat2N.inj_succ, N.pow_succ_r'. lia.
Qed.
Lemma fmt_radix_ok radix n : 2 <= radix -> radix <= 36 -> canonical radix (fmt_radix radix n) n.
Proof.
  intros R R'. unfold fmt_radix.
  destruct (fmt_digits_ok radix R R' (S (N.size_nat n)) n [] (size_bound n) ltac:(lia)) as (s & ds & -> & F & Nz & V & L & Z & Lo).
  rewrite app_nil_r. split; [exists ds; split; [exact F|split; [exact Nz|now symmetry]]|]. split; [|exact Lo].
  intros s' E. destruct (N.eq_dec n 0) as [H|H]; [rewrite (Z H) in E; now injection E as <-|now apply (L H s') in E].
Qed.
Lemma fmt_dec_ok n : canonical 10 (fmt_dec n) n.
Proof. apply fmt_radix_ok; reflexivity || discriminate. Qed.
Lemma fmt_hex_ok n : canonical 16 (fmt_hex n) n.
Proof. apply fmt_radix_ok; reflexivity || discriminate. Qed.

(** ** Integers *)

Lemma parse_digits_iff w s : forall acc v, acc < 2 ^ w ->
  parse_digits w acc s = Ok v <-> exists ds, Forall2 (is_digit 10) s ds /\ v = fold_left (fun a d => a * 10 + d) ds acc /\ v < 2 ^ w.
Proof.
  induction s as [|c s IH]; intros acc v Ha; cbn [parse_digits].
  - split.
    + intros E. assert (E' : forall x y : N, Ok x = Ok y -> x = y) by congruence. apply E' in E. subst v. exists []. repeat split; auto.
    + intros (ds & F & -> & _). inversion F. reflexivity.
  - destruct (to_digit 10 c) as [d|] eqn:D.
    + apply (to_digit_iff 10 c d) in D; [|discriminate]. destruct (N.ltb_spec (acc * 10 + d) (2 ^ w)) as [L|L].
      * rewrite IH by exact L. split; intros (ds & F & V & B).
        -- exists (d :: ds). split; [now constructor|]. now split.
        -- inversion F as [|? d' ? ds' D' F']; subst. rewrite (digit_fun 10 c d d') by (discriminate || assumption). exists ds'. split; [exact F'|]. now split.
      * split; [discriminate|]. intros (ds & F & V & B). inversion F as [|? d' ? ds' D' F']; subst.
        rewrite (digit_fun 10 c d d') in L by (discriminate || assumption). cbn [fold_left] in B.
        pose proof (fold_ge 10 ds' (acc * 10 + d') ltac:(discriminate)) as G. exfalso. apply (N.lt_irrefl (2 ^ w)).
        apply N.le_lt_trans with (2 := B). apply N.le_trans with (1 := L). exact G.
    + split; [discriminate|]. intros (ds & F & _). inversion F as [|? d' ? ds' D' F']; subst. pose proof (proj1 (to_digit_none 10 c ltac:(discriminate)) D d'). contradiction.
Qed.
Lemma parse_digits_numeral w s v : s <> [] -> parse_digits w 0 s = Ok v <-> numeral 10 s v /\ v < 2 ^ w.
Proof.
  intros Hs. rewrite parse_digits_iff by (apply N.neq_0_lt_0, pow2_nz). split.
  - intros (ds & F & V & B). split; [|exact B]. exists ds. split; [exact F|]. split; [|exact V]. intros ->. inversion F. now subst.
  - intros [(ds & F & _ & V) B]. exists ds. now split.
Qed.
Lemma numeral_nonempty radix s v : numeral radix s v -> s <> [].
Proof. intros (ds & F & H & _) ->. inversion F. now subst. Qed.
Lemma numeral_cons radix c s v : radix <= 36 -> numeral radix (c :: s) v -> exists d, is_digit radix c d.
Proof. intros R (ds & F & _). inversion F. eauto. Qed.
Lemma parse_uint_iff w s v : parse_uint w s = Ok v <-> uint_text w s v.
Proof.
  assert (P : forall d, ~ is_digit 10 43 d) by (intros d H; unfold is_digit in H; lia).
  unfold parse_uint, uint_text. destruct s as [|c [|c' s]].
  - split; [discriminate|]. intros (_ & [H|(s' & H & _)]); [now apply numeral_nonempty in H|discriminate].
  - destruct (to_digit 10 c) as [d|] eqn:D.
    + rewrite parse_digits_numeral by discriminate. split; [intros [H B]; now split; [|left]|]. intros (B & [H|(s' & H & N)]); [now split|].
      injection H as -> <-. now apply numeral_nonempty in N.
    + split; [discriminate|]. intros (B & [H|(s' & H & N)]).
      * apply numeral_cons in H as [d H]; [|discriminate]. pose proof (proj1 (to_digit_none 10 c ltac:(discriminate)) D d). contradiction.
      * injection H as -> <-. now apply numeral_nonempty in N.
  - destruct (N.eqb_spec c 43) as [->|E].
    + rewrite parse_digits_numeral by discriminate. split.
      * intros [H B]. split; [exact B|]. right. now exists (c' :: s).
      * intros (B & [H|(s' & H & N)]); [apply numeral_cons in H as [d H]; [now apply P in H|discriminate]|]. injection H as <-. now split.
    + rewrite parse_digits_numeral by discriminate. split; [intros [H B]; now split; [|left]|].
      intros (B & [H|(s' & H & N)]); [now split|]. injection H as H _. contradiction.
Qed.
Lemma parse_uint_res w s : (exists v, parse_uint w s = Ok v) \/ parse_uint w s = Err EOther.
Proof.
  assert (G : forall s acc, (exists v, parse_digits w acc s = Ok v) \/ parse_digits w acc s = Err EOther).
  { clear s. induction s as [|c s IH]; intros acc; cbn [parse_digits]; [eauto|]. destruct (to_digit 10 c); [|auto]. destruct (_ <? _); auto. }
  unfold parse_uint. destruct s as [|c [|c' s]]; auto; [destruct (to_digit 10 c); auto|]. destruct (c =? 43); auto.
Qed.
Lemma parse_uint_err w s : (forall v, ~ uint_text w s v) <-> parse_uint w s = Err EOther.
Proof.
  split.
  - intros H. destruct (parse_uint_res w s) as [[v E]|E]; [|exact E]. apply parse_uint_iff in E. now apply H in E.
  - intros E v H. apply parse_uint_iff in H. congruence.
Qed.
Lemma fmt_dec_parse w n : n < 2 ^ w -> parse_uint w (fmt_dec n) = Ok n.
Proof. intros H. apply parse_uint_iff. split; [exact H|]. left. apply fmt_dec_ok. Qed.
Lemma numeral_fun radix s v v' : radix <= 36 -> numeral radix s v -> numeral radix s v' -> v = v'.
Proof.
  intros R (ds & F & _ & ->) (ds' & F' & _ & ->). f_equal. revert ds' F'. induction F as [|c d s ds D F IH]; intros ds' F'; inversion F'; subst; [reflexivity|].
  f_equal; [now apply (digit_fun radix c)|now apply IH].
Qed.
Lemma uint_text_fun w s v v' : uint_text w s v -> uint_text w s v' -> v = v'.
Proof. rewrite <- !parse_uint_iff. congruence. Qed.

(** ** Splitting and trimming *)

Lemma split_by_nonempty p s : split_by p s <> [].
Proof. destruct s as [|c s]; cbn [split_by]; [discriminate|]. destruct (p c); [discriminate|]. now destruct (split_by p s). Qed.
Lemma split_by_app p a c s : Forall (fun c => p c = false) a -> p c = true -> split_by p (a ++ c :: s) = a :: split_by p s.
Proof.
  intros F E. induction F as [|x a Hx F IH]; cbn [app split_by]; [now rewrite E|]. now rewrite Hx, IH.
Qed.
Lemma split_by_none p a : Forall (fun c => p c = false) a -> split_by p a = [a].
Proof. induction 1 as [|x a Hx F IH]; cbn [split_by]; [reflexivity|]. now rewrite Hx, IH. Qed.
Lemma parts_split (sep : N -> Prop) p s ps : (forall c, p c = true <-> sep c) -> parts sep s ps <-> ps = split_by p s.
Proof.
  intros R. assert (Rn : forall s, Forall (fun c => ~ sep c) s -> Forall (fun c => p c = false) s).
  { intros l F. eapply Forall_impl; [|exact F]. intros c H. destruct (p c) eqn:E; [|reflexivity]. now apply R in E. }
  split.
  - induction 1 as [s F|a c s ps F C P IH]; [now rewrite split_by_none by auto|]. rewrite split_by_app by (auto; now apply R). now rewrite IH.
  - intros ->. induction s as [|c s IH]; cbn [split_by].
    + constructor. constructor.
    + destruct (p c) eqn:E.
      * apply (parts_more sep [] c s); [constructor|now apply R|exact IH].
      * assert (~ sep c) by (intros H; apply R in H; congruence). destruct IH as [s F|a c' s ps F C P].
        -- constructor. now constructor.
        -- apply (parts_more sep (c :: a) c' s); [now constructor|exact C|exact P].
Qed.
Lemma parts_split_on c s ps : parts (eq c) s ps <-> ps = split_on c s.
Proof. apply parts_split. intros x. apply N.eqb_eq. Qed.
Lemma split_on_app c a s : ~ In c a -> split_on c (a ++ c :: s) = a :: split_on c s.
Proof.
  intros H. apply split_by_app; [|apply N.eqb_refl]. apply Forall_forall. intros x Hx. apply N.eqb_neq. intros ->. contradiction.
Qed.
Lemma split_on_none c a : ~ In c a -> split_on c a = [a].
Proof. intros H. apply split_by_none. apply Forall_forall. intros x Hx. apply N.eqb_neq. intros ->. contradiction. Qed.

Lemma is_white_iff c : is_white c = true <-> white c.
Proof.
  unfold is_white, white. rewrite !orb_true_iff, !andb_true_iff, !N.leb_le, !N.eqb_eq. split.
  - intros H. cbn [In]. lia.
  - cbn [In]. intros H. lia.
Qed.
Lemma trim_start_spec s : exists l, s = l ++ trim_start s /\ Forall white l /\ forall c t, trim_start s = c :: t -> ~ white c.
Proof.
  induction s as [|c s (l & E & F & H)]; cbn [trim_start].
  - exists []. split; [reflexivity|]. split; [constructor|discriminate].
  - destruct (is_white c) eqn:W.
    + exists (c :: l). split; [cbn [app]; now rewrite <- E|]. split; [constructor; [now apply is_white_iff|exact F]|exact H].
    + exists []. split; [reflexivity|]. split; [constructor|]. intros c' t E' Hw. injection E' as -> _. apply is_white_iff in Hw. congruence.
Qed.
Lemma trim_spec s : trimmed s (trim s).
Proof.
  unfold trim. destruct (trim_start_spec s) as (l & E & F & H). destruct (trim_start_spec (rev (trim_start s))) as (r & E' & F' & H').
  set (t := trim_start (rev (trim_start s))) in *.
  assert (T : trim_start s = rev t ++ rev r) by (rewrite <- rev_app_distr, <- E'; now rewrite rev_involutive).
  exists l, (rev r). split; [now rewrite <- T|]. split; [exact F|]. split; [now apply Forall_rev|]. split.
  - intros c t' Et. apply (H c (t' ++ rev r)). rewrite T, Et. reflexivity.
  - intros c t' Et. apply (H' c (rev t')). rewrite <- (rev_involutive t), Et, rev_app_distr. reflexivity.
Qed.
Lemma trim_start_id s : (forall c t, s = c :: t -> ~ white c) -> trim_start s = s.
Proof.
  destruct s as [|c s]; intros H; cbn [trim_start]; [reflexivity|]. destruct (is_white c) eqn:W; [|reflexivity]. apply is_white_iff in W. now apply (H c s) in W.
Qed.
Lemma trim_start_app l s : Forall white l -> trim_start (l ++ s) = trim_start s.
Proof. induction 1 as [|c l Hc F IH]; cbn [app trim_start]; [reflexivity|]. apply is_white_iff in Hc. now rewrite Hc, IH. Qed.
Lemma trimmed_trim s t : trimmed s t <-> t = trim s.
Proof.
  split; [|intros ->; apply trim_spec]. intros (l & r & -> & Fl & Fr & Hs & He). unfold trim. rewrite trim_start_app by exact Fl.
  destruct t as [|c t].
  - cbn [app]. assert (trim_start r = []) as ->; [|reflexivity]. rewrite <- (app_nil_r r). rewrite trim_start_app by exact Fr. reflexivity.
  - rewrite (trim_start_id ((c :: t) ++ r)).
    + rewrite rev_app_distr, trim_start_app by now apply Forall_rev. rewrite trim_start_id; [now rewrite rev_involutive|].
      intros x t' E. apply (He x (rev t')). rewrite <- (rev_involutive (c :: t)), E. reflexivity.
    + intros x t' E. cbn [app] in E. injection E as <- _. now apply (Hs c t).
Qed.

(** ** Texts of numerals *)

Lemma text_eqb_eq a : forall b, text_eqb a b = true <-> a = b.
Proof.
  induction a as [|x a IH]; intros [|y b]; cbn [text_eqb]; split; try discriminate; try reflexivity.
  - rewrite andb_true_iff, N.eqb_eq, IH. now intros [-> ->].
  - intros E. injection E as -> ->. rewrite N.eqb_refl. now apply IH.
Qed.
Lemma txt_lit s : txt s = lit s.
Proof. induction s as [|c s IH]; cbn [txt lit]; [reflexivity|]. now rewrite IH. Qed.

Lemma digit_range radix c d : is_digit radix c d -> (48 <= c <= 57 /\ d < 10) \/ (97 <= c <= 87 + (radix - 1) /\ 10 <= d) \/ (65 <= c <= 55 + (radix - 1) /\ 10 <= d).
Proof. unfold is_digit. lia. Qed.
Lemma digit10_range c d : is_digit 10 c d -> 48 <= c <= 57.
Proof. intros H. apply digit_range in H. lia. Qed.
Lemma digit16_range c d : is_digit 16 c d -> 48 <= c <= 57 \/ 97 <= c <= 102 \/ 65 <= c <= 70.
Proof. intros H. apply digit_range in H. lia. Qed.
Lemma numeral10_chars s v : numeral 10 s v -> Forall (fun c => 48 <= c <= 57) s.
Proof. intros (ds & F & _). induction F; constructor; [eapply digit10_range; eauto|auto]. Qed.
Lemma numeral16_chars s v : numeral 16 s v -> Forall (fun c => 48 <= c <= 57 \/ 97 <= c <= 102 \/ 65 <= c <= 70) s.
Proof. intros (ds & F & _). induction F; constructor; [eapply digit16_range; eauto|auto]. Qed.
Lemma uint_chars w s v : uint_text w s v -> Forall (fun c => c = 43 \/ 48 <= c <= 57) s.
Proof.
  intros (_ & [H|(s' & -> & H)]); apply numeral10_chars in H; [|constructor; [auto|]]; (eapply Forall_impl; [|exact H]; cbn beta; intros; lia).
Qed.
Lemma fmt_dec_chars n : Forall (fun c => 48 <= c <= 57) (fmt_dec n).
Proof. eapply numeral10_chars, fmt_dec_ok. Qed.
Lemma fmt_dec_not n c : c < 48 \/ 57 < c -> ~ In c (fmt_dec n).
Proof. intros H I. pose proof (proj1 (Forall_forall _ _) (fmt_dec_chars n) c I). cbn beta in H0. lia. Qed.
Lemma fmt_dec_nonempty n : fmt_dec n <> [].
Proof. eapply numeral_nonempty, fmt_dec_ok. Qed.
Lemma not_white c : 33 <= c -> c < 128 -> ~ white c.
Proof. unfold white. cbn [In]. lia. Qed.
Lemma visible_trim s : Forall (fun c => 33 <= c < 128) s -> trim s = s.
Proof.
  intros F. symmetry. apply trimmed_trim. exists [], []. cbn [app]. rewrite app_nil_r. split; [reflexivity|]. split; [constructor|]. split; [constructor|].
  split; intros c t ->; [|apply Forall_app in F as [_ F]]; inversion F; apply not_white; lia.
Qed.

(** ** Communities *)

Lemma community_name_iff s c : community_name s = Some c <-> In (s, c) well_known.
Proof.
  assert (X : forall (a : list N) (x : N) l, In (s, c) ((a, x) :: l) <-> (s = a /\ c = x) \/ In (s, c) l).
  { intros. cbn [In]. split; (intros [H|H]; [left|right; exact H]); [injection H as <- <-; now split|now destruct H as [<- <-]]. }
  assert (Y : forall a, text_eqb s a = true -> s = a) by (intros a; apply text_eqb_eq).
  assert (Z : forall a, text_eqb s a = false -> s <> a) by (intros a E H; apply text_eqb_eq in H; congruence).
  unfold community_name, well_known. rewrite !X. change lit with txt. clear X. cbn [In]. split.
  - destruct (text_eqb s (txt "no_export")) eqn:E1; [intros E; injection E as <-; apply Y in E1; tauto|].
    destruct (text_eqb s (txt "noexport")) eqn:E2; [intros E; injection E as <-; apply Y in E2; tauto|].
    destruct (text_eqb s (txt "no-export")) eqn:E3; [intros E; injection E as <-; apply Y in E3; tauto|].
    destruct (text_eqb s (txt "no_advertise")) eqn:E4; [intros E; injection E as <-; apply Y in E4; tauto|].
    destruct (text_eqb s (txt "no-advertise")) eqn:E5; [intros E; injection E as <-; apply Y in E5; tauto|].
    destruct (text_eqb s (txt "no_export_subconfed")) eqn:E6; [intros E; injection E as <-; apply Y in E6; tauto|].
    destruct (text_eqb s (txt "nopeer")) eqn:E7; [intros E; injection E as <-; apply Y in E7; tauto|].
    destruct (text_eqb s (txt "no-peer")) eqn:E8; [intros E; injection E as <-; apply Y in E8; tauto|]. discriminate.
  - intros H. repeat destruct H as [H|H]; try contradiction; destruct H as [-> ->]; vm_compute; reflexivity.
Qed.

Lemma community_iff s c : community_parse s = Ok c <-> community_text s c.
Proof.
  unfold community_parse, community_text. destruct (community_name s) as [c'|] eqn:NM.
  - assert (S : forall x y : N, Ok x = Ok y <-> x = y) by (split; congruence). rewrite S. split; [intros <-; left; now apply community_name_iff|].
    intros [H|(t & T & U)]; [apply community_name_iff in H; congruence|]. exfalso. apply trimmed_trim in T. subst t. apply community_name_iff in NM.
    assert (X : exists c0 s0, s = 110 :: c0 :: s0 /\ trim s = s).
    { unfold well_known in NM. cbn [In] in NM. repeat destruct NM as [NM|NM]; try contradiction; injection NM as <- <-; vm_compute; eauto. }
    destruct X as (c0 & s0 & -> & T). rewrite T in U. destruct U as [U|(h & l & hv & lv & E & U & _)].
    + apply uint_chars in U. inversion U. lia.
    + destruct h as [|x h]; cbn [app] in E; injection E as E _; [discriminate|]. subst x. apply uint_chars in U. inversion U. lia.
  - assert (NN : ~ In (s, c) well_known) by (intros H; apply community_name_iff in H; congruence). cbv zeta.
    remember (trim s) as ts eqn:TS. remember (split_on 58 ts) as ps eqn:P. apply parts_split_on in P.
    assert (R : forall A B C : Prop, ~ A -> (C <-> B) -> (C <-> A \/ B)) by tauto. apply R; [exact NN|]. clear NN R.
    assert (T : forall P : list N -> Prop, (exists t, trimmed s t /\ P t) <-> P ts).
    { subst ts. intros Q. split; [intros (t & H & HQ); apply trimmed_trim in H; now subst|]. intros. exists (trim s). split; [now apply trimmed_trim|assumption]. }
    rewrite T. clear T. destruct P as [t F|h x t ps F C P]; [|destruct P as [l F'|l y t' ps' F' C' P']].
    + cbn [length Nat.ltb Nat.leb idx nth_error bind]. rewrite parse_uint_iff. split; [tauto|]. intros [H|(h & l & hv & lv & E & _)]; [exact H|].
      exfalso. apply (proj1 (Forall_forall _ _) F 58); [rewrite E; apply in_or_app; right; now left|reflexivity].
    + cbn [length Nat.ltb Nat.leb idx nth_error bind]. subst x.
      assert (NU : forall w v, ~ uint_text w (h ++ 58 :: l) v).
      { intros w v U. apply uint_chars in U. apply Forall_app in U as [_ U]. inversion U. lia. }
      split.
      * intros E. apply bind_Ok_inv in E as (hv & E1 & E). apply bind_Ok_inv in E as (lv & E2 & E). apply parse_uint_iff in E1, E2.
        right. exists h, l, hv, lv. split; [reflexivity|]. split; [exact E1|]. split; [exact E2|].
        assert (J : forall a b : N, Ok a = Ok b -> a = b) by congruence. apply J in E. rewrite <- E. apply (lor_shiftl 16). apply E2.
      * intros [U|(h' & l' & hv & lv & E & U1 & U2 & ->)]; [now apply NU in U|].
        assert (h' = h /\ l' = l) as [-> ->].
        { assert (S1 : split_on 58 (h ++ 58 :: l) = [h; l]).
          { symmetry. apply parts_split_on. apply parts_more; [exact F|reflexivity|]. now constructor. }
          assert (N1 : ~ In 58 h'). { intros I. apply uint_chars in U1. pose proof (proj1 (Forall_forall _ _) U1 58 I). cbn beta in H. lia. }
          assert (N2 : ~ In 58 l'). { intros I. apply uint_chars in U2. pose proof (proj1 (Forall_forall _ _) U2 58 I). cbn beta in H. lia. }
          rewrite E, split_on_app, split_on_none in S1 by assumption. injection S1 as -> ->. now split. }
        rewrite (proj2 (parse_uint_iff 16 h hv) U1), (proj2 (parse_uint_iff 16 l lv) U2). cbn [bind]. f_equal. apply (lor_shiftl 16). apply U2.
    + assert (L : (3 <= length (h :: l :: ps'))%nat). { destruct P'; cbn [length]; lia. }
      match goal with |- context [(?a <? 2)%nat] => destruct (Nat.ltb_spec a 2) as [X|X]; [exfalso; clear - L X; unfold text in *; cbn in L, X; lia|] end.
      match goal with |- context [(?a <? 3)%nat] => destruct (Nat.ltb_spec a 3) as [Y|Y]; [exfalso; clear - L Y; unfold text in *; cbn in L, Y; lia|] end.
      subst x y.
      assert (I1 : forall w v, ~ uint_text w (h ++ 58 :: l ++ 58 :: t') v).
      { intros w v U. apply uint_chars in U. apply Forall_app in U as [_ U]. inversion U. lia. }
      split.
      * intros E. apply parse_uint_iff in E. assert (V : trim s = s).
        { apply visible_trim. eapply Forall_impl; [|exact (uint_chars _ _ _ E)]. cbn beta. intros. lia. }
        rewrite V in TS. rewrite <- TS in E. now apply I1 in E.
      * intros [U|(h' & l' & hv & lv & E & U1 & U2 & _)]; [now apply I1 in U|]. exfalso.
        assert (S1 : split_on 58 (h ++ 58 :: l ++ 58 :: t') = h :: l :: ps').
        { symmetry. apply parts_split_on. apply parts_more; [exact F|reflexivity|]. apply parts_more; [exact F'|reflexivity|exact P']. }
        assert (N1 : ~ In 58 h'). { intros I. apply uint_chars in U1. pose proof (proj1 (Forall_forall _ _) U1 58 I) as Z. cbn beta in Z. lia. }
        assert (N2 : ~ In 58 l'). { intros I. apply uint_chars in U2. pose proof (proj1 (Forall_forall _ _) U2 58 I) as Z. cbn beta in Z. lia. }
        rewrite E, split_on_app, split_on_none in S1 by assumption. injection S1 as _ _ <-. cbn [length] in L. lia.
Qed.

Lemma community_fmt_ok c : c < 2 ^ 32 -> community_display (community_fmt c) c.
Proof.
  intros B. unfold community_fmt, community_display. change txt with lit.
  destruct (N.eqb_spec c NO_EXPORT) as [->|E1]; [left; now left|]. destruct (N.eqb_spec c NO_ADVERTISE) as [->|E2]; [left; right; now left|].
  destruct (N.eqb_spec c NO_EXPORT_SUBCONFED) as [->|E3]; [left; do 2 right; now left|]. destruct (N.eqb_spec c NOPEER) as [->|E4]; [left; do 3 right; now left|].
  right. split; [intros [H|[H|[H|[H|[]]]]]; symmetry in H; contradiction|].
  unfold cast. rewrite land_65535, N.shiftr_div_pow2. change (2 ^ 16) with 65536.
  assert (c / 65536 < 65536) by (apply N.div_lt_upper_bound; [discriminate|exact B]).
  rewrite N.mod_mod by discriminate. rewrite (N.mod_small (c / 65536)) by assumption.
  exists (fmt_dec (c / 65536)), (fmt_dec (c mod 65536)). split; [reflexivity|]. split; apply fmt_dec_ok.
Qed.
Lemma community_display_text s c : c < 2 ^ 32 -> community_display s c -> community_text s c.
Proof.
  intros B [H|(_ & h & l & -> & Ch & Cl)].
  - left. unfold well_known. cbn [In] in *. tauto.
  - right. exists (h ++ 58 :: l). assert (Fh := numeral10_chars _ _ (proj1 Ch)). assert (Fl := numeral10_chars _ _ (proj1 Cl)). split.
    + apply trimmed_trim. symmetry. apply visible_trim. apply Forall_app. split; [|constructor; [lia|]]; (eapply Forall_impl; [|eassumption]; cbn beta; intros; lia).
    + right. exists h, l, (c / 65536), (c mod 65536). split; [reflexivity|].
      split; [split; [apply N.div_lt_upper_bound; [discriminate|exact B]|left; apply Ch]|].
      split; [split; [apply N.mod_lt; discriminate|left; apply Cl]|]. rewrite (N.mul_comm (c / 65536)). apply N.div_mod. discriminate.
Qed.
Lemma community_rt c : c < 2 ^ 32 -> community_parse (community_fmt c) = Ok c.
Proof. intros B. apply community_iff. apply community_display_text; [exact B|]. now apply community_fmt_ok. Qed.

Lemma community_list_l s ps : parts list_separator s ps ->
  exists v, community_list_parse s = Ok v /\ ascending N.compare v /\ forall c, In c v <-> exists p, In p ps /\ community_text p c.
Proof.
  intros P. apply (parts_split list_separator is_separator) in P.
  2:{ intros c. unfold is_separator, list_separator. rewrite !orb_true_iff, !N.eqb_eq. tauto. }
  subst ps. eexists. split; [reflexivity|].
  assert (G : forall ps acc, ascending N.compare acc ->
    let v := fold_left (fun v p => match community_parse p with Ok c => bset_insert N.compare c v | _ => v end) ps acc in
    ascending N.compare v /\ forall c, In c v <-> In c acc \/ exists p, In p ps /\ community_text p c).
  { induction ps as [|p ps IH]; intros acc A; cbn [fold_left]; cbv zeta.
    - split; [exact A|]. intros c. cbn [In]. split; [auto|]. intros [H|(p & [] & _)]. exact H.
    - assert (X : forall acc', ascending N.compare acc' -> (forall c, In c acc' <-> In c acc \/ community_text p c) ->
        let v := fold_left (fun v p => match community_parse p with Ok c => bset_insert N.compare c v | _ => v end) ps acc' in
        ascending N.compare v /\ forall c, In c v <-> In c acc \/ exists p', In p' (p :: ps) /\ community_text p' c).
      { intros acc' A' H. destruct (IH acc' A') as [I1 I2]. split; [exact I1|]. intros c. rewrite (I2 c), (H c). cbn [In]. split.
        - intros [[K|K]|(p' & K & K')]; [auto|right; exists p; auto|right; exists p'; auto].
        - intros [K|(p' & [<-|K] & K')]; [auto|auto|right; exists p'; auto]. }
      destruct (community_parse p) as [c0| | |] eqn:E.
      1: { apply X; [apply insert_asc; [apply N_laws|exact A]|]. intros c. rewrite (insert_in _ N_laws). apply community_iff in E. rewrite <- community_iff in E |- *.
           split; [intros [->|K]; auto|]. intros [K|K]; [auto|]. left. congruence. }
      all: apply X; [exact A|]; intros c; rewrite <- community_iff, E; split; [auto|intros [K|K]; [exact K|discriminate]]. }
  destruct (G (split_by is_separator s) [] I) as [G1 G2]. split; [exact G1|]. intros c. rewrite (G2 c). cbn [In]. tauto.
Qed.
Lemma ascending_ext v : forall v', ascending N.compare v -> ascending N.compare v' -> (forall c, In c v <-> In c v') -> v = v'.
Proof.
  assert (H : forall x l, ascending N.compare (x :: l) -> forall y, In y l -> x < y).
  { intros x l [F _] y I. apply (proj1 (Forall_forall _ _) F) in I. exact I. }
  induction v as [|x v IH]; intros [|x' v'] A A' E; [reflexivity| | |].
  - exfalso. apply (E x'). now left.
  - exfalso. apply (E x). now left.
  - assert (x = x').
    { destruct (proj1 (E x) (or_introl eq_refl)) as [K|K]; [auto|]. destruct (proj2 (E x') (or_introl eq_refl)) as [L|L]; [auto|].
      pose proof (H _ _ A' _ K). pose proof (H _ _ A _ L). lia. }
    subst x'. f_equal. apply IH; [apply A|apply A'|]. intros c. split; intros I.
    + destruct (proj1 (E c) (or_intror I)) as [->|K]; [|exact K]. pose proof (H _ _ A _ I). lia.
    + destruct (proj2 (E c) (or_intror I)) as [->|K]; [|exact K]. pose proof (H _ _ A' _ I). lia.
Qed.
Lemma community_list_rt s v : ascending N.compare v -> Forall (fun c => c < 2 ^ 32) v -> parts list_separator s (map community_fmt v) ->
  community_list_parse s = Ok v.
Proof.
  intros A B P. destruct (community_list_l s _ P) as (v' & E & A' & H). rewrite E. f_equal. apply ascending_ext; [exact A'|exact A|].
  intros c. rewrite H. split.
  - intros (p & I & T). apply in_map_iff in I as (c' & <- & I). apply community_iff in T. rewrite community_rt in T; [|now apply (proj1 (Forall_forall _ _) B)].
    assert (J : forall a b : N, Ok a = Ok b -> a = b) by congruence. apply J in T. now subst.
  - intros I. exists (community_fmt c). split; [now apply in_map|]. apply community_iff, community_rt. now apply (proj1 (Forall_forall _ _) B).
Qed.

(** ** Route distinguishers *)

Lemma rd_iff s r : rd_parse s = Ok r <-> rd_text s r.
Proof.
  unfold rd_parse, rd_text. cbv zeta.
  assert (T : forall P : list (list N) -> Prop, (exists ps, parts (eq 58) s ps /\ P ps) <-> P (split_on 58 s)).
  { intros Q. split; [intros (t & H & HQ); apply parts_split_on in H; now subst|]. intros. eexists. split; [now apply parts_split_on|assumption]. }
  rewrite T. clear T. pose proof (split_by_nonempty (N.eqb 58) s) as Nz. fold (split_on 58 s) in Nz.
  destruct (split_on 58 s) as [|p [|q ps]]; [contradiction| |]; cbn [length Nat.ltb Nat.leb idx nth_error bind]; clear Nz;
    assert (J : forall a b : bgpRD, Ok a = Ok b -> a = b) by congruence; rewrite <- !parse_uint_iff.
  - split.
    + intros E. apply bind_Ok_inv in E as (h & E1 & E). apply J in E. subst r. now split.
    + intros [E1 E2]. rewrite E1. cbn [bind]. destruct r as [h l]. cbn [rdl rdh] in *. now subst.
  - split.
    + intros E. apply bind_Ok_inv in E as (h & E1 & E). apply bind_Ok_inv in E as (l & E2 & E). apply J in E. subst r. now split.
    + intros [E1 E2]. rewrite E1. cbn [bind]. rewrite E2. now destruct r.
Qed.
Lemma rd_rt r : rd_wf r -> ~ rd_type1 r -> rd_parse (rd_fmt r) = Ok r.
Proof.
  intros [Hh Hl] T. unfold rd_fmt, rd_type1 in *. rewrite N.shiftr_div_pow2. change (2 ^ 16) with 65536.
  destruct (N.eqb_spec (rdh r / 65536) 1); [contradiction|]. change (txt ":") with [58]. unfold rd_parse. cbn [app].
  rewrite split_on_app, split_on_none by (apply fmt_dec_not; lia). cbn [length Nat.ltb Nat.leb idx nth_error bind].
  rewrite !fmt_dec_parse by assumption. now destruct r.
Qed.
Lemma rd_type1_l r : rd_type1 r -> rd_parse (rd_fmt r) = Err EOther.
Proof.
  unfold rd_type1, rd_fmt. intros H. rewrite N.shiftr_div_pow2. change (2 ^ 16) with 65536. rewrite H. cbn [N.eqb Pos.eqb].
  change (txt ":") with [58]. change (txt ".") with [46]. unfold rd_parse. cbn [app].
  set (a := fmt_dec (N.land (N.shiftr (rdh r) 8) 255)). set (b := fmt_dec (N.land (rdh r) 255)).
  set (c := fmt_dec (N.land (N.shiftr (rdl r) 24) 255)). set (d := fmt_dec (N.land (N.shiftr (rdl r) 16) 255)). set (e := fmt_dec _).
  replace (a ++ 46 :: b ++ 46 :: c ++ 46 :: d ++ 58 :: e) with ((a ++ 46 :: b ++ 46 :: c ++ 46 :: d) ++ 58 :: e)
    by (repeat (rewrite <- !app_assoc; cbn [app]); reflexivity).
  rewrite split_on_app.
  - assert (U : parse_uint 32 (a ++ 46 :: b ++ 46 :: c ++ 46 :: d) = Err EOther).
    { apply parse_uint_err. intros v U. apply uint_chars in U. apply Forall_app in U as [_ U]. apply Forall_inv in U. clear - U. lia. }
    rewrite split_on_none by (apply fmt_dec_not; lia). cbn [length Nat.ltb Nat.leb idx nth_error bind]. now rewrite U.
  - assert (X : forall n, ~ In 58 (fmt_dec n)) by (intros; apply fmt_dec_not; lia).
    intros I. repeat (apply in_app_or in I as [I|[I|I]]; [now apply X in I|discriminate|]). now apply X in I.
Qed.

(** ** MAC addresses *)

Lemma hex_digits_total s : exists ds, hex_digits s ds.
Proof.
  induction s as [|c s [ds H]]; [exists []; constructor|]. destruct (to_digit 16 c) as [d|] eqn:E.
  - exists (d :: ds). constructor; [exact (proj1 (to_digit_iff 16 c d ltac:(discriminate)) E)|exact H].
  - exists ds. apply hd_other; [exact (proj1 (to_digit_none 16 c ltac:(discriminate)) E)|exact H].
Qed.
Lemma hex_digits_fun s ds : hex_digits s ds -> forall ds', hex_digits s ds' -> ds = ds'.
Proof.
  induction 1 as [|c d s ds D H IH|c s ds D H IH]; intros ds' H'; inversion H'; subst; try reflexivity.
  - f_equal; [now apply (digit_fun 16 c)|now apply IH].
  - exfalso. eapply H2. exact D.
  - exfalso. eapply D. eassumption.
  - now apply IH.
Qed.
Lemma mac_step v d : d < 16 -> N.lor (cast 64 (N.shiftl v 4)) d = (v * 16 + d) mod 2 ^ 64.
Proof.
  intros Hd. unfold cast. rewrite N.shiftl_mul_pow2. change (2 ^ 4) with 16.
  assert (M : (v * 16) mod 2 ^ 64 = (v mod 2 ^ 60) * 16).
  { change (2 ^ 64) with (2 ^ 60 * 16). rewrite N.mul_mod_distr_r by discriminate. reflexivity. }
  rewrite (lor_disj 4); [| |exact Hd].
  - rewrite <- N.add_mod_idemp_l by discriminate. rewrite M. symmetry. apply N.mod_small.
    assert (v mod 2 ^ 60 < 2 ^ 60) by (apply N.mod_lt; discriminate). change (2 ^ 64) with (2 ^ 60 * 16). set (x := 2 ^ 60) in *. clearbody x. clear - H Hd. nia.
  - rewrite M. change (2 ^ 4) with 16. apply N.mod_mul. discriminate.
Qed.
Lemma mac_digits_ok s ds : hex_digits s ds -> forall v cnt, v < 2 ^ 64 ->
  mac_digits s v cnt = (fold_left (fun a d => a * 16 + d) ds v mod 2 ^ 64, (cnt + length ds)%nat).
Proof.
  assert (G : forall ds a b, a mod 2 ^ 64 = b mod 2 ^ 64 ->
    fold_left (fun a d => a * 16 + d) ds a mod 2 ^ 64 = fold_left (fun a d => a * 16 + d) ds b mod 2 ^ 64).
  { clear. induction ds as [|d ds IH]; intros a b E; cbn [fold_left]; [exact E|]. apply IH.
    rewrite <- (N.add_mod_idemp_l (a * 16)), <- (N.add_mod_idemp_l (b * 16)) by discriminate.
    rewrite <- (N.mul_mod_idemp_l a), <- (N.mul_mod_idemp_l b) by discriminate. now rewrite E. }
  induction 1 as [|c d s ds D H IH|c s ds D H IH]; intros v cnt B; cbn [mac_digits fold_left length].
  - rewrite N.mod_small by exact B. now rewrite Nat.add_0_r.
  - rewrite (proj2 (to_digit_iff 16 c d ltac:(discriminate)) D). rewrite mac_step by apply D.
    rewrite IH by (apply N.mod_lt; discriminate). f_equal; [|lia]. apply G. now rewrite N.mod_mod by discriminate.
  - rewrite (proj2 (to_digit_none 16 c ltac:(discriminate)) D). now apply IH.
Qed.
Lemma mac_accepts_l s ds : hex_digits s ds ->
  mac_parse s = if Nat.eqb (length ds) 0 then Err EOther else Ok (rev (be_bytes 6 (digits_value 16 ds))).
Proof.
  intros H. unfold mac_parse. rewrite (mac_digits_ok s ds H) by reflexivity. cbn [Nat.add].
  destruct (length ds) eqn:E; cbn [Nat.ltb Nat.leb Nat.eqb]; [reflexivity|]. f_equal. rewrite mac_from_u64_be. f_equal.
  apply (be_bytes_mod 6 _ 64). discriminate.
Qed.
Lemma fmt_hex2_ok b : b < 256 -> hex2 (fmt_hex2 b) b.
Proof.
  intros H. assert (T : forallb (fun b => match fmt_hex2 b with
     | [c; d] => match to_digit 16 c, to_digit 16 d with Some x, Some y => (b =? x * 16 + y) && ((c <? 65) || (90 <? c)) && ((d <? 65) || (90 <? d)) | _, _ => false end
     | _ => false end) byte_range = true) by (vm_compute; reflexivity).
  pose proof (byte_sweep _ T b H) as G. clear T H. cbv beta in G. revert G. generalize (fmt_hex2 b). intros s G.
  destruct s as [|c [|d [|? ?]]]; try discriminate G.
  destruct (to_digit 16 c) as [x|] eqn:Ec; [|discriminate]. destruct (to_digit 16 d) as [y|] eqn:Ed; [|discriminate].
  apply andb_true_iff in G as [G G2]. apply andb_true_iff in G as [G G1]. apply N.eqb_eq in G. apply orb_true_iff in G1, G2. rewrite !N.ltb_lt in G1, G2.
  exists c, d. split; [reflexivity|]. split.
  - exists [x; y]. split; [|split; [discriminate|subst b; reflexivity]].
    constructor; [exact (proj1 (to_digit_iff 16 c x ltac:(discriminate)) Ec)|]. constructor; [exact (proj1 (to_digit_iff 16 d y ltac:(discriminate)) Ed)|constructor].
  - apply Forall_cons; [exact G1|]. apply Forall_cons; [exact G2|apply Forall_nil].
Qed.
Lemma mac_fmt_ok m : mac_wf m -> mac_text (mac_fmt m) m.
Proof.
  intros [L B]. destruct m as [|f [|e [|d [|c [|b [|a [|? ?]]]]]]]; try discriminate L. unfold bytes_ok in B.
  repeat (match goal with H : Forall _ (_ :: _) |- _ => inversion H; clear H; subst end).
  exists (fmt_hex2 a), (fmt_hex2 b), (fmt_hex2 c), (fmt_hex2 d), (fmt_hex2 e), (fmt_hex2 f), a, b, c, d, e, f.
  split; [reflexivity|]. split; [reflexivity|]. repeat (split; [now apply fmt_hex2_ok|]). now apply fmt_hex2_ok.
Qed.
Lemma hex_digits_app s ds s' ds' : hex_digits s ds -> hex_digits s' ds' -> hex_digits (s ++ s') (ds ++ ds').
Proof. intros H H'. induction H; cbn [app]; [exact H'|now constructor|now apply hd_other]. Qed.
Lemma hex2_digits s b : hex2 s b -> exists x y, hex_digits s [x; y] /\ b = x * 16 + y /\ x < 16 /\ y < 16.
Proof.
  intros (c & d & -> & (ds & F & _ & V) & _). inversion F as [|? x ? ds' Dx F1]; subst. inversion F1 as [|? y ? ds'' Dy F2]; subst. inversion F2; subst.
  exists x, y. split; [constructor; [exact Dx|constructor; [exact Dy|constructor]]|]. split; [reflexivity|]. split; [apply Dx|apply Dy].
Qed.
Lemma mac_text_parse s m : mac_text s m -> mac_wf m -> mac_parse s = Ok m.
Proof.
  intros (a & b & c & d & e & f & a' & b' & c' & d' & e' & f' & -> & -> & A & B & C & D & E & F) [_ W].
  apply hex2_digits in A as (a1 & a2 & A & -> & Aa & Ab), B as (b1 & b2 & B & -> & Ba & Bb), C as (c1 & c2 & C & -> & Ca & Cb),
    D as (d1 & d2 & D & -> & Da & Db), E as (e1 & e2 & E & -> & Ea & Eb), F as (f1 & f2 & F & -> & Fa & Fb).
  assert (N58 : forall s ds, hex_digits s ds -> hex_digits (58 :: s) ds) by (intros; apply hd_other; [intros x Hx; apply digit16_range in Hx; lia|assumption]).
  rewrite (mac_accepts_l _ [a1; a2; b1; b2; c1; c2; d1; d2; e1; e2; f1; f2]).
  2:{ apply (hex_digits_app a [a1; a2]); [exact A|]. apply N58. apply (hex_digits_app b [b1; b2]); [exact B|]. apply N58.
      apply (hex_digits_app c [c1; c2]); [exact C|]. apply N58. apply (hex_digits_app d [d1; d2]); [exact D|]. apply N58.
      apply (hex_digits_app e [e1; e2]); [exact E|]. apply N58. exact F. }
  cbn [length Nat.eqb]. f_equal.
  assert (V : digits_value 16 [a1; a2; b1; b2; c1; c2; d1; d2; e1; e2; f1; f2] =
              be_val [a1 * 16 + a2; b1 * 16 + b2; c1 * 16 + c2; d1 * 16 + d2; e1 * 16 + e2; f1 * 16 + f2]).
  { unfold digits_value, be_val. cbn [fold_left]. clear. lia. }
  rewrite V. apply (f_equal (@rev N)) with (x := be_bytes 6 _) (y := [_; _; _; _; _; _]).
  apply (be_bytes_be_val [_; _; _; _; _; _]). apply Forall_rev in W. exact W.
Qed.
Lemma mac_rt m : mac_wf m -> mac_parse (mac_fmt m) = Ok m.
Proof. intros W. apply mac_text_parse; [now apply mac_fmt_ok|exact W]. Qed.
Lemma mac_u64_l m : mac_wf m -> mac_to_u64 m < 2 ^ 48 /\ mac_from_u64 (mac_to_u64 m) = m /\ mac_to_u64 m = be_val (rev m) /\
  mac_from_network_bytes (rev m) = Ok m /\ forall buf, length buf = 6%nat -> mac_write_to_network_bytes m buf = Ok (tt, rev m).
Proof.
  intros W. assert (V : mac_to_u64 m = mac_val m) by now apply mac_to_u64_val. rewrite V. destruct W as [L B].
  split; [|split; [now apply mac_from_u64_val|split; [reflexivity|]]].
  - unfold mac_val. pose proof (be_val_bound (rev m) (Forall_rev B)) as H. rewrite rev_length, L in H. exact H.
  - destruct m as [|f [|e [|d [|c [|b [|a [|? ?]]]]]]]; try discriminate L. split; [reflexivity|]. intros buf Hb.
    destruct buf as [|? [|? [|? [|? [|? [|? [|? ?]]]]]]]; try discriminate Hb. reflexivity.
Qed.
Lemma mac_u64_back x : mac_to_u64 (mac_from_u64 x) = x mod 2 ^ 48.
Proof.
  rewrite mac_to_u64_val by apply mac_from_u64_wf. rewrite mac_from_u64_be. unfold mac_val. rewrite rev_involutive.
  rewrite <- (be_bytes_mod 6 x 48) by discriminate. apply be_val_be_bytes. apply N.mod_lt. discriminate.
Qed.
Lemma mac_net_l b0 b1 b2 b3 b4 b5 rest : bytes_ok [b0; b1; b2; b3; b4; b5] ->
  exists m, mac_from_network_bytes ([b0; b1; b2; b3; b4; b5] ++ rest) = Ok m /\ mac_wf m /\ mac_to_u64 m = be_val [b0; b1; b2; b3; b4; b5].
Proof.
  intros B. exists [b5; b4; b3; b2; b1; b0]. assert (W : mac_wf [b5; b4; b3; b2; b1; b0]) by (split; [reflexivity|apply Forall_rev in B; exact B]).
  split; [reflexivity|]. split; [exact W|]. rewrite mac_to_u64_val by exact W. reflexivity.
Qed.
