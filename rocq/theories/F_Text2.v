(** Proofs about text forms: addresses and prefixes. *)
From Coq Require Import Ascii String ZArith.
From Verif Require Import Base BaseFacts M_Util S_Wire F_Util M_Prefix S_Prefix F_Prefix M_Nlri S_Nlri M_Vpls M_Attr M_Text S_Text F_Text.
Ltac Zify.zify_post_hook ::= idtac.

(** ** Reading numbers *)

(** [rest] does not begin with a digit *)
Definition stops (radix : N) (rest : text) : Prop := match rest with c :: _ => to_digit radix c = None | [] => True end.

Lemma read_digits_app radix max s ds rest : radix <= 36 -> Forall2 (is_digit radix) s ds -> stops radix rest ->
  forall count acc, read_digits radix max count acc (s ++ rest) =
  if Nat.leb (count + length s) max || Nat.eqb (length s) 0 then Some (fold_left (fun a d => a * radix + d) ds acc, (count + length s)%nat, rest) else None.
Proof.
  intros R F S. induction F as [|c d s ds D F IH]; intros count acc.
  - cbn [app length fold_left Nat.eqb]. rewrite orb_true_r, Nat.add_0_r. destruct rest as [|c rest]; [reflexivity|]. cbn [read_digits]. cbn [stops] in S. now rewrite S.
  - cbn [app read_digits length fold_left Nat.eqb]. rewrite (proj2 (to_digit_iff radix c d R) D), orb_false_r.
    destruct (Nat.ltb_spec max (Datatypes.S count)).
    + destruct (Nat.leb_spec (count + Datatypes.S (length s)) max); [lia|reflexivity].
    + rewrite IH. replace (Datatypes.S count + length s)%nat with (count + Datatypes.S (length s))%nat by lia.
      destruct (Nat.leb_spec (count + Datatypes.S (length s)) max); cbn [orb]; [reflexivity|]. destruct (Nat.eqb_spec (length s) 0); [lia|reflexivity].
Qed.
Lemma read_digits_inv radix max s : radix <= 36 -> forall count acc v n rest, read_digits radix max count acc s = Some (v, n, rest) ->
  exists s' ds, s = s' ++ rest /\ Forall2 (is_digit radix) s' ds /\ stops radix rest /\ n = (count + length s')%nat /\
    v = fold_left (fun a d => a * radix + d) ds acc /\ (s' = [] \/ (n <= max)%nat).
Proof.
  intros R. induction s as [|c s IH]; intros count acc v n rest E; cbn [read_digits] in E.
  - injection E as <- <- <-. exists [], []. cbn. split; [reflexivity|]. split; [constructor|]. split; [exact I|]. split; [lia|]. split; [reflexivity|now left].
  - destruct (to_digit radix c) as [d|] eqn:D.
    + destruct (Nat.ltb_spec max (Datatypes.S count)) as [|L]; [discriminate|]. apply IH in E as (s' & ds & -> & F & S & -> & -> & M).
      exists (c :: s'), (d :: ds). split; [reflexivity|]. split; [constructor; [now apply to_digit_iff in D|exact F]|]. split; [exact S|].
      cbn [length]. split; [lia|]. split; [reflexivity|]. right. destruct M as [->|M]; cbn [length] in *; lia.
    + injection E as <- <- <-. exists [], []. cbn. split; [reflexivity|]. split; [constructor|]. split; [exact D|]. split; [lia|]. split; [reflexivity|now left].
Qed.
Lemma numeral_length radix s v : numeral radix s v -> (1 <= length s)%nat.
Proof. intros H. apply numeral_nonempty in H. destruct s; [contradiction|cbn [length]; lia]. Qed.
(** [zp = false]: no leading zeros *)
Lemma read_number_iff w radix max zp s v rest : radix <= 36 ->
  read_number w radix max zp s = Some (v, rest) <->
  exists s', s = s' ++ rest /\ numeral radix s' v /\ stops radix rest /\ (length s' <= max)%nat /\ v < 2 ^ w /\
    (zp = false -> forall s'', s' = 48 :: s'' -> s'' = []).
Proof.
  intros R. unfold read_number. split.
  - destruct (read_digits radix max 0 0 s) as [[[v' n] r]|] eqn:E; [|discriminate].
    apply read_digits_inv in E as (s' & ds & -> & F & S & -> & -> & M); [|exact R]. cbn [Nat.add] in *.
    destruct (Nat.eqb_spec (length s') 0) as [|L]; [discriminate|].
    match goal with |- context [if ?b then _ else _] => destruct b eqn:Z; [discriminate|] end.
    match goal with |- context [if ?b then _ else _] => destruct b eqn:B; [|discriminate] end. apply N.ltb_lt in B.
    intros E. injection E as <- <-. exists s'. split; [reflexivity|]. split.
    { exists ds. split; [exact F|]. split; [|reflexivity]. intros ->. inversion F. subst. now apply L. }
    split; [exact S|]. split; [destruct M as [->|M]; [cbn [length] in L; lia|exact M]|]. split; [exact B|].
    intros -> s'' ->. cbn [negb andb app length] in Z. change (48 =? 48) with true in Z. cbn [andb] in Z. apply Nat.ltb_ge in Z. destruct s''; [reflexivity|cbn [length] in Z; lia].
  - intros (s' & -> & (ds & F & Nz & V) & S & L & B & Z).
    rewrite (read_digits_app radix max s' ds rest R F S). cbn [Nat.add].
    assert (L1 : (1 <= length s')%nat) by (destruct F; [now contradiction Nz|cbn [length]; lia]).
    destruct (Nat.leb_spec (length s') max); [|lia]. cbn [orb]. destruct (Nat.eqb_spec (length s') 0); [lia|].
    fold (digits_value radix ds). rewrite <- V. apply N.ltb_lt in B. rewrite B.
    match goal with |- context [if ?b then _ else _] => destruct b eqn:Y end; [|reflexivity].
    apply andb_true_iff in Y as [Y Y3]. apply andb_true_iff in Y as [Y1 Y2]. apply negb_true_iff in Y1. apply Nat.ltb_lt in Y3.
    destruct s' as [|c s'']; [cbn [length] in L1; lia|]. cbn [app] in Y2. apply N.eqb_eq in Y2. subst c. rewrite (Z Y1 s'' eq_refl) in Y3. cbn [length] in Y3. lia.
Qed.
Lemma fold_pow radix ds : 1 <= radix -> forall acc, acc * radix ^ N.of_nat (length ds) <= fold_left (fun a d => a * radix + d) ds acc.
Proof.
  intros R. induction ds as [|d ds IH]; intros acc; cbn [fold_left length].
  - rewrite N.mul_1_r. apply N.le_refl.
  - apply N.le_trans with (2 := IH (acc * radix + d)). rewrite Nat2N.inj_succ, N.pow_succ_r', N.mul_assoc. apply N.mul_le_mono_r. clear. lia.
Qed.
Lemma canonical_length radix s v k : 2 <= radix -> radix <= 36 -> canonical radix s v -> v < radix ^ N.of_nat k -> (1 <= k)%nat -> (length s <= k)%nat.
Proof.
  intros R R' ((ds & F & Nz & V) & Z & _) B K. destruct (Nat.leb_spec (length s) k) as [|L]; [assumption|exfalso].
  destruct F as [|c d s ds D F]; [cbn [length] in L; lia|]. cbn [length] in L.
  assert (Ln : length s = length ds) by (clear - F; induction F; cbn [length]; congruence).
  assert (D0 : 1 <= d).
  { destruct (N.eq_dec d 0) as [->|]; [|lia]. assert (c = 48) by (unfold is_digit in D; lia). subst c. rewrite (Z s eq_refl) in L. cbn [length] in L. lia. }
  pose proof (fold_pow radix ds ltac:(lia) d) as P. unfold digits_value in V. cbn [fold_left] in V. rewrite N.mul_0_l, N.add_0_l in V. rewrite <- V in P.
  assert (radix ^ N.of_nat k <= radix ^ N.of_nat (length ds)) by (apply N.pow_le_mono_r; lia).
  assert (1 * radix ^ N.of_nat (length ds) <= d * radix ^ N.of_nat (length ds)) by (apply N.mul_le_mono_r; exact D0).
  clear - B P H H0. lia.
Qed.
Lemma octet_iff s v rest : read_number 8 10 3 false s = Some (v, rest) <->
  exists s', s = s' ++ rest /\ canonical 10 s' v /\ v < 256 /\ stops 10 rest.
Proof.
  rewrite read_number_iff by discriminate. split.
  - intros (s' & E & Nu & S & L & B & Z). exists s'. split; [exact E|]. split; [|split; [exact B|exact S]]. split; [exact Nu|]. split; [now apply Z|].
    eapply Forall_impl; [|eapply numeral10_chars; exact Nu]. cbn beta. intros. lia.
  - intros (s' & E & C & B & S). exists s'. split; [exact E|]. split; [apply C|]. split; [exact S|]. split; [|split; [exact B|intros _; apply C]].
    apply (canonical_length 10 s' v 3); [discriminate|discriminate|exact C| |lia]. apply N.lt_trans with (1 := B). reflexivity.
Qed.

(** ** IPv4 addresses *)

Lemma stops10_46 s : stops 10 (46 :: s).
Proof. reflexivity. Qed.
Lemma read_ipv4_iff s a rest : read_ipv4 s = Some (a, rest) <-> exists s', s = s' ++ rest /\ ipv4_text s' a /\ stops 10 rest.
Proof.
  unfold read_ipv4, read_octet. cbn [read_separator].
  assert (C : forall s x, read_char 46 s = x -> x = None \/ exists s', x = Some (tt, s') /\ s = 46 :: s').
  { intros t x <-. unfold read_char. destruct t as [|c t]; [auto|]. destruct (N.eqb_spec c 46); [subst; eauto|auto]. }
  split.
  - destruct (read_number 8 10 3 false s) as [[b0 r0]|] eqn:E0; [|discriminate]. apply octet_iff in E0 as (s0 & -> & C0 & B0 & S0).
    destruct (C r0 _ eq_refl) as [->|(r1 & -> & ->)]; [discriminate|].
    destruct (read_number 8 10 3 false r1) as [[b1 r2]|] eqn:E1; [|discriminate]. apply octet_iff in E1 as (s1 & -> & C1 & B1 & S1).
    destruct (C r2 _ eq_refl) as [->|(r3 & -> & ->)]; [discriminate|].
    destruct (read_number 8 10 3 false r3) as [[b2 r4]|] eqn:E2; [|discriminate]. apply octet_iff in E2 as (s2 & -> & C2 & B2 & S2).
    destruct (C r4 _ eq_refl) as [->|(r5 & -> & ->)]; [discriminate|].
    destruct (read_number 8 10 3 false r5) as [[b3 r6]|] eqn:E3; [|discriminate]. apply octet_iff in E3 as (s3 & -> & C3 & B3 & S3).
    intros E. injection E as <- <-. exists (s0 ++ 46 :: s1 ++ 46 :: s2 ++ 46 :: s3).
    split; [now rewrite <- !app_assoc; cbn [app]; rewrite <- !app_assoc; cbn [app]; rewrite <- !app_assoc|]. split; [|exact S3].
    exists s0, s1, s2, s3, b0, b1, b2, b3. split; [reflexivity|]. do 4 (split; [assumption|]). split; [|reflexivity].
    apply Forall_cons; [exact B0|]. apply Forall_cons; [exact B1|]. apply Forall_cons; [exact B2|]. apply Forall_cons; [exact B3|apply Forall_nil].
  - intros (s' & -> & (s0 & s1 & s2 & s3 & b0 & b1 & b2 & b3 & -> & C0 & C1 & C2 & C3 & B & ->) & S).
    unfold bytes_ok in B. pose proof (Forall_inv B) as B0. apply Forall_inv_tail in B. pose proof (Forall_inv B) as B1. apply Forall_inv_tail in B.
    pose proof (Forall_inv B) as B2. apply Forall_inv_tail in B. pose proof (Forall_inv B) as B3.
    replace ((s0 ++ 46 :: s1 ++ 46 :: s2 ++ 46 :: s3) ++ rest) with (s0 ++ 46 :: s1 ++ 46 :: s2 ++ 46 :: s3 ++ rest)
      by (now rewrite <- !app_assoc; cbn [app]; rewrite <- !app_assoc; cbn [app]; rewrite <- !app_assoc).
    rewrite (proj2 (octet_iff _ b0 (46 :: s1 ++ 46 :: s2 ++ 46 :: s3 ++ rest))) by (exists s0; split; [reflexivity|split; [assumption|split; [assumption|reflexivity]]]).
    cbn [read_char N.eqb Pos.eqb].
    rewrite (proj2 (octet_iff _ b1 (46 :: s2 ++ 46 :: s3 ++ rest))) by (exists s1; split; [reflexivity|split; [assumption|split; [assumption|reflexivity]]]).
    cbn [read_char N.eqb Pos.eqb].
    rewrite (proj2 (octet_iff _ b2 (46 :: s3 ++ rest))) by (exists s2; split; [reflexivity|split; [assumption|split; [assumption|reflexivity]]]).
    cbn [read_char N.eqb Pos.eqb].
    rewrite (proj2 (octet_iff _ b3 rest)) by (exists s3; split; [reflexivity|split; [assumption|split; [assumption|assumption]]]).
    reflexivity.
Qed.
Lemma parse_ipv4_iff s a : parse_ipv4 s = Ok a <-> ipv4_text s a.
Proof.
  unfold parse_ipv4, parse_with. split.
  - destruct (Nat.ltb 15 (length s)); [discriminate|]. destruct (read_ipv4 s) as [[a' [|? ?]]|] eqn:E; try discriminate.
    intros H. injection H as <-. apply read_ipv4_iff in E as (s' & -> & T & _). now rewrite app_nil_r.
  - intros T. assert (L : (length s <= 15)%nat).
    { destruct T as (s0 & s1 & s2 & s3 & b0 & b1 & b2 & b3 & -> & C0 & C1 & C2 & C3 & B & _). unfold bytes_ok in B.
      assert (X : forall s b, canonical 10 s b -> b < 256 -> (length s <= 3)%nat).
      { intros t b C H. apply (canonical_length 10 t b 3); [discriminate|discriminate|exact C| |lia]. apply N.lt_trans with (1 := H). reflexivity. }
      pose proof (Forall_inv B) as B0. apply Forall_inv_tail in B. pose proof (Forall_inv B) as B1. apply Forall_inv_tail in B.
      pose proof (Forall_inv B) as B2. apply Forall_inv_tail in B. pose proof (Forall_inv B) as B3.
      apply X in C0, C1, C2, C3; try assumption. rewrite !app_length. cbn [length]. rewrite !app_length. cbn [length]. rewrite !app_length. cbn [length].
      clear - C0 C1 C2 C3. lia. }
    destruct (Nat.ltb_spec 15 (length s)); [lia|]. rewrite (proj2 (read_ipv4_iff s a [])); [reflexivity|]. exists s. rewrite app_nil_r. split; [reflexivity|]. now split.
Qed.
Lemma fmt_ipv4_ok a : a < 2 ^ 32 -> ipv4_text (fmt_ipv4 a) a.
Proof.
  intros H. unfold fmt_ipv4, octets4. pose proof (be_bytes_ok 4 a) as B. pose proof (be_val_be_bytes 4 a H) as V.
  destruct (be_bytes 4 a) as [|b0 [|b1 [|b2 [|b3 [|? ?]]]]] eqn:E; try (pose proof (length_be_bytes 4 a) as L; rewrite E in L; discriminate L).
  cbn [map joined]. exists (fmt_dec b0), (fmt_dec b1), (fmt_dec b2), (fmt_dec b3), b0, b1, b2, b3. split; [reflexivity|].
  do 4 (split; [apply fmt_dec_ok|]). split; [exact B|now symmetry].
Qed.
Lemma ipv4_rt a : a < 2 ^ 32 -> parse_ipv4 (fmt_ipv4 a) = Ok a.
Proof. intros H. apply parse_ipv4_iff. now apply fmt_ipv4_ok. Qed.

(** ** IPv6 addresses *)

(** characters of hexadecimal numerals *)
Definition hexc (c : N) : Prop := 48 <= c <= 57 \/ 97 <= c <= 102 \/ 65 <= c <= 70.
(** a group: at most four digits *)
Definition group_text (s : text) (g : N) : Prop := numeral 16 s g /\ (length s <= 4)%nat /\ g < 65536.
(** what can follow a group *)
Definition follows (rest : text) : Prop := match rest with c :: _ => c = 58 | [] => True end.

Lemma follows_stops rest : follows rest -> stops 16 rest /\ stops 10 rest.
Proof. destruct rest as [|c rest]; cbn [follows stops]; [auto|]. intros ->. split; reflexivity. Qed.
Lemma read_ipv4_none h rest : Forall hexc h -> follows rest -> read_ipv4 (h ++ rest) = None.
Proof.
  intros F S. destruct (read_ipv4 (h ++ rest)) as [[a r]|] eqn:E; [exfalso|reflexivity].
  apply read_ipv4_iff in E as (s' & E & (s0 & s1 & s2 & s3 & b0 & b1 & b2 & b3 & -> & C0 & _) & _).
  assert (F0 := numeral10_chars _ _ (proj1 C0)). clear C0.
  rewrite <- app_assoc in E. cbn [app] in E. revert h F E. induction F0 as [|x s0 X F0 IH]; intros h F E; cbn [app] in E.
  - destruct h as [|y h]; cbn [app] in E.
    + destruct rest as [|y rest]; [discriminate|]. injection E as E _. cbn [follows] in S. lia.
    + injection E as E _. apply Forall_inv in F. unfold hexc in F. lia.
  - destruct h as [|y h]; cbn [app] in E.
    + destruct rest as [|y rest]; [discriminate|]. injection E as E _. cbn [follows] in S. lia.
    + injection E as _ E. apply Forall_inv_tail in F. now apply (IH h).
Qed.
Lemma numeral_hexc s v : numeral 16 s v -> Forall hexc s.
Proof. intros H. exact (numeral16_chars s v H). Qed.
Lemma read_group s g rest : group_text s g -> follows rest -> read_number 16 16 4 true (s ++ rest) = Some (g, rest).
Proof.
  intros (Nu & L & B) S. apply read_number_iff; [discriminate|]. exists s. split; [reflexivity|]. split; [exact Nu|].
  split; [now apply follows_stops|]. split; [exact L|]. split; [exact B|discriminate].
Qed.
(** groups after [i] others *)
Definition gtext (i : nat) (l : list text) : text := match i with O => joined 58 l | S _ => flat_map (cons 58) l end.
Lemma gtext_cons i s l : gtext i (s :: l) = (match i with O => [] | S _ => [58] end) ++ s ++ gtext (S i) l.
Proof.
  assert (J : forall l (s : text), joined 58 (s :: l) = s ++ flat_map (cons 58) l).
  { clear. induction l as [|t l IH]; intros s; [cbn; now rewrite app_nil_r|]. cbn [joined flat_map]. cbn [joined] in IH. rewrite IH. reflexivity. }
  destruct i; cbn [gtext]; [apply J|]. reflexivity.
Qed.
Lemma gtext_follows i l rest : follows rest -> follows (gtext (S i) l ++ rest).
Proof. intros H. destruct l as [|s l]; [exact H|reflexivity]. Qed.
(** nothing more can be read as a group *)
Definition dead (rest : text) : Prop := rest = [] \/ exists r, rest = 58 :: 58 :: r.
Lemma dead_follows rest : dead rest -> follows rest.
Proof. intros [->|[r ->]]; [exact I|reflexivity]. Qed.
Lemma read_ipv4_colon r : read_ipv4 (58 :: r) = None.
Proof. reflexivity. Qed.
Lemma read_groups_dead left i rest : dead rest -> read_groups left i rest = ([], false, rest).
Proof.
  intros D. destruct left as [|left]; [reflexivity|]. cbn [read_groups].
  assert (X : forall A (p : parser A), p [] = None -> (forall r, p (58 :: r) = None) -> read_separator 58 i p rest = None).
  { intros A p P1 P2. destruct D as [->|[r ->]]; destruct i; cbn [read_separator read_char N.eqb Pos.eqb]; auto. }
  rewrite (X N read_ipv4) by reflexivity. rewrite (X N (read_number 16 16 4 true)) by reflexivity. now destruct left.
Qed.
Lemma read_groups_ok l gs : Forall2 group_text l gs -> forall left i rest, (length l <= left)%nat -> follows rest -> ((length l < left)%nat -> dead rest) ->
  read_groups left i (gtext i l ++ rest) = (gs, false, rest).
Proof.
  induction 1 as [|s g l gs G F IH]; intros left i rest L S D.
  - assert (E : gtext i [] ++ rest = rest) by (destruct i; reflexivity). rewrite E. destruct left as [|left]; [reflexivity|]. apply read_groups_dead. apply D. cbn [length]. lia.
  - cbn [length] in L, D. destruct left as [|left]; [lia|]. cbn [read_groups]. rewrite gtext_cons, <- !app_assoc.
    assert (S1 : follows (gtext (Datatypes.S i) l ++ rest)) by now apply gtext_follows.
    assert (X : forall A (p : parser A), read_separator 58 i p ((match i with O => [] | Datatypes.S _ => [58] end) ++ s ++ gtext (Datatypes.S i) l ++ rest) =
                 p (s ++ gtext (Datatypes.S i) l ++ rest)) by (intros A p; destruct i; reflexivity).
    rewrite !X. rewrite read_ipv4_none; [|eapply numeral_hexc; apply G|exact S1]. rewrite (read_group s g) by assumption.
    rewrite IH; [now destruct left|lia|exact S|intros; apply D; lia].
Qed.
Lemma hex_group g : g < 65536 -> group_text (fmt_hex g) g.
Proof.
  intros H. split; [apply fmt_hex_ok|]. split; [|exact H]. apply (canonical_length 16 _ g 4); [discriminate|discriminate|apply fmt_hex_ok|exact H|lia].
Qed.
Lemma hex_groups gs : Forall (fun g => g < 65536) gs -> Forall2 group_text (map fmt_hex gs) gs.
Proof. induction 1 as [|g gs G F IH]; cbn [map]; constructor; [now apply hex_group|exact IH]. Qed.
Lemma segments_wf a : Forall (fun g => g < 65536) (segments a).
Proof. unfold segments. apply Forall_forall. intros g I. apply in_map_iff in I as (k & <- & _). apply N.mod_lt. discriminate. Qed.
Lemma segments_val a : a < 2 ^ 128 -> ip6_new (segments a) = a.
Proof.
  intros H. unfold segments. cbn [map]. unfold ip6_new. cbn [fold_left].
  assert (X : forall k, N.shiftr a (16 * (k + 1)) = N.shiftr a (16 * k) / 65536).
  { intros k. rewrite !N.shiftr_div_pow2. replace (16 * (k + 1)) with (16 * k + 16) by lia. rewrite N.pow_add_r. change 65536 with (2 ^ 16). symmetry. apply N.div_div; apply pow2_nz. }
  assert (D : forall x, x = 65536 * (x / 65536) + x mod 65536) by (intros; now apply N.div_mod).
  assert (L : N.shiftr a (16 * 7) < 65536). { rewrite N.shiftr_div_pow2. apply N.div_lt_upper_bound; [apply pow2_nz|exact H]. }
  assert (Z : N.shiftr a (16 * 0) = a) by apply N.shiftr_0_r. pose proof (X 0) as X0. pose proof (X 1) as X1. pose proof (X 2) as X2. pose proof (X 3) as X3.
  pose proof (X 4) as X4. pose proof (X 5) as X5. pose proof (X 6) as X6. clear X H. cbn [N.add Pos.add Pos.succ] in *.
  rewrite (N.mod_small _ _ L). rewrite Z in *. 
  set (x1 := N.shiftr a (16 * 1)) in *. set (x2 := N.shiftr a (16 * 2)) in *. set (x3 := N.shiftr a (16 * 3)) in *. set (x4 := N.shiftr a (16 * 4)) in *.
  set (x5 := N.shiftr a (16 * 5)) in *. set (x6 := N.shiftr a (16 * 6)) in *. set (x7 := N.shiftr a (16 * 7)) in *. clearbody x1 x2 x3 x4 x5 x6 x7.
  pose proof (D a) as D0. pose proof (D x1) as D1. pose proof (D x2) as D2. pose proof (D x3) as D3. pose proof (D x4) as D4. pose proof (D x5) as D5. pose proof (D x6) as D6.
  rewrite <- X0 in D0. rewrite <- X1 in D1. rewrite <- X2 in D2. rewrite <- X3 in D3. rewrite <- X4 in D4. rewrite <- X5 in D5. rewrite <- X6 in D6.
  clear - D0 D1 D2 D3 D4 D5 D6. lia.
Qed.
Definition span_of (full : list N) (sp : nat * nat) : Prop :=
  exists p q, full = p ++ repeat 0 (snd sp) ++ q /\ length p = fst sp.
Lemma zero_span_inv l : forall pre cur longest,
  (snd cur = O \/ exists p, pre = p ++ repeat 0 (snd cur) /\ length p = fst cur) ->
  span_of (pre ++ l) longest -> span_of (pre ++ l) (zero_span l (length pre) cur longest).
Proof.
  induction l as [|g l IH]; intros pre cur longest C L; cbn [zero_span]; [exact L|].
  assert (E : pre ++ g :: l = (pre ++ [g]) ++ l) by now rewrite <- app_assoc.
  assert (Ln : length (pre ++ [g]) = S (length pre)) by (rewrite app_length; cbn [length]; lia).
  destruct (N.eqb_spec g 0) as [->|H]; cbv zeta.
  - set (cur' := (if (snd cur =? 0)%nat then length pre else fst cur, S (snd cur))).
    assert (C' : exists p, pre ++ [0] = p ++ repeat 0 (snd cur') /\ length p = fst cur').
    { subst cur'. cbn [fst snd]. destruct (Nat.eqb_spec (snd cur) 0) as [Z|Z].
      - exists pre. rewrite Z. split; reflexivity.
      - destruct C as [C|(p & -> & Lp)]; [contradiction|]. exists p. split; [|exact Lp]. cbn [repeat]. rewrite <- app_assoc, <- repeat_cons. reflexivity. }
    rewrite E, <- Ln. apply IH; [right; exact C'|]. destruct (Nat.ltb _ _); [|rewrite <- E; exact L].
    destruct C' as (p & -> & Lp). exists p, l. split; [now rewrite <- app_assoc|exact Lp].
  - rewrite E, <- Ln. apply IH; [now left|]. rewrite <- E. exact L.
Qed.
Lemma zero_span_ok l : span_of l (zero_span l 0 (O, O) (O, O)).
Proof. apply (zero_span_inv l [] (O, O) (O, O)); [now left|]. exists [], l. split; reflexivity. Qed.

Lemma length_segments a : length (segments a) = 8%nat.
Proof. reflexivity. Qed.
Lemma read_ipv6_compressed l1 l2 hs ts : Forall2 group_text l1 hs -> Forall2 group_text l2 ts -> (length l1 + length l2 <= 7)%nat ->
  read_ipv6 (joined 58 l1 ++ 58 :: 58 :: joined 58 l2) = Some (ip6_new (hs ++ repeat 0 (8 - length ts - length hs) ++ ts), []).
Proof.
  intros F1 F2 L. assert (L1 : length l1 = length hs) by (clear - F1; induction F1; cbn [length]; congruence).
  unfold read_ipv6. change (joined 58 l1) with (gtext 0 l1).
  rewrite (read_groups_ok l1 hs F1); [|lia|reflexivity|intros; right; eauto].
  destruct (Nat.eqb_spec (length hs) 8); [lia|]. cbn [read_char N.eqb Pos.eqb].
  rewrite <- (app_nil_r (joined 58 l2)). change (joined 58 l2) with (gtext 0 l2).
  rewrite (read_groups_ok l2 ts F2); [reflexivity|lia|exact I|intros; now left].
Qed.
Lemma ip6_new_app l1 l2 : ip6_new (l1 ++ l2) = ip6_new l1 * 65536 ^ N.of_nat (length l2) + ip6_new l2.
Proof.
  unfold ip6_new. rewrite fold_left_app. set (f := fun acc s => acc * 65536 + s).
  assert (G : forall l acc, fold_left f l acc = acc * 65536 ^ N.of_nat (length l) + fold_left f l 0).
  { induction l as [|x l IH]; intros acc; cbn [fold_left length]; [rewrite N.mul_1_r; lia|]. rewrite (IH (f acc x)), (IH (f 0 x)). unfold f at 1 3.
    rewrite Nat2N.inj_succ, N.pow_succ_r'. lia. }
  apply G.
Qed.
Lemma ipv6_rt a : a < 2 ^ 128 -> parse_ipv6 (fmt_ipv6 a) = Ok a.
Proof.
  intros H. unfold parse_ipv6, parse_with, fmt_ipv6. cbv zeta.
  destruct (N.eqb_spec (N.shiftr a 32) 0xffff) as [M|M].
  - (* IPv4-mapped *)
    assert (Lo : a mod 2 ^ 32 < 2 ^ 32) by (apply N.mod_lt; discriminate).
    assert (Ea : a = 0xffff * 2 ^ 32 + a mod 2 ^ 32).
    { rewrite N.shiftr_div_pow2 in M. rewrite (N.div_mod a (2 ^ 32)) at 1 by discriminate. rewrite M. lia. }
    set (lo := a mod 2 ^ 32) in *. clearbody lo. subst a. clear M H.
    change (txt "::ffff:") with ([58; 58] ++ [102; 102; 102; 102] ++ [58]). rewrite <- !app_assoc. cbn [app].
    set (t := fmt_ipv4 lo). pose proof (fmt_ipv4_ok lo Lo) as T. fold t in T. clearbody t.
    assert (R : read_ipv4 t = Some (lo, [])) by (apply read_ipv4_iff; exists t; rewrite app_nil_r; split; [reflexivity|split; [exact T|exact I]]).
    assert (G : group_text [102; 102; 102; 102] 0xffff).
    { split; [|split; [cbn [length]; lia|reflexivity]]. exists [15; 15; 15; 15]. split; [|split; [discriminate|reflexivity]].
      assert (D : is_digit 16 102 15) by (split; [reflexivity|right; split; [discriminate|now left]]).
      repeat (constructor; [exact D|]). constructor. }
    unfold read_ipv6. rewrite (read_groups_dead 8 0 _ (or_intror (ex_intro _ _ eq_refl))). cbn [length Nat.eqb read_char N.eqb Pos.eqb Nat.add Nat.sub].
    assert (RG : read_groups 7 0 (102 :: 102 :: 102 :: 102 :: 58 :: t) = ([0xffff; N.shiftr lo 16; N.land lo 0xffff], true, [])).
    { change (102 :: 102 :: 102 :: 102 :: 58 :: t) with ([102; 102; 102; 102] ++ 58 :: t). cbn [read_groups].
      change (read_separator 58 0 read_ipv4 ([102; 102; 102; 102] ++ 58 :: t)) with (read_ipv4 ([102; 102; 102; 102] ++ 58 :: t)).
      change (read_separator 58 0 (read_number 16 16 4 true) ([102; 102; 102; 102] ++ 58 :: t)) with (read_number 16 16 4 true ([102; 102; 102; 102] ++ 58 :: t)).
      rewrite read_ipv4_none; [|eapply numeral_hexc; apply G|reflexivity]. rewrite (read_group _ _ (58 :: t) G) by reflexivity.
      change (read_separator 58 1 read_ipv4 (58 :: t)) with (read_ipv4 t). rewrite R. reflexivity. }
    rewrite RG. cbn [length Nat.sub repeat app]. f_equal. unfold ip6_new. cbn [fold_left].
    rewrite land_65535, N.shiftr_div_pow2. change (2 ^ 16) with 65536. change (2 ^ 32) with (65536 * 65536).
    pose proof (N.div_mod lo 65536 ltac:(discriminate)) as Dm. clear - Dm. lia.
  - pose proof (zero_span_ok (segments a)) as Z. pose proof (segments_wf a) as W. pose proof (segments_val a H) as V. pose proof (length_segments a) as L8.
    set (seg := segments a) in *. clearbody seg. destruct (zero_span seg 0 (O, O) (O, O)) as [st n]. destruct Z as (p & q & E & Lp). cbn [fst snd] in *.
    destruct (Nat.ltb_spec 1 n) as [Hn|Hn].
    + assert (X1 : firstn st seg = p) by (rewrite E; apply firstn_app_exact; exact Lp).
      assert (X2 : skipn (st + n) seg = q) by (rewrite E, app_assoc; apply skipn_app_exact; rewrite app_length, repeat_length; lia).
      rewrite X1, X2. change (txt "::") with [58; 58]. cbn [app]. unfold fmt_groups.
      rewrite E in W. apply Forall_app in W as [Wp W]. apply Forall_app in W as [_ Wq].
      assert (L : (length p + n + length q = 8)%nat) by (rewrite <- L8, E, !app_length, repeat_length; lia).
      rewrite (read_ipv6_compressed (map fmt_hex p) (map fmt_hex q) p q) by (auto using hex_groups; rewrite !map_length; lia).
      replace (8 - length q - length p)%nat with n by lia. now rewrite <- E, V.
    + unfold fmt_groups, read_ipv6. rewrite <- (app_nil_r (joined 58 _)). change (joined 58 (map fmt_hex seg)) with (gtext 0 (map fmt_hex seg)).
      rewrite (read_groups_ok _ seg (hex_groups seg W)); [|rewrite map_length; lia|exact I|intros; now left].
      rewrite L8. cbn [Nat.eqb]. now rewrite V.
Qed.

(** ** Other readings of texts *)

Lemma joined_cons (s : text) l : exists t, follows t /\ joined 58 (s :: l) = s ++ t.
Proof. destruct l as [|t l]; [exists []; split; [exact I|cbn; now rewrite app_nil_r]|]. exists (58 :: joined 58 (t :: l)). split; reflexivity. Qed.
(** hexadecimal digits, then a colon or nothing: not an IPv4 address *)
Lemma hex_not_v4 h rest : Forall hexc h -> follows rest -> parse_ipv4 (h ++ rest) = Err EOther.
Proof. intros F S. unfold parse_ipv4, parse_with. rewrite read_ipv4_none by assumption. now destruct (Nat.ltb _ _). Qed.
Lemma fmt_ipv6_shape a : exists h rest, fmt_ipv6 a = h ++ rest /\ Forall hexc h /\ follows rest.
Proof.
  unfold fmt_ipv6. cbv zeta.
  assert (Hx : forall g, Forall hexc (fmt_hex g)) by (intros; eapply numeral_hexc, fmt_hex_ok).
  destruct (N.shiftr a 32 =? 0xffff); [exists [], (txt "::ffff:" ++ fmt_ipv4 (a mod 2 ^ 32)); split; [reflexivity|]; split; [constructor|reflexivity]|].
  destruct (zero_span _ _ _ _) as [st n]. set (seg := segments a). clearbody seg. unfold fmt_groups. destruct (Nat.ltb 1 n).
  - destruct (firstn st seg) as [|g l]; [exists [], ([58; 58] ++ joined 58 (map fmt_hex (skipn (st + n) seg))); split; [reflexivity|]; split; [constructor|reflexivity]|].
    cbn [map]. destruct (joined_cons (fmt_hex g) (map fmt_hex l)) as (t & Ft & ->). exists (fmt_hex g), (t ++ [58; 58] ++ joined 58 (map fmt_hex (skipn (st + n) seg))).
    split; [now rewrite <- app_assoc|]. split; [apply Hx|]. destruct t; [reflexivity|exact Ft].
  - destruct seg as [|g l]; [exists [], []; split; [reflexivity|]; split; [constructor|exact I]|].
    cbn [map]. destruct (joined_cons (fmt_hex g) (map fmt_hex l)) as (t & Ft & ->). exists (fmt_hex g), t. split; [reflexivity|]. split; [apply Hx|exact Ft].
Qed.
Lemma mac_fmt_joined m : mac_wf m -> exists l gs, mac_fmt m = joined 58 l /\ Forall2 group_text l gs /\ length l = 6%nat.
Proof.
  intros [L B]. destruct m as [|f [|e [|d [|c [|b [|a [|? ?]]]]]]]; try discriminate L. unfold bytes_ok in B.
  exists (map fmt_hex2 [a; b; c; d; e; f]), [a; b; c; d; e; f]. split; [reflexivity|]. split; [|reflexivity].
  apply Forall_rev in B. cbn [rev app] in B.
  assert (G : forall l, Forall is_byte l -> Forall2 group_text (map fmt_hex2 l) l).
  { induction 1 as [|x l X F IH]; cbn [map]; constructor; [|exact IH]. destruct (fmt_hex2_ok x X) as (y & z & E & Nu & _). rewrite E in *.
    split; [exact Nu|]. split; [cbn [length]; lia|]. unfold is_byte in X. lia. }
  now apply G.
Qed.
Lemma mac_not_v4 m : mac_wf m -> parse_ipv4 (mac_fmt m) = Err EOther.
Proof.
  intros W. destruct (mac_fmt_joined m W) as (l & gs & -> & F & L). destruct F as [|s g l gs G F]; [discriminate L|].
  destruct (joined_cons s l) as (t & Ft & ->). apply hex_not_v4; [eapply numeral_hexc; apply G|exact Ft].
Qed.
Lemma mac_not_v6 m : mac_wf m -> parse_ipv6 (mac_fmt m) = Err EOther.
Proof.
  intros W. destruct (mac_fmt_joined m W) as (l & gs & -> & F & L). unfold parse_ipv6, parse_with, read_ipv6.
  assert (Lg : length gs = 6%nat) by (rewrite <- L; clear - F; induction F; cbn [length]; congruence).
  rewrite <- (app_nil_r (joined 58 l)). change (joined 58 l) with (gtext 0 l).
  rewrite (read_groups_ok l gs F); [|lia|exact I|intros; now left]. rewrite Lg. reflexivity.
Qed.

(** ** Characters that do not occur *)

Definition addr_char (c : N) : Prop := c = 46 \/ c = 58 \/ hexc c.
Lemma dec_addr_chars n : Forall addr_char (fmt_dec n).
Proof. eapply Forall_impl; [|apply fmt_dec_chars]. cbn beta. intros c H. right. right. now left. Qed.
Lemma hex_addr_chars n : Forall addr_char (fmt_hex n).
Proof. eapply Forall_impl; [|eapply numeral_hexc, fmt_hex_ok]. intros c H. right. now right. Qed.
Lemma joined_chars (P : N -> Prop) sep l : P sep -> Forall (Forall P) l -> Forall P (joined sep l).
Proof.
  intros Ps F. induction F as [|s l S F IH]; [constructor|]. destruct l as [|t l]; [exact S|]. cbn [joined] in *. apply Forall_app. split; [exact S|]. now constructor.
Qed.
Lemma ipv4_chars a : Forall addr_char (fmt_ipv4 a).
Proof.
  apply joined_chars; [now left|]. apply Forall_forall. intros s I. apply in_map_iff in I as (b & <- & _). apply dec_addr_chars.
Qed.
Lemma groups_chars l : Forall addr_char (fmt_groups l).
Proof.
  apply joined_chars; [right; now left|]. apply Forall_forall. intros s I. apply in_map_iff in I as (b & <- & _). apply hex_addr_chars.
Qed.
Lemma ipv6_chars a : Forall addr_char (fmt_ipv6 a).
Proof.
  unfold fmt_ipv6. cbv zeta. destruct (_ =? _).
  - apply Forall_app. split; [|apply ipv4_chars]. unfold addr_char, hexc. repeat (apply Forall_cons; [cbn; lia|]). apply Forall_nil.
  - destruct (zero_span _ _ _ _) as [st n]. destruct (Nat.ltb _ _); [|apply groups_chars].
    apply Forall_app. split; [apply groups_chars|]. apply Forall_app. split; [|apply groups_chars]. unfold addr_char. repeat (apply Forall_cons; [cbn; lia|]). apply Forall_nil.
Qed.
Lemma mac_chars m : mac_wf m -> Forall addr_char (mac_fmt m).
Proof.
  intros W. destruct (mac_fmt_joined m W) as (l & gs & -> & F & _). apply joined_chars; [right; now left|].
  clear W. induction F as [|s g l gs G F IH]; constructor; [|exact IH]. eapply Forall_impl; [|eapply numeral_hexc; apply G]. intros c H. right. now right.
Qed.
Lemma addr_char_not c s : Forall addr_char s -> c = 47 \/ c = 64 -> ~ In c s.
Proof. intros F H I. pose proof (proj1 (Forall_forall _ _) F c I) as X. unfold addr_char, hexc in X. lia. Qed.

(** ** Prefixes *)

Lemma prefix_fmt {A} (p : text -> res A) host (a : text) x l : ~ In 47 a -> p a = Ok x -> l < 256 -> prefix_parse p host (a ++ txt "/" ++ fmt_dec l) = Ok (x, l).
Proof.
  intros H E L. unfold prefix_parse. change (txt "/") with [47]. cbn [app]. rewrite split_on_app by exact H.
  rewrite split_on_none by (apply fmt_dec_not; lia). cbn [length Nat.ltb Nat.leb idx nth_error bind]. rewrite E. cbn [bind]. rewrite fmt_dec_parse by exact L. reflexivity.
Qed.
Lemma prefix_fail {A} (p : text -> res A) host (a : text) l : ~ In 47 a -> p a = Err EOther -> prefix_parse p host (a ++ txt "/" ++ fmt_dec l) = Err EOther.
Proof.
  intros H E. unfold prefix_parse. change (txt "/") with [47]. cbn [app]. rewrite split_on_app by exact H.
  rewrite split_on_none by (apply fmt_dec_not; lia). cbn [length Nat.ltb Nat.leb idx nth_error bind]. now rewrite E.
Qed.
Lemma v4_text_rt p : v4_any p -> v4_parse (v4_fmt p) = Ok p.
Proof.
  intros [Ha Hl]. unfold v4_parse, v4_fmt. rewrite (prefix_fmt parse_ipv4 32 _ (v4_addr p)); [now destruct p| |now apply ipv4_rt|exact Hl].
  apply addr_char_not; [apply ipv4_chars|now left].
Qed.
Lemma v6_text_rt p : v6_any p -> v6_parse (v6_fmt p) = Ok p.
Proof.
  intros [Ha Hl]. unfold v6_parse, v6_fmt. rewrite (prefix_fmt parse_ipv6 128 _ (v6_addr p)); [now destruct p| |now apply ipv6_rt|exact Hl].
  apply addr_char_not; [apply ipv6_chars|now left].
Qed.
Lemma macp_text_rt p : macp_any p -> macp_parse (macp_fmt p) = Ok p.
Proof.
  intros [Ha Hl]. unfold macp_parse, macp_fmt. rewrite (prefix_fmt mac_parse 48 _ (mc_addr p)); [now destruct p| |now apply mac_rt|exact Hl].
  apply addr_char_not; [now apply mac_chars|now left].
Qed.
Lemma net_text_rt n : net_any n -> net_parse (net_fmt n) = Ok n.
Proof.
  intros W. unfold net_parse. destruct n as [p|p|p]; cbn [net_fmt net_any] in *.
  - now rewrite v4_text_rt.
  - assert (E : v4_parse (v6_fmt p) = Err EOther).
    { unfold v4_parse, v6_fmt. rewrite prefix_fail; [reflexivity| |].
      - apply addr_char_not; [apply ipv6_chars|now left].
      - destruct (fmt_ipv6_shape (v6_addr p)) as (h & r & -> & F & S). now apply hex_not_v4. }
    rewrite E. now rewrite v6_text_rt.
  - assert (E4 : v4_parse (macp_fmt p) = Err EOther).
    { unfold v4_parse, macp_fmt. rewrite prefix_fail; [reflexivity| |apply mac_not_v4; apply W]. apply addr_char_not; [apply mac_chars; apply W|now left]. }
    assert (E6 : v6_parse (macp_fmt p) = Err EOther).
    { unfold v6_parse, macp_fmt. rewrite prefix_fail; [reflexivity| |apply mac_not_v6; apply W]. apply addr_char_not; [apply mac_chars; apply W|now left]. }
    rewrite E4, E6. now rewrite macp_text_rt.
Qed.
Lemma prefix_chars64 (a : text) l : Forall addr_char a -> ~ In 64 (a ++ txt "/" ++ fmt_dec l).
Proof.
  intros F I. apply in_app_or in I as [I|I]; [now apply (addr_char_not 64) in I; [|auto|auto]|]. apply in_app_or in I as [[I|[]]|I]; [discriminate|].
  revert I. apply fmt_dec_not. lia.
Qed.
Lemma mdt4_text_rt m : v4_any (mdt4_addr m) -> mdt4_group m < 2 ^ 32 -> mdt4_parse (mdt4_fmt m) = Ok m.
Proof.
  intros Ha Hg. unfold mdt4_parse, mdt4_fmt. change (txt "@") with [64]. cbn [app]. rewrite split_on_app by (apply prefix_chars64, ipv4_chars).
  rewrite split_on_none by (apply addr_char_not; [apply ipv4_chars|auto]). cbn [length Nat.eqb negb idx nth_error bind].
  rewrite v4_text_rt by exact Ha. cbn [bind]. rewrite ipv4_rt by exact Hg. now destruct m.
Qed.
Lemma mdt6_text_rt m : v6_any (mdt6_addr m) -> mdt6_group m < 2 ^ 128 -> mdt6_parse (mdt6_fmt m) = Ok m.
Proof.
  intros Ha Hg. unfold mdt6_parse, mdt6_fmt. change (txt "@") with [64]. cbn [app]. rewrite split_on_app by (apply prefix_chars64, ipv6_chars).
  rewrite split_on_none by (apply addr_char_not; [apply ipv6_chars|auto]). cbn [length Nat.eqb negb idx nth_error bind].
  rewrite v6_text_rt by exact Ha. cbn [bind]. rewrite ipv6_rt by exact Hg. now destruct m.
Qed.

(** ** Lengths that are none *)

Lemma prefix_bad {A} (p : text -> res A) host (a : text) x l more : ~ In 47 a -> p a = Ok x -> no_length l -> (more = [] \/ exists m, more = 47 :: m) ->
  prefix_parse p host (a ++ 47 :: l ++ more) = Ok (x, host).
Proof.
  intros H E [N47 L] M. unfold prefix_parse. rewrite split_on_app by exact H.
  assert (X : exists ps, split_on 47 (l ++ more) = l :: ps).
  { destruct M as [->|[m ->]]; [rewrite app_nil_r, split_on_none by exact N47; eauto|rewrite split_on_app by exact N47; eauto]. }
  destruct X as [ps ->]. cbn [length Nat.ltb Nat.leb idx nth_error bind]. rewrite E. cbn [bind]. rewrite (proj1 (parse_uint_err 8 l) L). reflexivity.
Qed.
Lemma ipv4_text_no47 s a : ipv4_text s a -> ~ In 47 s.
Proof.
  intros (s0 & s1 & s2 & s3 & b0 & b1 & b2 & b3 & -> & C0 & C1 & C2 & C3 & _).
  assert (X : forall s b, canonical 10 s b -> ~ In 47 s).
  { intros s b C I. pose proof (proj1 (Forall_forall _ _) (numeral10_chars _ _ (proj1 C)) 47 I) as Y. cbn beta in Y. lia. }
  apply X in C0, C1, C2, C3. rewrite !in_app_iff. cbn [In]. rewrite !in_app_iff. cbn [In]. rewrite !in_app_iff. cbn [In].
  assert (46 <> 47) by discriminate. tauto.
Qed.
Lemma v4_bad_length s a l : ipv4_text s a -> no_length l -> v4_parse (s ++ 47 :: l) = Ok (mkV4 a 32).
Proof.
  intros T H. unfold v4_parse. rewrite <- (app_nil_r l). rewrite (prefix_bad parse_ipv4 32 s a l []); [reflexivity|now apply (ipv4_text_no47 s a)|now apply parse_ipv4_iff|exact H|now left].
Qed.
Lemma v6_bad_length a l : a < 2 ^ 128 -> no_length l -> v6_parse (fmt_ipv6 a ++ 47 :: l) = Ok (mkV6 a 128).
Proof.
  intros T H. unfold v6_parse. rewrite <- (app_nil_r l). rewrite (prefix_bad parse_ipv6 128 (fmt_ipv6 a) a l []); [reflexivity| |now apply ipv6_rt|exact H|now left].
  apply addr_char_not; [apply ipv6_chars|now left].
Qed.
(** every text is accepted for a network if it has a hexadecimal digit before the first slash *)
Lemma net_accepts s p c d : (exists ps, parts (eq 47) s (p :: ps)) -> In c p -> is_digit 16 c d -> exists n, net_parse s = Ok n.
Proof.
  intros [ps P] I D. apply parts_split_on in P. unfold net_parse.
  destruct (v4_parse s); [eauto| | |]; (destruct (v6_parse s); [eauto| | |]);
    unfold macp_parse, prefix_parse; rewrite <- P;
    (assert (X : exists m, mac_parse p = Ok m);
     [destruct (hex_digits_total p) as [ds H]; rewrite (mac_accepts_l p ds H); destruct (Nat.eqb_spec (length ds) 0) as [Z|Z]; [exfalso|eauto];
      clear - H Z I D; induction H as [|? ? ? ? ? ? IH|? ? ? N ? IH]; [contradiction|discriminate Z|];
      destruct I as [->|I]; [now apply N in D|now apply IH]
     |destruct X as [m Hm]; destruct ps as [|q ps]; cbn [length Nat.ltb Nat.leb idx nth_error bind]; rewrite Hm; cbn [bind]; eauto]).
Qed.

(** ** AS numbers *)

Lemma as_fmt_plain v : v mod 65536 <> 0 -> canonical 10 (as_fmt v) v.
Proof. intros H. unfold as_fmt. rewrite land_65535. destruct (N.eqb_spec (v mod 65536) 0); [contradiction|]. apply fmt_dec_ok. Qed.
Lemma as_fmt_collides v : 0 < v -> v < 65536 -> as_fmt (v * 65536) = as_fmt v /\ v * 65536 <> v.
Proof.
  intros H1 H2. unfold as_fmt. rewrite !land_65535, N.mod_mul by discriminate. rewrite (N.mod_small v) by exact H2. cbn [N.eqb].
  destruct (N.eqb_spec v 0); [lia|]. rewrite N.shiftr_div_pow2. change (2 ^ 16) with 65536. rewrite N.div_mul by discriminate. split; [reflexivity|lia].
Qed.

(** ** What is accepted for an IPv4 prefix *)

Lemma v4_parse_iff s p : v4_parse s = Ok p <-> exists h ps, parts (eq 47) s (h :: ps) /\ ipv4_text h (v4_addr p) /\
  match ps with
  | [] => v4_len p = 32
  | l :: _ => uint_text 8 l (v4_len p) \/ (forall v, ~ uint_text 8 l v) /\ v4_len p = 32
  end.
Proof.
  unfold v4_parse, prefix_parse.
  assert (T : forall P : text -> list text -> Prop, (exists h ps, parts (eq 47) s (h :: ps) /\ P h ps) <->
    match split_on 47 s with h :: ps => P h ps | [] => False end).
  { intros P. split.
    - intros (h & ps & X & Y). apply parts_split_on in X. now rewrite <- X.
    - destruct (split_on 47 s) as [|h ps] eqn:E; [contradiction|]. intros Y. exists h, ps. split; [|exact Y]. apply parts_split_on. now rewrite E. }
  rewrite T. destruct (split_on 47 s) as [|h [|l ps]]; cbn [length Nat.ltb Nat.leb idx nth_error bind]; [split; [discriminate|contradiction]| |].
  - split.
    + intros H. destruct (parse_ipv4 h) eqn:E; try discriminate H. cbn [bind] in H. apply parse_ipv4_iff in E.
      assert (J : forall x y : addrV4, Ok x = Ok y -> x = y) by congruence. apply J in H. subst p. split; [exact E|reflexivity].
    + intros [E H]. apply parse_ipv4_iff in E. rewrite E. cbn [bind]. destruct p; cbn in *. now subst.
  - split.
    + intros H. destruct (parse_ipv4 h) eqn:E; try discriminate H. cbn [bind] in H. apply parse_ipv4_iff in E.
      assert (J : forall x y : addrV4, Ok x = Ok y -> x = y) by congruence. apply J in H. subst p. split; [exact E|]. cbn [v4_len].
      destruct (parse_uint 8 l) as [v|e| |] eqn:U; cbn [unwrap_or].
      * left. now apply parse_uint_iff.
      * right. split; [|reflexivity]. intros v X. apply parse_uint_iff in X. congruence.
      * right. split; [|reflexivity]. intros v X. apply parse_uint_iff in X. congruence.
      * right. split; [|reflexivity]. intros v X. apply parse_uint_iff in X. congruence.
    + intros [E H]. apply parse_ipv4_iff in E. rewrite E. cbn [bind]. destruct p as [a n]; cbn [v4_addr v4_len] in *. destruct H as [H|[H ->]].
      * apply parse_uint_iff in H. rewrite H. reflexivity.
      * apply parse_uint_err in H. rewrite H. reflexivity.
Qed.
Lemma large_fmt_inj a b : large_fmt a = large_fmt b -> a = b.
Proof.
  intros E. unfold large_fmt in E. change (txt ":") with [58] in E. cbn [app] in E. apply (f_equal (split_on 58)) in E.
  assert (X : forall n, ~ In 58 (fmt_dec n)) by (intros; apply fmt_dec_not; lia).
  rewrite !split_on_app, !split_on_none in E by apply X.
  assert (Y : forall m n, fmt_dec m = fmt_dec n -> m = n).
  { intros m n H. pose proof (proj1 (fmt_dec_ok m)) as P. pose proof (proj1 (fmt_dec_ok n)) as Q. rewrite H in P. exact (numeral_fun 10 _ _ _ ltac:(discriminate) P Q). }
  assert (J : forall (x y z x' y' z' : text), [x; y; z] = [x'; y'; z'] -> x = x' /\ y = y' /\ z = z') by (intros; split; [|split]; congruence).
  apply J in E as (E1 & E2 & E3). destruct a, b; cbn in *. f_equal; auto.
Qed.
Lemma v4_any_length p l : v4_any p -> l < 256 -> v4_parse (v4_fmt (mkV4 (v4_addr p) l)) = Ok (mkV4 (v4_addr p) l).
Proof. intros [Ha _] Hl. apply v4_text_rt. now split. Qed.
Lemma mac_digits_unique s : exists ds, hex_digits s ds /\ forall ds', hex_digits s ds' -> ds' = ds.
Proof. destruct (hex_digits_total s) as [ds H]. exists ds. split; [exact H|]. intros ds' H'. eapply hex_digits_fun; eauto. Qed.
