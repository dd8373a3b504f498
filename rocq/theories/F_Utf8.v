(** The check on octets the library makes is UTF-8 as RFC 3629 defines it. *)
From Verif Require Import Base M_Cap S_Exact3.
Ltac Zify.zify_post_hook ::= idtac.

(** ** UTF-8 *)
Ltac cmps := repeat match goal with
  | |- context [?a <? ?b] => first
      [ replace (a <? b) with true by (symmetry; apply N.ltb_lt; lia)
      | replace (a <? b) with false by (symmetry; apply N.ltb_ge; lia) ]
  | |- context [?a <=? ?b] => first
      [ replace (a <=? b) with true by (symmetry; apply N.leb_le; lia)
      | replace (a <=? b) with false by (symmetry; apply N.leb_gt; lia) ]
  | |- context [?a =? ?b] => first
      [ replace (a =? b) with true by (symmetry; apply N.eqb_eq; lia)
      | replace (a =? b) with false by (symmetry; apply N.eqb_neq; lia) ]
  end; cbn [andb].

Lemma dm64 c : c = 64 * (c / 64) + c mod 64 /\ c mod 64 < 64.
Proof. split; [apply N.div_mod; discriminate|apply N.mod_lt; discriminate]. Qed.

Lemma utf8_head c l : scalar c -> utf8_ok (utf8_of c ++ l) = utf8_ok l.
Proof.
  unfold scalar, utf8_of. intros Hc.
  destruct (dm64 c) as [E0 L0]. destruct (dm64 (c / 64)) as [E1 L1].
  destruct (dm64 (c / 64 / 64)) as [E2 L2].
  set (r0 := c mod 64) in *. set (q := c / 64) in *. set (r1 := q mod 64) in *.
  set (q1 := q / 64) in *. set (r2 := q1 mod 64) in *. set (q2 := q1 / 64) in *.
  clearbody r0 q r1 q1 r2 q2.
  destruct (N.ltb_spec c 128).
  { cbn [app utf8_ok]. cmps. reflexivity. }
  destruct (N.ltb_spec c 2048).
  { cbn [app utf8_ok]. unfold cont. cmps. reflexivity. }
  destruct (N.ltb_spec c 65536).
  { cbn [app utf8_ok]. unfold cont.
    destruct (N.eq_dec q1 0) as [->|]; [cmps; reflexivity|].
    destruct (N.eq_dec q1 13) as [->|]; cmps; reflexivity. }
  cbn [app utf8_ok]. unfold cont.
  destruct (N.eq_dec q2 0) as [->|]; [cmps; reflexivity|].
  destruct (N.eq_dec q2 4) as [->|]; cmps; reflexivity.
Qed.

Lemma utf8_cons c l : scalar c -> utf8 l -> utf8 (utf8_of c ++ l).
Proof. intros Hc (cs & F & ->). exists (c :: cs). split; [now constructor|reflexivity]. Qed.

Lemma dm_unique a r : r < 64 -> (64 * a + r) / 64 = a /\ (64 * a + r) mod 64 = r.
Proof.
  intros H. split; symmetry.
  - apply (N.div_unique _ 64 a r); [exact H|reflexivity].
  - apply (N.mod_unique _ 64 a r); [exact H|reflexivity].
Qed.

Lemma utf8_of_2 a r : 2 <= a < 32 -> r < 64 -> utf8_of (64 * a + r) = [192 + a; 128 + r].
Proof.
  intros Ha Hr. unfold utf8_of. destruct (dm_unique a r Hr) as [-> ->]. cmps. reflexivity.
Qed.
Lemma utf8_of_3 a s r : s < 64 -> r < 64 -> 2048 <= 64 * (64 * a + s) + r -> a < 16 ->
  utf8_of (64 * (64 * a + s) + r) = [224 + a; 128 + s; 128 + r].
Proof.
  intros Hs Hr H Ha. unfold utf8_of. destruct (dm_unique (64 * a + s) r Hr) as [-> ->].
  destruct (dm_unique a s Hs) as [-> ->]. cmps. reflexivity.
Qed.
Lemma utf8_of_4 a t s r : t < 64 -> s < 64 -> r < 64 -> 65536 <= 64 * (64 * (64 * a + t) + s) + r ->
  utf8_of (64 * (64 * (64 * a + t) + s) + r) = [240 + a; 128 + t; 128 + s; 128 + r].
Proof.
  intros Ht Hs Hr H. unfold utf8_of. destruct (dm_unique (64 * (64 * a + t) + s) r Hr) as [-> ->].
  destruct (dm_unique (64 * a + t) s Hs) as [-> ->]. destruct (dm_unique a t Ht) as [-> ->].
  cmps. reflexivity.
Qed.

Ltac bools := repeat match goal with
  | H : (_ && _)%bool = true |- _ => apply andb_prop in H; destruct H
  | H : cont _ = true |- _ => unfold cont in H
  | H : (_ <=? _) = true |- _ => apply N.leb_le in H
  | H : (_ =? _) = true |- _ => apply N.eqb_eq in H
  | H : (_ <? _) = true |- _ => apply N.ltb_lt in H
  | H : (_ <? _) = false |- _ => apply N.ltb_ge in H
  end.

Lemma utf8_down n : forall l, (length l <= n)%nat -> utf8_ok l = true -> utf8 l.
Proof.
  induction n as [|n IH]; intros l Hl H.
  { destruct l; [|cbn in Hl; lia]. exists []. split; [constructor|reflexivity]. }
  destruct l as [|b l]; [exists []; split; [constructor|reflexivity]|].
  cbn [utf8_ok] in H. cbn [length] in Hl.
  destruct (b <? 128) eqn:E1.
  { bools. change (b :: l) with ([b] ++ l).
    replace [b] with (utf8_of b) by (unfold utf8_of; cmps; reflexivity).
    apply utf8_cons; [left; lia|apply IH; [lia|exact H]]. }
  destruct l as [|c l]; [discriminate|]. cbn [length] in Hl.
  destruct ((194 <=? b) && (b <=? 223))%bool eqn:E2.
  { bools. change (b :: c :: l) with ([b; c] ++ l).
    replace [b; c] with (utf8_of (64 * (b - 192) + (c - 128))).
    - apply utf8_cons; [left; lia|apply IH; [lia|assumption]].
    - rewrite utf8_of_2 by lia. f_equal; [lia|]. f_equal. lia. }
  destruct l as [|d l]; [discriminate|]. cbn [length] in Hl.
  assert (T3 : forall P, 224 <= b < 240 -> 128 <= c <= 191 -> 128 <= d <= 191 ->
    2048 <= 64 * (64 * (b - 224) + (c - 128)) + (d - 128) ->
    scalar (64 * (64 * (b - 224) + (c - 128)) + (d - 128)) -> utf8_ok l = true ->
    P = utf8 (b :: c :: d :: l) -> P).
  { intros P A1 A2 A3 A4 A5 A6 ->. change (b :: c :: d :: l) with ([b; c; d] ++ l).
    replace [b; c; d] with (utf8_of (64 * (64 * (b - 224) + (c - 128)) + (d - 128))).
    - apply utf8_cons; [exact A5|apply IH; [lia|exact A6]].
    - rewrite utf8_of_3 by lia. repeat f_equal; lia. }
  destruct (b =? 224) eqn:E3.
  { bools. subst b. eapply T3; try reflexivity; try assumption; try lia. left. lia. }
  destruct (b =? 237) eqn:E4.
  { bools. subst b. eapply T3; try reflexivity; try assumption; try lia. left. lia. }
  apply N.eqb_neq in E3, E4.
  destruct ((225 <=? b) && (b <=? 239))%bool eqn:E5.
  { bools. eapply T3; try reflexivity; try assumption; try lia.
    unfold scalar. destruct (N.le_gt_cases b 236); [left; lia|right; lia]. }
  clear T3.
  destruct l as [|e l]; [discriminate|]. cbn [length] in Hl.
  assert (T4 : forall P, 240 <= b -> 128 <= c <= 191 -> 128 <= d <= 191 -> 128 <= e <= 191 ->
    65536 <= 64 * (64 * (64 * (b - 240) + (c - 128)) + (d - 128)) + (e - 128) < 1114112 ->
    utf8_ok l = true ->
    P = utf8 (b :: c :: d :: e :: l) -> P).
  { intros P A1 A2 A3 A4 A5 A6 ->. change (b :: c :: d :: e :: l) with ([b; c; d; e] ++ l).
    replace [b; c; d; e] with (utf8_of (64 * (64 * (64 * (b - 240) + (c - 128)) + (d - 128)) + (e - 128))).
    - apply utf8_cons; [right; lia|apply IH; [lia|exact A6]].
    - rewrite utf8_of_4 by lia. repeat f_equal; lia. }
  destruct (b =? 240) eqn:E6.
  { bools. subst b. eapply T4; try reflexivity; try assumption; lia. }
  destruct ((241 <=? b) && (b <=? 243))%bool eqn:E7.
  { bools. eapply T4; try reflexivity; try assumption; lia. }
  destruct (b =? 244) eqn:E8; [|discriminate].
  bools. subst b. eapply T4; try reflexivity; try assumption; lia.
Qed.

Lemma utf8_exact l : utf8_ok l = true <-> utf8 l.
Proof.
  split; [apply (utf8_down (length l)); lia|].
  intros (cs & F & ->). induction F as [|c cs Hc F IH]; [reflexivity|].
  cbn [map concat]. now rewrite utf8_head.
Qed.

