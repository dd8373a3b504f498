(** Proofs that what is received satisfies the conditions of C120. *)
From Verif Require Import Base BaseFacts M_Util M_Cap M_Open M_Bmp S_Exact3 F_Utf8 F_Exact7 S_Debug2.
Ltac Zify.zify_post_hook ::= idtac.

Lemma from_utf8_utf8 l s : from_utf8 l = Ok s -> utf8 s.
Proof. unfold from_utf8. destruct (utf8_ok l) eqn:U; intros E; [|discriminate]. apply utf8_exact. congruence. Qed.
Lemma infoval_utf8 b t s n : infoval_decode b = Ok (t, s, n) -> utf8 s.
Proof.
  unfold infoval_decode. destruct (Nat.ltb _ _); [discriminate|]. intros E. apply bind_Ok_inv in E as (tp & _ & E). apply bind_Ok_inv in E as (x & _ & E). apply bind_Ok_inv in E as (ln & _ & E).
  cbv zeta in E. destruct (Nat.ltb _ _); [discriminate|]. apply bind_Ok_inv in E as (y & _ & E). apply bind_Ok_inv in E as (i & U & E). apply from_utf8_utf8 in U. congruence.
Qed.
Lemma init_loop_any f : forall b p m r n, init_any m -> init_loop f b p m = Ok (r, n) -> init_any r.
Proof.
  induction f as [|f IH]; intros b p m r n A E; [discriminate|]. cbn [init_loop] in E. destruct (Nat.ltb p (length b)); [|congruence].
  apply bind_Ok_inv in E as (s & _ & E). apply bind_Ok_inv in E as (((t & i) & k) & D & E). apply infoval_utf8 in D. apply IH in E; [exact E|].
  destruct A as (A1 & A2 & A3). destruct (t =? 0); [|destruct (t =? 1); [|destruct (t =? 2)]]; repeat split; assumption.
Qed.
Lemma init_any_decoded b m n : init_decode b = Ok (m, n) -> init_any m.
Proof. apply init_loop_any. repeat split. Qed.
Lemma term_loop_any f : forall b p m r n, term_any m -> term_loop f b p m = Ok (r, n) -> term_any r.
Proof.
  induction f as [|f IH]; intros b p m r n A E; [discriminate|]. cbn [term_loop] in E. destruct (Nat.leb 4 (length b - p)); [|congruence].
  apply bind_Ok_inv in E as (s & _ & E). apply bind_Ok_inv in E as (t & _ & E). apply bind_Ok_inv in E as (s' & _ & E). apply bind_Ok_inv in E as (l & _ & E). cbv zeta in E.
  destruct (Nat.ltb _ _); [discriminate|]. apply bind_Ok_inv in E as (m' & D & E). apply IH in E; [exact E|]. destruct (t =? 0); [|destruct (t =? 1)].
  - apply bind_Ok_inv in D as (x & _ & D). apply bind_Ok_inv in D as (y & U & D). apply from_utf8_utf8 in U. assert (m' = mkTerm (Some y) (tm_reason m)) as -> by congruence. exact U.
  - apply bind_Ok_inv in D as (x & _ & D). apply bind_Ok_inv in D as (y & U & D). assert (m' = mkTerm (tm_str m) (Some y)) as -> by congruence. exact A.
  - assert (m' = m) as -> by congruence. exact A.
Qed.
Lemma term_any_decoded b m n : term_decode b = Ok (m, n) -> term_any m.
Proof. now apply term_loop_any. Qed.
Lemma caps_any b v : caps_read b v -> Forall cap_any v.
Proof.
  induction 1 as [|code d c b v L R C IH|code d b v L R C IH]; [constructor| |exact IH]. constructor; [|exact IH].
  destruct c; try exact I. destruct R as (_ & U & -> & _). split; [exact U|]. exists []. split; [constructor|reflexivity].
Qed.
Lemma params_caps_any b v : params_read b v -> Forall cap_any v.
Proof. induction 1 as [|p b v w L R P IH]; [constructor|]. apply Forall_app. split; [now apply caps_any in R|exact IH]. Qed.
Lemma open_any_decoded self b m : bytes_ok b -> open_decode self b = Ok m -> open_any m.
Proof. intros B E. apply (open_exact self b m B) in E. destruct E as (_ & _ & R & ol & p & _ & P). split; [exact R|]. now apply params_caps_any in P. Qed.
