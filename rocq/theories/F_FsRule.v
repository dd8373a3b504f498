(** Proofs about flow specification rules of several components. *)
From Verif Require Import Base BaseFacts M_Util S_Wire F_Util M_Prefix S_Prefix M_Nlri S_Nlri F_Nlri
  M_Vpls M_Flowspec S_Flowspec F_Flowspec M_Cap M_Open M_Session M_Addrs S_FsRule.
Ltac Zify.zify_post_hook ::= idtac.

Lemma rslice_rule n c t post : n = S (length t) ->
  rslice (fs_len_wire n ++ c :: t ++ post) (length (fs_len_wire n) + 1) (n + length (fs_len_wire n)) = Ok t.
Proof.
  intros ->. rewrite fs_slice by (rewrite ?app_length; lia). rewrite firstn_app_exact by lia. reflexivity.
Qed.
Lemma rule_split {T} (W : T -> list N) (c : flowspec T) cs post :
  exists v, fs_body W c = fs_code c :: v /\
    rule_wire W (c :: cs) ++ post = fs_len_wire (S (length (v ++ components W cs))) ++ fs_code c :: (v ++ components W cs) ++ post.
Proof.
  unfold rule_wire, components. cbn [map concat].
  assert (exists v, fs_body W c = fs_code c :: v) as (v & ->) by (destruct c; eexists; reflexivity).
  exists v. split; [reflexivity|]. cbn [length app]. now rewrite <- app_assoc.
Qed.
Lemma components_ne {T} (W : T -> list N) cs : cs <> [] -> components W cs <> [].
Proof. destruct cs as [|d cs]; [congruence|]. intros _. unfold components. cbn [map concat]. destruct d; discriminate. Qed.

(** ** prefixes *)
Lemma pfx_first {T} (it : fsitem T) wf W nm (HD : item_rd it wf W nm) c cs post : fs_wf wf c -> is_pfx c ->
  (length (components W (c :: cs)) <= 4095)%nat ->
  fs_decode it (rule_wire W (c :: cs) ++ post) =
  Ok (fs_map nm c, S (length (fs_len_wire (length (components W (c :: cs)))) + length (fs_body W c))).
Proof.
  intros Hr Hp Hb. destruct (rule_split W c cs post) as (v & Ev & ->).
  unfold components in Hb |- *. cbn [map concat] in Hb |- *. rewrite Ev in Hb |- *. cbn [app length] in Hb |- *. fold (components W cs) in Hb |- *.
  destruct c; try (exfalso; exact Hp); cbn [fs_code fs_wf fs_body fs_map] in *; injection Ev as <-; rewrite fs_dec_hdr by exact Hb;
    cbn [N.eqb Pos.eqb]; unfold fs_arm_pfx; rewrite rslice_rule by reflexivity; rewrite bind_ok, HD by exact Hr; rewrite bind_ok; do 2 f_equal; clear; lia.
Qed.

(** ** operators *)
Lemma loop_shift {T} (step : list N -> res (T * nat)) pre l : forall fuel p,
  dec_loop step fuel (pre ++ l) (length pre + p) =
  ('(v, q) <- dec_loop step fuel l p ;; Ok (v, (length pre + q)%nat)).
Proof.
  induction fuel as [|fuel IH]; intros p; [reflexivity|]. cbn [dec_loop]. rewrite app_length.
  destruct (Nat.ltb_spec p (length l)) as [H|H]; destruct (Nat.ltb_spec (length pre + p) (length pre + length l)); try lia; [|reflexivity].
  rewrite !rfrom_ok by (rewrite ?app_length; lia). rewrite !bind_ok.
  replace (skipn (length pre + p) (pre ++ l)) with (skipn p l)
    by (rewrite skipn_app, (skipn_all2 pre) by (clear; lia); cbn [app]; replace (length pre + p - length pre)%nat with p by (clear; lia); reflexivity).
  destruct (step (skipn p l)) as [[x n]| | |]; try reflexivity. rewrite !bind_ok.
  replace (length pre + p + n)%nat with (length pre + (p + n))%nat by lia. rewrite IH.
  destruct (dec_loop step fuel l (p + n)) as [[? ?]| | |]; reflexivity.
Qed.
Section Vec.
Context {U : Type} (o : fsoper U) (W : bool -> U -> list N) (ok : U -> Prop) (sk : U -> nat) (HO : oper_ok o W ok sk).
Lemma vec_dec_more v t : Forall ok v -> exists k, (S (length t) <= k)%nat /\
  vec_dec o (vec_wire W v ++ t) = ('(e, q) <- dec_loop (op_dec o) k t 0 ;; Ok (v ++ e, (length (vec_wire W v) + q)%nat)).
Proof.
  intros H. unfold vec_dec. pose proof (vec_loop _ _ _ _ HO v t H [] (S (length (vec_wire W v ++ t))) ltac:(lia)) as L.
  cbn [app length] in L. rewrite L. clear L. pose proof (length_vec _ _ _ _ HO v) as LV.
  exists (S (length (vec_wire W v ++ t)) - length v)%nat. split; [rewrite app_length; lia|].
  replace (0 + length (vec_wire W v))%nat with (length (vec_wire W v) + 0)%nat by lia. rewrite loop_shift.
  destruct (dec_loop _ _ t 0) as [[? ?]| | |]; reflexivity.
Qed.
End Vec.
Lemma fsval_adv b x n : fsval_dec b = Ok (x, n) -> (n <= length b)%nat.
Proof. intros H. destruct b as [|y b]; [discriminate H|]. destruct (oo_det _ _ _ _ val_ok _ _ _ _ _ _ H H eq_refl) as (_ & L & _). exact L. Qed.
Lemma fsmask_adv b x n : fsmask_dec b = Ok (x, n) -> (n <= length b)%nat.
Proof. intros H. destruct b as [|y b]; [discriminate H|]. destruct (oo_det _ _ _ _ mask_ok _ _ _ _ _ _ H H eq_refl) as (_ & L & _). exact L. Qed.
Lemma loop_all {U} (step : list N -> res (U * nat)) : (forall b x n, step b = Ok (x, n) -> (n <= length b)%nat) ->
  forall fuel l p v q, (p <= length l)%nat -> dec_loop step fuel l p = Ok (v, q) -> q = length l /\ ((p < length l)%nat -> v <> []).
Proof.
  intros HA. induction fuel as [|fuel IH]; intros l p v q Hp H; [discriminate|]. cbn [dec_loop] in H.
  destruct (Nat.ltb_spec p (length l)) as [HL|HL].
  - rewrite rfrom_ok in H by lia. rewrite bind_ok in H. apply bind_Ok_inv in H as ([x n] & E & H).
    apply bind_Ok_inv in H as ([v' q'] & E2 & H). injection H as <- <-. apply HA in E. rewrite skipn_length in E.
    apply IH in E2 as (-> & _); [|lia]. split; [reflexivity|discriminate].
  - injection H as <- <-. split; [lia|intros; lia].
Qed.
Lemma arm_more {T U} (o : fsoper U) WU ok sk (HO : oper_ok o WU ok sk) (HA : forall b x n, op_dec o b = Ok (x, n) -> (n <= length b)%nat)
  (wrap : list U -> flowspec T) v c t post r m : Forall ok v -> t <> [] ->
  let n := S (length (vec_wire WU v ++ t)) in
  fs_arm_vec o wrap (fs_len_wire n ++ c :: (vec_wire WU v ++ t) ++ post) (length (fs_len_wire n)) (n + length (fs_len_wire n)) = Ok (r, m) ->
  exists v', r = wrap v' /\ longer v v' /\ m = length (fs_len_wire n ++ c :: vec_wire WU v ++ t).
Proof.
  intros Hv Ht n H. unfold fs_arm_vec in H. rewrite rslice_rule in H by reflexivity. rewrite bind_ok in H.
  destruct (vec_dec_more _ _ _ _ HO v t Hv) as (k & Hk & E). rewrite E in H. clear E.
  apply bind_Ok_inv in H as ([v' q'] & E & H). injection H as <- <-.
  apply bind_Ok_inv in E as ([e q] & E & H). injection H as <- <-.
  apply (loop_all _ HA) in E as (-> & E); [|lia]. exists (v ++ e). split; [reflexivity|]. split.
  - exists e. split; [apply E; destruct t; [congruence|cbn; lia]|reflexivity].
  - rewrite !app_length. cbn [length]. rewrite app_length. lia.
Qed.
Lemma oper_first {T} (it : fsitem T) wf W c cs post r m : fs_wf wf c -> ~ is_pfx c -> cs <> [] ->
  (length (components W (c :: cs)) <= 4095)%nat ->
  fs_decode it (rule_wire W (c :: cs) ++ post) = Ok (r, m) -> extends c r /\ m = length (rule_wire W (c :: cs)).
Proof.
  intros Hr Hp Hc Hb H. pose proof (components_ne W cs Hc) as Ht.
  assert (R : rule_wire W (c :: cs) = rule_wire W (c :: cs) ++ []) by (symmetry; apply app_nil_r).
  destruct (rule_split W c cs []) as (v0 & Ev0 & E0). rewrite E0 in R. clear E0. rewrite app_nil_r in R. rewrite R in H |- *. clear R.
  unfold components in Hb. cbn [map concat] in Hb. rewrite Ev0 in Hb. cbn [app length] in Hb. fold (components W cs) in Hb.
  rewrite <- app_assoc in H. cbn [app] in H.
  destruct c; try (exfalso; apply Hp; exact I); cbn [fs_code fs_wf fs_body] in *; injection Ev0 as <-; rewrite fs_dec_hdr in H by exact Hb;
    cbn [N.eqb Pos.eqb] in H;
    first [ apply (arm_more _ _ _ _ val_ok fsval_adv) in H; [|exact Hr|exact Ht]
          | apply (arm_more _ _ _ _ mask_ok fsmask_adv) in H; [|exact Hr|exact Ht] ];
    destruct H as (v' & -> & L & ->); (split; [exact L|reflexivity]).
Qed.

(** ** a second component that is taken for alternatives of the first *)
Lemma arm_ports {T U} (o : fsoper U) WU ok sk (HO : oper_ok o WU ok sk) a b (wrap : list U -> flowspec T) v c t post : Forall ok v ->
  (forall k, (6 <= k)%nat -> dec_loop (op_dec o) k t 0 = Ok ([a; b], 5%nat)) -> length t = 5%nat ->
  let n := S (length (vec_wire WU v ++ t)) in
  fs_arm_vec o wrap (fs_len_wire n ++ c :: (vec_wire WU v ++ t) ++ post) (length (fs_len_wire n)) (n + length (fs_len_wire n)) =
  Ok (wrap (v ++ [a; b]), length (fs_len_wire n ++ c :: vec_wire WU v ++ t)).
Proof.
  intros Hv Ht L n. unfold fs_arm_vec. rewrite rslice_rule by reflexivity. rewrite bind_ok.
  destruct (vec_dec_more _ _ _ _ HO v t Hv) as (k & Hk & E). rewrite E, Ht by lia. rewrite !bind_ok.
  do 2 f_equal. rewrite !app_length. cbn [length]. rewrite app_length. lia.
Qed.
Lemma ports_val k : (6 <= k)%nat -> dec_loop (op_dec fsvalop) k [5; 1; 25; 129; 53] 0 =
  Ok ([mkFsVal false true false true 1; mkFsVal false false false true 33077], 5%nat).
Proof. intros H. do 3 (destruct k as [|k]; [lia|]). reflexivity. Qed.
Lemma ports_mask k : (6 <= k)%nat -> dec_loop (op_dec fsmaskop) k [5; 1; 25; 129; 53] 0 =
  Ok ([mkFsMask false false true 1; mkFsMask false false true 33077], 5%nat).
Proof. intros H. do 3 (destruct k as [|k]; [lia|]). reflexivity. Qed.
Lemma oper_two {T} (it : fsitem T) wf W c post : fs_wf wf c -> ~ is_pfx c -> (length (components W [c; two_ports]) <= 4095)%nat ->
  exists r, fs_decode it (rule_wire W [c; two_ports] ++ post) = Ok (r, length (rule_wire W [c; two_ports])) /\ extends c r.
Proof.
  intros Hr Hp Hb.
  enough (exists r, fs_decode it (rule_wire W [c; two_ports] ++ post) = Ok (r, length (rule_wire W [c; two_ports]))) as (r & E).
  { exists r. split; [exact E|]. eapply oper_first; try exact E; eauto. discriminate. }
  assert (R : rule_wire W [c; two_ports] = rule_wire W [c; two_ports] ++ []) by (symmetry; apply app_nil_r).
  destruct (rule_split W c [two_ports] []) as (v0 & Ev0 & E0). rewrite E0 in R. clear E0. rewrite app_nil_r in R. rewrite R. clear R.
  unfold components in Hb. cbn [map concat] in Hb. rewrite Ev0 in Hb. cbn [app length] in Hb.
  change (components W [two_ports]) with [5; 1; 25; 129; 53]. change (fs_body W two_ports ++ []) with [5; 1; 25; 129; 53] in Hb.
  rewrite <- app_assoc. cbn [app].
  destruct c; try (exfalso; apply Hp; exact I); cbn [fs_code fs_wf fs_body] in *; injection Ev0 as <-; rewrite fs_dec_hdr by exact Hb;
    cbn [N.eqb Pos.eqb]; eexists;
    first [ apply (arm_ports _ _ _ _ val_ok _ _ _ _ _ _ _ Hr ports_val eq_refl)
          | apply (arm_ports _ _ _ _ mask_ok _ _ _ _ _ _ _ Hr ports_mask eq_refl) ].
Qed.
Lemma oper_alone {T} (it : fsitem T) wf W c post : fs_wf wf c -> ~ is_pfx c -> (length (components W [c]) <= 4095)%nat ->
  fs_decode it (rule_wire W [c] ++ post) = Ok (c, length (rule_wire W [c])).
Proof.
  unfold rule_wire, components. cbn [map concat]. rewrite app_nil_r. intros Hr Hp Hb. apply (fs_decode_oper it wf W); assumption.
Qed.

(** ** a list that ends with a prefix and one more test *)
Lemma lone_wire {T} (W : T -> list N) d n : lone d n -> exists b, fs_body W d = [fs_code d; b; n] /\ 128 <= b < 240.
Proof.
  assert (G : forall a low, low < 8 -> n < 256 -> exists b, oper_wire true a low n = [b; n] /\ 128 <= b < 240).
  { intros a low Hl Hn. unfold oper_wire, size_code, size_octets. apply N.ltb_lt in Hn as Hb. rewrite Hb.
    eexists. split; [cbn [be_bytes]; change (2 ^ (8 * N.of_nat 0)) with 1; rewrite N.div_1_r, N.mod_small by exact Hn; reflexivity|]. destruct a; cbn [b2n]; clear - Hl; lia. }
  assert (GV : forall x, fv_value x = n /\ n < 256 -> exists b, val_wire true x = [b; n] /\ 128 <= b < 240).
  { intros [a l g e v] [E H]. cbn [fv_value] in E. subst v. unfold val_wire. cbn [fv_value fv_and fv_lt fv_gt fv_eq].
    apply G; [destruct l, g, e; cbn [b2n]; lia|exact H]. }
  assert (GM : forall x, fm_value x = n /\ n < 256 -> exists b, mask_wire true x = [b; n] /\ 128 <= b < 240).
  { intros [a l g v] [E H]. cbn [fm_value] in E. subst v. unfold mask_wire. cbn [fm_value fm_and fm_not fm_match].
    apply G; [destruct l, g; cbn [b2n]; lia|exact H]. }
  destruct d as [a|a|v|v|v|v|v|v|v|v|v|v|v]; cbn [lone]; try contradiction; destruct v as [|x [|y v]]; try contradiction; intros H;
    first [apply GV in H as (b & E & B)|apply GM in H as (b & E & B)]; exists b; unfold fs_body; cbn [fs_code vec_wire]; rewrite E; split; auto.
Qed.
Lemma two_left {T} (it : fsitem T) b n : 128 <= b < 240 -> fs_decode it [b; n] = if (1 <=? n) && (n <=? 13) then Panic else Err EOther.
Proof.
  intros [B1 B2]. unfold fs_decode. change (idx [b; n] 0) with (Ok b). rewrite bind_ok, land_240 by (clear - B2; lia).
  destruct (N.leb_spec 240 b) as [L|_]; [clear - L B2; lia|]. rewrite bind_ok. change (idx [b; n] 1) with (Ok n). rewrite bind_ok.
  assert (R : rslice [b; n] (1 + 1) (N.to_nat b + 1) = Panic).
  { unfold rslice. replace (Nat.leb (N.to_nat b + 1) (length [b; n])) with false; [now rewrite Bool.andb_false_r|].
    symmetry. apply Nat.leb_gt. cbn [length]. clear - B1. lia. }
  unfold fs_arm_pfx, fs_arm_vec. rewrite R. cbn [bind].
  destruct (N.leb_spec 1 n) as [H1|H1], (N.leb_spec n 13) as [H2|H2]; cbn [andb];
    [|repeat match goal with |- context[n =? ?k] => destruct (N.eqb_spec n k); [subst; exfalso; clear - H1 H2; lia|] end; reflexivity..].
  repeat match goal with |- context[n =? ?k] => destruct (N.eqb_spec n k) as [|]; [reflexivity|] end. exfalso.
  clear - H1 H2 n0 n1 n2 n3 n4 n5 n6 n7 n8 n9 n10 n11 n12. lia.
Qed.
Lemma list_end {T} (it : fsitem T) wf W nm (HD : item_rd it wf W nm) rs c d n : plain_rules wf W rs -> fs_wf wf c -> is_pfx c -> lone d n ->
  (length (components W [c; d]) <= 4095)%nat ->
  decode_bgpaddritems_from (fs_decode it) (flat_map (fs_wire W) rs ++ rule_wire W [c; d]) =
  if (1 <=? n) && (n <=? 13) then Panic else Err EOther.
Proof.
  intros Hrs Hc Hp Hd Hb. unfold decode_bgpaddritems_from.
  assert (P1 : forall x, In x rs -> (1 <= length (fs_wire W x))%nat).
  { intros x _. unfold fs_wire. rewrite app_length, fs_hdr_len. destruct (Nat.ltb _ _); clear; lia. }
  assert (LR : (length rs <= length (flat_map (fs_wire W) rs))%nat).
  { clear - P1. induction rs as [|x rs IH]; [cbn; lia|]. cbn [flat_map length]. rewrite app_length.
    pose proof (P1 x (or_introl eq_refl)). specialize (IH ltac:(intros; apply P1; now right)). lia. }
  pose proof (dec_loop_prefix (fs_decode it) (fs_wire W) (fun x => x) rs) as L. specialize (L ltac:(
    intros x rest Hx; destruct (proj1 (Forall_forall _ _) Hrs x Hx) as (A & B & C); now apply (fs_decode_oper it wf W)) P1 []).
  cbn [app length] in L. rewrite L by (rewrite app_length; clear - LR; lia). clear L.
  set (F := flat_map (fs_wire W) rs) in *. replace (0 + length F)%nat with (length F + 0)%nat by lia. rewrite loop_shift.
  destruct (S (length (F ++ rule_wire W [c; d])) - length rs)%nat as [|[|k]] eqn:EK;
    [rewrite app_length in EK; clear - EK LR; lia| |].
  { exfalso. rewrite app_length in EK. unfold rule_wire in EK. rewrite app_length, fs_hdr_len in EK. destruct (Nat.ltb _ _); clear - EK LR; lia. }
  destruct (lone_wire W d n Hd) as (b & Eb & B).
  assert (LW : length (rule_wire W [c; d]) = (length (fs_len_wire (length (components W [c; d]))) + length (fs_body W c) + 3)%nat).
  { unfold rule_wire, components. cbn [map concat]. rewrite !app_length, Eb. cbn [length]. clear. lia. }
  rewrite dec_loop_step by (rewrite LW; clear; lia). cbn [skipn].
  rewrite <- (app_nil_r (rule_wire W [c; d])) at 1. rewrite (pfx_first it wf W nm HD) by assumption. rewrite bind_ok.
  rewrite dec_loop_step by (rewrite LW; clear; lia).
  assert (K : skipn (0 + S (length (fs_len_wire (length (components W [c; d]))) + length (fs_body W c))) (rule_wire W [c; d]) = [b; n]).
  { unfold rule_wire. set (H := fs_len_wire _).
    replace (components W [c; d]) with (fs_body W c ++ [fs_code d] ++ [b; n]) by (unfold components; cbn [map concat]; now rewrite Eb, app_nil_r).
    rewrite !app_assoc. apply skipn_app_exact. rewrite !app_length. cbn [length]. clear. lia. }
  rewrite K, two_left by exact B. destruct (_ && _)%bool; reflexivity.
Qed.
Lemma list_end4 oc p rs c d n : plain_rules v4_wf fs4_wire rs -> fs_wf v4_wf c -> is_pfx c -> lone d n ->
  (length (components fs4_wire [c; d]) <= 4095)%nat ->
  addrs_decode oc p 1 133 (flat_map (fs_wire fs4_wire) rs ++ rule_wire fs4_wire [c; d]) = if (1 <=? n) && (n <=? 13) then Panic else Err EOther.
Proof.
  intros. unfold addrs_decode. cbn [N.eqb Pos.eqb]. unfold dec_wrap. rewrite (list_end (fs4 oc) _ _ _ (fs4_rd oc) rs c d n) by assumption.
  destruct (_ && _)%bool; reflexivity.
Qed.
Lemma list_end6 oc p rs c d n : plain_rules fs6_wf fs6_wire rs -> fs_wf fs6_wf c -> is_pfx c -> lone d n ->
  (length (components fs6_wire [c; d]) <= 4095)%nat ->
  addrs_decode oc p 2 133 (flat_map (fs_wire fs6_wire) rs ++ rule_wire fs6_wire [c; d]) = if (1 <=? n) && (n <=? 13) then Panic else Err EOther.
Proof.
  intros. unfold addrs_decode. cbn [N.eqb Pos.eqb]. unfold dec_wrap. rewrite (list_end (fs6i oc) _ _ _ (fs6_rd oc) rs c d n) by assumption.
  destruct (_ && _)%bool; reflexivity.
Qed.
