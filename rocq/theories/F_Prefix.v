(** Proofs about prefixes. *)
From Verif Require Import Base BaseFacts M_Util F_Util M_Prefix S_Prefix.
From Coq Require Import ZArith ZifyBool ZifyNat ZifyN.
(* [lia] without division equations: the certificates stay small for coqchk *)
Ltac Zify.zify_post_hook ::= idtac.

Lemma testbit_above a w i : a < 2 ^ w -> w <= i -> N.testbit a i = false.
Proof. intros H Hi. rewrite <- (N.mod_small a (2 ^ w)) by auto. now apply N.mod_pow2_bits_high. Qed.

Lemma agree_div w p a b : a < 2 ^ w -> b < 2 ^ w -> p <= w ->
  (agree w p a b <-> a / 2 ^ (w - p) = b / 2 ^ (w - p)).
Proof.
  intros Ha Hb Hp. split.
  - intros H. apply N.bits_inj. intros i. rewrite !N.div_pow2_bits.
    destruct (N.lt_ge_cases (i + (w - p)) w) as [Hi|Hi].
    + apply H; lia.
    + now rewrite !(testbit_above _ w).
  - intros H i Hi Hw. replace i with ((i - (w - p)) + (w - p)) by lia.
    rewrite <- !N.div_pow2_bits. now rewrite H.
Qed.

Lemma normalised_mod w p a : p <= w -> (normalised w p a <-> a mod 2 ^ (w - p) = 0).
Proof.
  intros Hp. split.
  - intros H. apply N.bits_inj. intros i. rewrite N.bits_0.
    destruct (N.lt_ge_cases i (w - p)).
    + rewrite N.mod_pow2_bits_low by auto. now apply H.
    + now apply N.mod_pow2_bits_high.
  - intros H i Hi. rewrite <- (N.mod_pow2_bits_low a (w - p)) by auto. now rewrite H, N.bits_0.
Qed.

Lemma mask_clear w k a : a < 2 ^ w -> k <= w ->
  N.land a (N.lxor (2 ^ k - 1) (2 ^ w - 1)) = a / 2 ^ k * 2 ^ k.
Proof.
  intros Ha Hk. rewrite <- !N.pred_sub, <- !N.ones_equiv.
  rewrite <- N.shiftr_div_pow2, <- N.shiftl_mul_pow2.
  apply N.bits_inj. intros i. rewrite N.land_spec, N.lxor_spec.
  destruct (N.lt_ge_cases i k) as [Hi|Hi].
  - rewrite N.shiftl_spec_low by auto. rewrite !N.ones_spec_low by lia. cbn. apply andb_false_r.
  - rewrite N.shiftl_spec_high' by auto. rewrite N.shiftr_spec'.
    replace (i - k + k) with i by lia. rewrite (N.ones_spec_high k) by auto.
    destruct (N.lt_ge_cases i w) as [Hw|Hw].
    + rewrite N.ones_spec_low by auto. cbn. apply andb_true_r.
    + rewrite (testbit_above a w) by auto. reflexivity.
Qed.

Lemma interval_div k a v :
  (a / 2 ^ k * 2 ^ k <= v /\ v <= a / 2 ^ k * 2 ^ k + (2 ^ k - 1)) <-> a / 2 ^ k = v / 2 ^ k.
Proof.
  pose proof (pow2_nz k) as Hk. set (m := 2 ^ k) in *. set (q := a / m). clearbody m q.
  split.
  - intros [H1 H2]. assert (E : v = m * q + (v - m * q)) by nia.
    apply (N.div_unique v m q (v - m * q)); nia.
  - intros ->. pose proof (N.div_mod v m Hk). pose proof (N.mod_lt v m Hk). nia.
Qed.

Lemma div_mul_le k a : a / 2 ^ k * 2 ^ k <= a.
Proof. pose proof (N.div_mod a (2 ^ k) (pow2_nz k)). lia. Qed.

Lemma top_bound w k a : a < 2 ^ w -> k <= w -> a / 2 ^ k * 2 ^ k + (2 ^ k - 1) < 2 ^ w.
Proof.
  intros Ha Hk. replace w with ((w - k) + k) in * by lia. rewrite N.pow_add_r in *.
  pose proof (pow2_nz k). assert (a / 2 ^ k < 2 ^ (w - k)) by (apply N.div_lt_upper_bound; lia).
  replace (w - k + k - k) with (w - k) in * by lia.
  set (q := a / 2 ^ k) in *. set (m := 2 ^ k) in *. set (n := 2 ^ (w - k)) in *. clearbody q m n. nia.
Qed.

(** ** IPv4 *)
Lemma v4_hostsize_ok oc p : 1 <= p -> p <= 32 -> v4_hostsize oc p = Ok (2 ^ (32 - p)).
Proof.
  intros. unfold v4_hostsize. rewrite usub_ok by auto. cbn [bind].
  rewrite ushl_ok by lia. rewrite N.shiftl_1_l.
  rewrite N.mod_small; auto. apply N.pow_lt_mono_r; lia.
Qed.

Lemma pow2_ge1 k : 1 <= 2 ^ k.
Proof. pose proof (pow2_nz k). lia. Qed.

Lemma getn_u32_octets a : a < 2 ^ 32 -> getn_u32 (octets4 a) = Ok a.
Proof. intros. unfold octets4. rewrite <- (app_nil_r (be_bytes 4 a)). now apply getn_u32_be. Qed.
Lemma getn_u128_octets a : a < 2 ^ 128 -> getn_u128 (octets16 a) = Ok a.
Proof. intros. now apply getn_u128_be. Qed.

Lemma v4_norm_ok oc p : v4_wf p -> 1 <= v4_len p ->
  v4_norm_subnet oc p = Ok (v4_addr p / 2 ^ (32 - v4_len p) * 2 ^ (32 - v4_len p)).
Proof.
  intros [Ha Hl] H1. unfold v4_norm_subnet.
  rewrite getn_u32_octets by auto. cbn [bind]. rewrite v4_hostsize_ok by auto. cbn [bind].
  rewrite usub_ok by apply pow2_ge1. cbn [bind].
  f_equal. apply (mask_clear 32); auto. lia.
Qed.

Lemma v4_in_subnet_ok oc p a : v4_wf p -> a < 2 ^ 32 ->
  exists b, v4_in_subnet oc p a = Ok b /\ (b = true <-> agree 32 (v4_len p) (v4_addr p) a).
Proof.
  intros Hwf Ha. pose proof Hwf as [Hpa Hpl]. unfold v4_in_subnet.
  pose proof (agree_div 32 (v4_len p) (v4_addr p) a Hpa Ha Hpl) as AD. setoid_rewrite AD. clear AD.
  destruct (v4_len p =? 0) eqn:E0; [apply N.eqb_eq in E0|apply N.eqb_neq in E0].
  { eexists; split; [reflexivity|]. rewrite E0. change (32 - 0) with 32.
    rewrite !N.div_small by auto. tauto. }
  destruct (31 <? v4_len p) eqn:E1; [apply N.ltb_lt in E1|apply N.ltb_ge in E1].
  { rewrite !getn_u32_octets by auto. cbn [bind]. eexists; split; [reflexivity|].
    replace (v4_len p) with 32 by lia. change (2 ^ (32 - 32)) with 1. rewrite !N.div_1_r. apply N.eqb_eq. }
  rewrite v4_norm_ok by (auto; lia). cbn [bind]. rewrite v4_hostsize_ok by lia. cbn [bind].
  rewrite usub_ok by apply pow2_ge1. cbn [bind].
  rewrite uadd_ok by (apply top_bound; auto; lia). cbn [bind].
  rewrite getn_u32_octets by auto. cbn [bind].
  eexists; split; [reflexivity|].
  rewrite andb_true_iff, !N.leb_le. apply interval_div.
Qed.

Lemma v4_of_u32_id a : a < 2 ^ 32 -> v4_of_u32 a = a.
Proof.
  intros H. unfold v4_of_u32, ip4_new. rewrite land_255. unfold cast.
  rewrite !N.shiftr_div_pow2. rewrite be_val_4.
  change (2 ^ 8) with 256. change (2 ^ 16) with 65536. change (2 ^ 24) with 16777216.
  change (2 ^ 32) with 4294967296 in H.
  replace (a / 16777216) with (a / 256 / 256 / 256) by (rewrite !N.div_div by lia; reflexivity).
  replace (a / 65536) with (a / 256 / 256) by (rewrite !N.div_div by lia; reflexivity).
  lia.
Qed.

Lemma v4_range_first_ok oc p : v4_wf p -> 1 <= v4_len p ->
  v4_range_first oc p = Ok (v4_addr p / 2 ^ (32 - v4_len p) * 2 ^ (32 - v4_len p)).
Proof.
  intros Hwf H1. unfold v4_range_first. rewrite v4_norm_ok by auto. cbn [bind].
  rewrite v4_of_u32_id; auto. eapply N.le_lt_trans; [apply div_mul_le|apply Hwf].
Qed.
Lemma v4_range_last_ok oc p : v4_wf p ->
  v4_range_last oc p = Ok (v4_addr p / 2 ^ (32 - v4_len p) * 2 ^ (32 - v4_len p) + (2 ^ (32 - v4_len p) - 1)).
Proof.
  intros Hwf. pose proof Hwf as [Ha Hl]. unfold v4_range_last.
  destruct (v4_len p <? 1) eqn:E0; [apply N.ltb_lt in E0|apply N.ltb_ge in E0].
  { replace (v4_len p) with 0 by lia. change (32 - 0) with 32. rewrite N.div_small by auto. reflexivity. }
  destruct (31 <? v4_len p) eqn:E1; [apply N.ltb_lt in E1|apply N.ltb_ge in E1].
  { rewrite v4_range_first_ok by auto. replace (v4_len p) with 32 by lia. change (2 ^ (32 - 32)) with 1. f_equal. lia. }
  rewrite v4_norm_ok by (auto; lia). cbn [bind]. rewrite v4_hostsize_ok by lia. cbn [bind].
  rewrite usub_ok by apply pow2_ge1. cbn [bind].
  rewrite uadd_ok by (apply top_bound; auto; lia). cbn [bind].
  f_equal. apply v4_of_u32_id. apply top_bound; auto; lia.
Qed.

(** ** Generic consequences: least and greatest member *)
Lemma first_least w p a : a < 2 ^ w -> p <= w ->
  let f := a / 2 ^ (w - p) * 2 ^ (w - p) in
  member w p a f /\ forall x, member w p a x -> f <= x.
Proof.
  intros Ha Hp f. assert (Hf : f < 2 ^ w) by (eapply N.le_lt_trans; [apply div_mul_le|auto]).
  split.
  - split; auto. apply agree_div; auto. apply interval_div. split; [apply N.le_refl|]. unfold f. lia.
  - intros x [Hx Hax]. apply agree_div in Hax; auto. apply interval_div in Hax. apply Hax.
Qed.
Lemma last_greatest w p a : a < 2 ^ w -> p <= w ->
  let l := a / 2 ^ (w - p) * 2 ^ (w - p) + (2 ^ (w - p) - 1) in
  member w p a l /\ forall x, member w p a x -> x <= l.
Proof.
  intros Ha Hp l. assert (Hl : l < 2 ^ w) by (apply top_bound; auto; lia).
  split.
  - split; auto. apply agree_div; auto. apply interval_div. split; [|apply N.le_refl]. unfold l. lia.
  - intros x [Hx Hax]. apply agree_div in Hax; auto. apply interval_div in Hax. apply Hax.
Qed.

Lemma div_pow_coarser a b j k : j <= k -> a / 2 ^ j = b / 2 ^ j -> a / 2 ^ k = b / 2 ^ k.
Proof.
  intros Hjk H. replace k with (j + (k - j)) by lia. rewrite N.pow_add_r.
  rewrite <- !N.div_div by apply pow2_nz. now rewrite H.
Qed.

(** inclusion when the inner prefix is at least as long *)
Lemma covers_iff w ps s pa a : s < 2 ^ w -> a < 2 ^ w -> ps <= pa -> pa <= w ->
  (covers w ps s pa a <-> s / 2 ^ (w - ps) = a / 2 ^ (w - ps)).
Proof.
  intros Hs Ha Hle Hw. split.
  - intros H. destruct (H a) as [_ Hag].
    + split; auto. intros i _ _. reflexivity.
    + apply agree_div in Hag; auto. lia.
  - intros H x [Hx Hax]. split; auto. apply agree_div; auto; [lia|].
    apply agree_div in Hax; auto. rewrite H. apply (div_pow_coarser _ _ (w - pa)); auto. clear - Hle. lia.
Qed.
(** a longer prefix never covers a strictly shorter one *)
Lemma covers_shorter w ps s pa a : s < 2 ^ w -> a < 2 ^ w -> pa < ps -> ps <= w ->
  ~ covers w ps s pa a.
Proof.
  intros Hs Ha Hlt Hw H.
  destruct (first_least w pa a) as [Hf _]; auto; [lia|]. destruct (last_greatest w pa a) as [Hl _]; auto; [lia|].
  apply H in Hf. apply H in Hl. destruct Hf as [Hf1 Hf], Hl as [Hl1 Hl].
  apply agree_div in Hf; auto. apply agree_div in Hl; auto.
  apply interval_div in Hf. apply interval_div in Hl.
  assert (2 ^ (w - ps) < 2 ^ (w - pa)) by (apply N.pow_lt_mono_r; lia).
  pose proof (pow2_nz (w - ps)). lia.
Qed.

Lemma v4_contains_eval oc p a : v4_wf p -> v4_wf a ->
  v4_contains oc p a = Ok (
    if v4_len p <? 1 then true
    else if v4_len a <? v4_len p then false
    else if v4_len p =? v4_len a then v4_addr p =? v4_addr a
    else v4_addr p / 2 ^ (32 - v4_len p) =? v4_addr a / 2 ^ (32 - v4_len p)).
Proof.
  intros Hp Ha. pose proof Hp as [Hpa Hpl]. pose proof Ha as [Haa Hal]. unfold v4_contains.
  destruct (v4_len p <? 1) eqn:E0; [reflexivity|]. apply N.ltb_ge in E0.
  destruct (v4_len a <? v4_len p) eqn:E1; [reflexivity|]. apply N.ltb_ge in E1.
  destruct (v4_len p =? v4_len a) eqn:E2; [reflexivity|]. apply N.eqb_neq in E2.
  rewrite v4_range_first_ok by (auto; lia). cbn [bind].
  destruct (first_least 32 (v4_len a) (v4_addr a)) as [[Hf1 Hf2] _]; auto.
  set (f := v4_addr a / 2 ^ (32 - v4_len a) * 2 ^ (32 - v4_len a)) in *.
  destruct (v4_in_subnet_ok oc p f) as (b1 & -> & Hb1); auto. cbn [bind].
  rewrite v4_range_last_ok by auto. fold f. cbn [bind].
  destruct (last_greatest 32 (v4_len a) (v4_addr a)) as [[Hl1 Hl2] _]; auto. fold f in Hl1, Hl2.
  set (l := f + (2 ^ (32 - v4_len a) - 1)) in *.
  destruct (v4_in_subnet_ok oc p l) as (b2 & -> & Hb2); auto.
  assert (Hjk : 32 - v4_len a <= 32 - v4_len p) by (clear - E1; lia).
  clearbody l f.
  rewrite agree_div in Hb1, Hb2, Hf2, Hl2 by auto.
  pose proof (div_pow_coarser (v4_addr a) f (32 - v4_len a) (32 - v4_len p) Hjk Hf2) as Hf2'; clear Hf2; rename Hf2' into Hf2.
  pose proof (div_pow_coarser (v4_addr a) l (32 - v4_len a) (32 - v4_len p) Hjk Hl2) as Hl2'; clear Hl2; rename Hl2' into Hl2.
  rewrite <- Hf2 in Hb1. rewrite <- Hl2 in Hb2.
  destruct (N.eqb_spec (v4_addr p / 2 ^ (32 - v4_len p)) (v4_addr a / 2 ^ (32 - v4_len p))) as [E|E].
  - apply Hb1 in E as E'. apply Hb2 in E as E''. now rewrite E', E''.
  - destruct b1; [|reflexivity]. now destruct E; apply Hb1.
Qed.

(** ** IPv6 *)
Lemma v6_hostsize_ok oc p : 1 <= p -> p <= 128 -> v6_hostsize oc p = Ok (2 ^ (128 - p)).
Proof.
  intros. unfold v6_hostsize. rewrite usub_ok by auto. cbn [bind].
  rewrite ushl_ok by lia. rewrite N.shiftl_1_l.
  rewrite N.mod_small; auto. apply N.pow_lt_mono_r; lia.
Qed.
Lemma v6_masked_ok oc p a : a < 2 ^ 128 -> 1 <= p -> p <= 128 ->
  v6_masked oc p a = Ok (a / 2 ^ (128 - p) * 2 ^ (128 - p)).
Proof.
  intros Ha H1 Hl. unfold v6_masked.
  rewrite getn_u128_octets by auto. cbn [bind]. rewrite v6_hostsize_ok by auto. cbn [bind].
  rewrite usub_ok by apply pow2_ge1. cbn [bind].
  f_equal. apply (mask_clear 128); auto. lia.
Qed.
Lemma v6_norm_ok oc p : v6_wf p -> 1 <= v6_len p ->
  v6_norm_subnet oc p = Ok (v6_addr p / 2 ^ (128 - v6_len p) * 2 ^ (128 - v6_len p)).
Proof. intros [Ha Hl] H1. apply (v6_masked_ok oc (v6_len p) (v6_addr p)); auto. Qed.

(** host part of [a] under a prefix of length [p] is all ones *)
Definition last_in (w p a : N) : Prop := a mod 2 ^ (w - p) = 2 ^ (w - p) - 1.

Lemma v6_in_subnet_ok oc p a : v6_wf p -> 1 <= v6_len p -> a < 2 ^ 128 ->
  exists b, v6_in_subnet oc p a = Ok b /\
    (b = true <-> agree 128 (v6_len p) (v6_addr p) a /\ (v6_len p = 128 \/ ~ last_in 128 (v6_len p) a)).
Proof.
  intros Hwf H1 Ha. pose proof Hwf as [Hpa Hpl]. unfold v6_in_subnet.
  pose proof (agree_div 128 (v6_len p) (v6_addr p) a Hpa Ha Hpl) as AD. setoid_rewrite AD. clear AD.
  destruct (127 <? v6_len p) eqn:E1; [apply N.ltb_lt in E1|apply N.ltb_ge in E1].
  { rewrite !getn_u128_octets by auto. cbn [bind]. eexists; split; [reflexivity|].
    replace (v6_len p) with 128 by lia. change (2 ^ (128 - 128)) with 1. rewrite !N.div_1_r, N.eqb_eq. tauto. }
  rewrite v6_norm_ok by (auto; lia). cbn [bind]. rewrite v6_hostsize_ok by lia. cbn [bind].
  rewrite usub_ok by apply pow2_ge1. cbn [bind].
  rewrite uadd_ok by (apply top_bound; auto; lia). cbn [bind].
  rewrite getn_u128_octets by auto. cbn [bind].
  eexists; split; [reflexivity|].
  rewrite andb_true_iff, N.leb_le, N.ltb_lt. rewrite <- interval_div. unfold last_in.
  set (k := 128 - v6_len p). pose proof (pow2_nz k) as Hk.
  pose proof (interval_div k (v6_addr p) a) as Hi.
  pose proof (N.div_mod a (2 ^ k) Hk) as Hdm. pose proof (N.mod_lt a (2 ^ k) Hk) as Hlt.
  set (m := 2 ^ k) in *. set (q := v6_addr p / m) in *. set (qa := a / m) in *. set (r := a mod m) in *.
  split.
  - intros [Hlo Hhi]. assert (Hq : q = qa) by (apply Hi; lia). split; [lia|]. right. nia.
  - intros [[Hlo Hhi] [H|H]]; [lia|]. assert (Hq : q = qa) by (apply Hi; lia). split; [lia|]. nia.
Qed.

Lemma v6_of_u128_id a : a < 2 ^ 128 -> v6_of_u128 a = a.
Proof.
  intros H. unfold v6_of_u128, ip6_new. rewrite land_65535. unfold cast.
  rewrite !N.shiftr_div_pow2. cbn [fold_left].
  change (2 ^ 16) with 65536.
  assert (D : forall k, a / 2 ^ (16 + k) = a / 2 ^ k / 65536)
    by (intros k; rewrite N.div_div by (try apply pow2_nz; lia); f_equal; rewrite N.add_comm, N.pow_add_r; reflexivity).
  pose proof (D 96) as D1. pose proof (D 80) as D2. pose proof (D 64) as D3.
  pose proof (D 48) as D4. pose proof (D 32) as D5. pose proof (D 16) as D6.
  change (16 + 96) with 112 in D1. change (16 + 80) with 96 in D2. change (16 + 64) with 80 in D3.
  change (16 + 48) with 64 in D4. change (16 + 32) with 48 in D5. change (16 + 16) with 32 in D6.
  rewrite D1, D2, D3, D4, D5, D6. clear D1 D2 D3 D4 D5 D6.
  change (2 ^ 16) with 65536.
  assert (T : a / 65536 / 65536 / 65536 / 65536 / 65536 / 65536 / 65536 / 65536 = 0).
  { rewrite !N.div_div by lia. apply N.div_small. exact H. }
  set (a1 := a / 65536) in *. set (a2 := a1 / 65536) in *. set (a3 := a2 / 65536) in *.
  set (a4 := a3 / 65536) in *. set (a5 := a4 / 65536) in *. set (a6 := a5 / 65536) in *. set (a7 := a6 / 65536) in *.
  pose proof (N.div_mod a 65536 ltac:(lia)). pose proof (N.div_mod a1 65536 ltac:(lia)).
  pose proof (N.div_mod a2 65536 ltac:(lia)). pose proof (N.div_mod a3 65536 ltac:(lia)).
  pose proof (N.div_mod a4 65536 ltac:(lia)). pose proof (N.div_mod a5 65536 ltac:(lia)).
  pose proof (N.div_mod a6 65536 ltac:(lia)). pose proof (N.div_mod a7 65536 ltac:(lia)).
  rewrite (N.mod_mod a) by lia.
  fold a1 in H0. fold a2 in H1. fold a3 in H2. fold a4 in H3. fold a5 in H4. fold a6 in H5. fold a7 in H6.
  rewrite T in H7. clear T H D. clearbody a7 a6 a5 a4 a3 a2 a1.
  generalize dependent (a mod 65536). generalize dependent (a1 mod 65536). generalize dependent (a2 mod 65536).
  generalize dependent (a3 mod 65536). generalize dependent (a4 mod 65536). generalize dependent (a5 mod 65536).
  generalize dependent (a6 mod 65536). generalize dependent (a7 mod 65536).
  intros. lia.
Qed.

Lemma v6_range_first_ok oc p : v6_wf p -> 1 <= v6_len p ->
  v6_range_first oc p = Ok (v6_addr p / 2 ^ (128 - v6_len p) * 2 ^ (128 - v6_len p)).
Proof.
  intros Hwf H1. unfold v6_range_first. rewrite v6_norm_ok by auto. cbn [bind].
  rewrite v6_of_u128_id; auto. eapply N.le_lt_trans; [apply div_mul_le|apply Hwf].
Qed.
Lemma v6_range_last_ok oc p : v6_wf p ->
  v6_range_last oc p = Ok (v6_addr p / 2 ^ (128 - v6_len p) * 2 ^ (128 - v6_len p) + (2 ^ (128 - v6_len p) - 1)).
Proof.
  intros Hwf. pose proof Hwf as [Ha Hl]. unfold v6_range_last.
  destruct (v6_len p <? 1) eqn:E0; [apply N.ltb_lt in E0|apply N.ltb_ge in E0].
  { replace (v6_len p) with 0 by lia. change (128 - 0) with 128. rewrite N.div_small by auto. reflexivity. }
  destruct (127 <? v6_len p) eqn:E1; [apply N.ltb_lt in E1|apply N.ltb_ge in E1].
  { rewrite v6_range_first_ok by auto. replace (v6_len p) with 128 by lia. change (2 ^ (128 - 128)) with 1. f_equal. lia. }
  rewrite v6_norm_ok by (auto; lia). cbn [bind]. rewrite v6_hostsize_ok by lia. cbn [bind].
  rewrite usub_ok by apply pow2_ge1. cbn [bind].
  rewrite uadd_ok by (apply top_bound; auto; lia). cbn [bind].
  f_equal. apply v6_of_u128_id. apply top_bound; auto; lia.
Qed.

Lemma mul_div_eqb x y k : (x / 2 ^ k * 2 ^ k =? y / 2 ^ k * 2 ^ k) = (x / 2 ^ k =? y / 2 ^ k).
Proof.
  pose proof (pow2_nz k). set (m := 2 ^ k) in *. clearbody m.
  destruct (N.eqb_spec (x / m) (y / m)) as [->|E]; [apply N.eqb_refl|].
  apply N.eqb_neq. intros E'. apply E. apply N.mul_cancel_r in E'; auto.
Qed.

Lemma v6_contains_eval oc p a : v6_wf p -> v6_wf a ->
  v6_contains oc p a = Ok (
    if v6_len p <? 1 then true
    else if v6_len a <? v6_len p then false
    else if v6_len p =? v6_len a then v6_addr p =? v6_addr a
    else v6_addr p / 2 ^ (128 - v6_len p) =? v6_addr a / 2 ^ (128 - v6_len p)).
Proof.
  intros Hp Ha. pose proof Hp as [Hpa Hpl]. pose proof Ha as [Haa Hal]. unfold v6_contains.
  destruct (v6_len p <? 1) eqn:E0; [reflexivity|]. apply N.ltb_ge in E0.
  destruct (v6_len a <? v6_len p) eqn:E1; [reflexivity|].
  destruct (v6_len p =? v6_len a) eqn:E2; [reflexivity|].
  rewrite !v6_masked_ok by auto. cbn [bind]. now rewrite mul_div_eqb.
Qed.

(** ** MAC *)
Lemma mac_to_u64_val m : mac_wf m -> mac_to_u64 m = mac_val m.
Proof.
  intros [Hl B]. destruct m as [|m0 [|m1 [|m2 [|m3 [|m4 [|m5 [|? ?]]]]]]]; try discriminate Hl.
  inv_bytes. unfold mac_to_u64, mac_val. cbn [nth rev app]. unfold be_val. cbn [fold_left].
  rewrite !N.shiftl_mul_pow2.
  change (2 ^ 40) with 1099511627776. change (2 ^ 32) with 4294967296.
  change (2 ^ 24) with 16777216. change (2 ^ 16) with 65536. change (2 ^ 8) with 256.
  rewrite (lor_disj 40 (m5 * 1099511627776) (m4 * 4294967296)) by (change (2 ^ 40) with 1099511627776; lia).
  rewrite (lor_disj 32 _ (m3 * 16777216)) by (change (2 ^ 32) with 4294967296; lia).
  rewrite (lor_disj 24 _ (m2 * 65536)) by (change (2 ^ 24) with 16777216; lia).
  rewrite (lor_disj 16 _ (m1 * 256)) by (change (2 ^ 16) with 65536; lia).
  rewrite (lor_disj 8) by (change (2 ^ 8) with 256; lia). lia.
Qed.
Lemma mac_val_bound m : mac_wf m -> mac_val m < 2 ^ 48.
Proof.
  intros [Hl B]. unfold mac_val. assert (B' : bytes_ok (rev m)) by now apply Forall_rev.
  pose proof (be_val_bound _ B') as H. rewrite rev_length, Hl in H. exact H.
Qed.
Lemma mac_from_u64_be s : mac_from_u64 s = rev (be_bytes 6 s).
Proof.
  unfold mac_from_u64. rewrite !land_255, !N.shiftr_div_pow2. cbn [be_bytes rev app].
  cbn [N.of_nat N.mul Pos.of_succ_nat Pos.succ Pos.mul]. rewrite (N.pow_0_r 2), N.div_1_r. reflexivity.
Qed.
Lemma mac_from_u64_wf s : mac_wf (mac_from_u64 s).
Proof.
  rewrite mac_from_u64_be. split; [now rewrite rev_length, length_be_bytes|].
  apply Forall_rev, be_bytes_ok.
Qed.
Lemma mac_val_from_u64 s : s < 2 ^ 48 -> mac_val (mac_from_u64 s) = s.
Proof. intros. rewrite mac_from_u64_be. unfold mac_val. rewrite rev_involutive. now apply be_val_be_bytes. Qed.
Lemma mac_from_u64_val m : mac_wf m -> mac_from_u64 (mac_val m) = m.
Proof.
  intros [Hl B]. rewrite mac_from_u64_be. unfold mac_val.
  replace 6%nat with (length (rev m)) by (now rewrite rev_length).
  rewrite be_bytes_be_val by now apply Forall_rev. apply rev_involutive.
Qed.
Lemma mac_val_inj m n : mac_wf m -> mac_wf n -> mac_val m = mac_val n -> m = n.
Proof. intros Hm Hn H. rewrite <- (mac_from_u64_val m), <- (mac_from_u64_val n) by auto. now rewrite H. Qed.

Lemma mac_hostsize_ok oc p : p <= 48 -> mac_hostsize oc p = Ok (2 ^ (48 - p)).
Proof.
  intros. unfold mac_hostsize. rewrite usub_ok by auto. cbn [bind].
  rewrite ushl_ok by lia. rewrite N.shiftl_1_l.
  rewrite N.mod_small; auto. apply N.pow_lt_mono_r; lia.
Qed.
Lemma mac_norm_ok oc p : macp_wf p ->
  mac_norm_subnet oc p = Ok (mac_val (mc_addr p) / 2 ^ (48 - mc_len p) * 2 ^ (48 - mc_len p)).
Proof.
  intros [Ha Hl]. unfold mac_norm_subnet. rewrite mac_hostsize_ok by auto. cbn [bind].
  rewrite usub_ok by apply pow2_ge1. cbn [bind]. rewrite mac_to_u64_val by auto.
  f_equal. apply (mask_clear 48); [now apply mac_val_bound|lia].
Qed.
Lemma mac_in_subnet_ok oc p a : macp_wf p -> mac_wf a ->
  exists b, mac_in_subnet oc p a = Ok b /\
    (b = true <-> agree 48 (mc_len p) (mac_val (mc_addr p)) (mac_val a)).
Proof.
  intros Hwf Ha. pose proof Hwf as [Hpa Hpl]. unfold mac_in_subnet.
  pose proof (mac_val_bound _ Ha) as Hba. pose proof (mac_val_bound _ Hpa) as Hbp.
  pose proof (agree_div 48 (mc_len p) _ _ Hbp Hba Hpl) as AD. setoid_rewrite AD. clear AD.
  rewrite !mac_to_u64_val by auto.
  destruct (mc_len p =? 0) eqn:E0; [apply N.eqb_eq in E0|apply N.eqb_neq in E0].
  { eexists; split; [reflexivity|]. rewrite E0. change (48 - 0) with 48.
    rewrite !N.div_small by auto. tauto. }
  destruct (47 <? mc_len p) eqn:E1; [apply N.ltb_lt in E1|apply N.ltb_ge in E1].
  { eexists; split; [reflexivity|].
    replace (mc_len p) with 48 by lia. change (2 ^ (48 - 48)) with 1. rewrite !N.div_1_r. apply N.eqb_eq. }
  rewrite mac_norm_ok by auto. cbn [bind]. rewrite mac_hostsize_ok by lia. cbn [bind].
  rewrite usub_ok by apply pow2_ge1. cbn [bind].
  rewrite uadd_ok.
  2:{ eapply N.lt_trans; [apply (top_bound 48); auto; lia|]. reflexivity. }
  cbn [bind]. eexists; split; [reflexivity|].
  rewrite andb_true_iff, !N.leb_le. apply interval_div.
Qed.
Lemma mac_range_first_ok oc p : macp_wf p ->
  mac_range_first oc p = Ok (mac_from_u64 (mac_val (mc_addr p) / 2 ^ (48 - mc_len p) * 2 ^ (48 - mc_len p))).
Proof. intros Hwf. unfold mac_range_first. now rewrite mac_norm_ok. Qed.
Lemma mac_range_last_ok oc p : macp_wf p ->
  mac_range_last oc p = Ok (mac_from_u64 (mac_val (mc_addr p) / 2 ^ (48 - mc_len p) * 2 ^ (48 - mc_len p) + (2 ^ (48 - mc_len p) - 1))).
Proof.
  intros Hwf. pose proof Hwf as [Ha Hl]. pose proof (mac_val_bound _ Ha) as Hb. unfold mac_range_last.
  destruct (mc_len p <? 1) eqn:E0; [apply N.ltb_lt in E0|apply N.ltb_ge in E0].
  { replace (mc_len p) with 0 by lia. change (48 - 0) with 48. rewrite N.div_small by auto. reflexivity. }
  destruct (47 <? mc_len p) eqn:E1; [apply N.ltb_lt in E1|apply N.ltb_ge in E1].
  { rewrite mac_range_first_ok by auto. replace (mc_len p) with 48 by lia. change (2 ^ (48 - 48)) with 1. do 2 f_equal. lia. }
  rewrite mac_norm_ok by (auto; lia). cbn [bind]. rewrite mac_hostsize_ok by lia. cbn [bind].
  rewrite usub_ok by apply pow2_ge1. cbn [bind].
  rewrite uadd_ok; [reflexivity|].
  eapply N.lt_trans; [apply (top_bound 48); auto; lia|]. reflexivity.
Qed.

Lemma list_eqb_eq a b : list_eqb a b = true <-> a = b.
Proof.
  revert b; induction a as [|x a IH]; intros [|y b]; cbn; try (split; congruence).
  rewrite andb_true_iff, N.eqb_eq, IH. split; [intros [-> ->]; auto|intros H; inversion H; auto].
Qed.

Lemma mac_contains_eval oc p a : macp_wf p -> macp_wf a ->
  mac_contains oc p a = Ok (
    if mc_len p <? 1 then true
    else if mc_len a <? mc_len p then false
    else if mc_len p =? mc_len a then mac_val (mc_addr p) =? mac_val (mc_addr a)
    else mac_val (mc_addr p) / 2 ^ (48 - mc_len p) =? mac_val (mc_addr a) / 2 ^ (48 - mc_len p)).
Proof.
  intros Hp Ha. pose proof Hp as [Hpa Hpl]. pose proof Ha as [Haa Hal]. unfold mac_contains.
  pose proof (mac_val_bound _ Haa) as Hba. pose proof (mac_val_bound _ Hpa) as Hbp.
  destruct (mc_len p <? 1) eqn:E0; [reflexivity|]. apply N.ltb_ge in E0.
  destruct (mc_len a <? mc_len p) eqn:E1; [reflexivity|]. apply N.ltb_ge in E1.
  destruct (mc_len p =? mc_len a) eqn:E2.
  { f_equal. apply eq_true_iff_eq. rewrite list_eqb_eq, N.eqb_eq. split; [now intros ->|now apply mac_val_inj]. }
  apply N.eqb_neq in E2.
  rewrite mac_range_first_ok by auto. cbn [bind].
  destruct (first_least 48 (mc_len a) (mac_val (mc_addr a))) as [[Hf1 Hf2] _]; auto.
  set (f := mac_val (mc_addr a) / 2 ^ (48 - mc_len a) * 2 ^ (48 - mc_len a)) in *.
  destruct (mac_in_subnet_ok oc p (mac_from_u64 f)) as (b1 & -> & Hb1); auto using mac_from_u64_wf. cbn [bind].
  rewrite mac_range_last_ok by auto. fold f. cbn [bind].
  destruct (last_greatest 48 (mc_len a) (mac_val (mc_addr a))) as [[Hl1 Hl2] _]; auto. fold f in Hl1, Hl2.
  set (l := f + (2 ^ (48 - mc_len a) - 1)) in *.
  destruct (mac_in_subnet_ok oc p (mac_from_u64 l)) as (b2 & -> & Hb2); auto using mac_from_u64_wf.
  rewrite !mac_val_from_u64 in * by auto.
  assert (Hjk : 48 - mc_len a <= 48 - mc_len p) by (clear - E1; lia).
  clearbody l f.
  rewrite agree_div in Hb1, Hb2, Hf2, Hl2 by auto.
  pose proof (div_pow_coarser (mac_val (mc_addr a)) f (48 - mc_len a) (48 - mc_len p) Hjk Hf2) as Hf2'; clear Hf2; rename Hf2' into Hf2.
  pose proof (div_pow_coarser (mac_val (mc_addr a)) l (48 - mc_len a) (48 - mc_len p) Hjk Hl2) as Hl2'; clear Hl2; rename Hl2' into Hl2.
  rewrite <- Hf2 in Hb1. rewrite <- Hl2 in Hb2.
  destruct (N.eqb_spec (mac_val (mc_addr p) / 2 ^ (48 - mc_len p)) (mac_val (mc_addr a) / 2 ^ (48 - mc_len p))) as [E|E].
  - apply Hb1 in E as E'. apply Hb2 in E as E''. now rewrite E', E''.
  - destruct b1; [|reflexivity]. now destruct E; apply Hb1.
Qed.

(** ** Statements used by the property file *)
Definition cont_val (w ls s la a : N) : bool :=
  if ls <? 1 then true
  else if la <? ls then false
  else if ls =? la then s =? a
  else s / 2 ^ (w - ls) =? a / 2 ^ (w - ls).

Lemma cont_val_sound w ls s la a : s < 2 ^ w -> a < 2 ^ w -> ls <= w -> la <= w ->
  cont_val w ls s la a = true -> covers w ls s la a.
Proof.
  intros Hs Ha Hls Hla. unfold cont_val.
  destruct (ls <? 1) eqn:E0; [apply N.ltb_lt in E0|apply N.ltb_ge in E0].
  { intros _. apply covers_iff; auto; [lia|]. replace (w - ls) with w by lia. now rewrite !N.div_small. }
  destruct (la <? ls) eqn:E1; [discriminate|]. apply N.ltb_ge in E1.
  destruct (ls =? la) eqn:E2; intros H; apply N.eqb_eq in H.
  - apply covers_iff; auto. now subst.
  - now apply covers_iff.
Qed.
Lemma cont_val_complete w ls s la a : s < 2 ^ w -> a < 2 ^ w -> ls <= w -> la <= w ->
  ls <> la \/ (normalised w ls s /\ normalised w la a) ->
  covers w ls s la a -> cont_val w ls s la a = true.
Proof.
  intros Hs Ha Hls Hla Hn Hc. unfold cont_val.
  destruct (ls <? 1) eqn:E0; [reflexivity|apply N.ltb_ge in E0].
  destruct (la <? ls) eqn:E1; [apply N.ltb_lt in E1; now apply covers_shorter in Hc|apply N.ltb_ge in E1].
  apply covers_iff in Hc; auto.
  destruct (ls =? la) eqn:E2; [apply N.eqb_eq in E2|now apply N.eqb_eq]. subst la.
  destruct Hn as [Hn|[H1 H2]]; [congruence|].
  rewrite normalised_mod in H1, H2 by auto. apply N.eqb_eq.
  rewrite (N.div_mod s (2 ^ (w - ls))), (N.div_mod a (2 ^ (w - ls))) by apply pow2_nz. now rewrite H1, H2, Hc.
Qed.
Lemma cont_val_refl w l a : cont_val w l a l a = true.
Proof. unfold cont_val. destruct (l <? 1); auto. now rewrite N.ltb_irrefl, !N.eqb_refl. Qed.
Lemma cont_val_trans w l1 a1 l2 a2 l3 a3 : l1 <= w -> l2 <= w -> l3 <= w ->
  a1 < 2 ^ w -> a2 < 2 ^ w -> a3 < 2 ^ w ->
  cont_val w l1 a1 l2 a2 = true -> cont_val w l2 a2 l3 a3 = true -> cont_val w l1 a1 l3 a3 = true.
Proof.
  intros _ _ _ _ _ _. unfold cont_val.
  destruct (N.ltb_spec l1 1) as [E0|E0]; [reflexivity|].
  destruct (N.ltb_spec l2 l1) as [E1|E1]; [discriminate|].
  destruct (N.ltb_spec l2 1) as [E2|E2]; [clear - E0 E1 E2; lia|].
  destruct (N.ltb_spec l3 l2) as [E3|E3]; [discriminate|].
  destruct (N.ltb_spec l3 l1) as [E4|E4]; [clear - E1 E3 E4; lia|].
  destruct (N.eqb_spec l1 l2) as [E5|E5], (N.eqb_spec l2 l3) as [E6|E6];
    destruct (N.eqb_spec l1 l3) as [E7|E7]; rewrite !N.eqb_eq; intros H1 H2.
  - congruence.
  - congruence.
  - congruence.
  - subst l2. rewrite H1. exact H2.
  - congruence.
  - subst l3. rewrite <- H2. exact H1.
  - exfalso. clear - E1 E3 E5 E6 E7. lia.
  - rewrite H1. apply (div_pow_coarser a2 a3 (w - l2) (w - l1)); [clear - E1; lia|exact H2].
Qed.
Lemma cont_val_antisym w l1 a1 l2 a2 : 1 <= l1 -> 1 <= l2 ->
  cont_val w l1 a1 l2 a2 = true -> cont_val w l2 a2 l1 a1 = true -> l1 = l2 /\ a1 = a2.
Proof.
  intros W1 W2. unfold cont_val.
  destruct (l1 <? 1) eqn:E0; [apply N.ltb_lt in E0; lia|].
  destruct (l2 <? 1) eqn:E0'; [apply N.ltb_lt in E0'; lia|].
  destruct (l2 <? l1) eqn:E1; [discriminate|apply N.ltb_ge in E1].
  destruct (l1 <? l2) eqn:E2; [discriminate|apply N.ltb_ge in E2].
  destruct (N.eqb_spec l1 l2); [|lia]. intros H _. apply N.eqb_eq in H. auto.
Qed.

Lemma C03_exact_l oc p a : v6_wf p -> 1 <= v6_len p -> a < 2 ^ 128 ->
  exists b, v6_in_subnet oc p a = Ok b /\
    (b = true <-> member 128 (v6_len p) (v6_addr p) a /\
       (v6_len p = 128 \/ exists y, member 128 (v6_len p) (v6_addr p) y /\ a < y)).
Proof.
  intros Hwf H1 Ha. destruct (v6_in_subnet_ok oc p a Hwf H1 Ha) as (b & E & Hb).
  exists b. split; auto. rewrite Hb. pose proof Hwf as [Hpa Hpl].
  destruct (last_greatest 128 (v6_len p) (v6_addr p) Hpa Hpl) as [Hm Hg].
  set (l := _ + _) in Hm, Hg. split.
  - intros [Hag Hor]. split; [now split|]. destruct Hor as [|Hn]; [auto|]. right. exists l. split; auto.
    assert (a <= l) by (apply Hg; now split).
    enough (a <> l) by lia. intros ->. apply Hn. unfold last_in, l.
    rewrite N.add_comm, N.mod_add by apply pow2_nz. apply N.mod_small. pose proof (pow2_nz (128 - v6_len p)). lia.
  - intros [[_ Hag] Hor]. split; auto. destruct Hor as [|(y & Hy & Hlt)]; [auto|]. right. intros Hl.
    apply Hg in Hy. apply agree_div in Hag; auto. unfold last_in in Hl.
    rewrite (N.div_mod a (2 ^ (128 - v6_len p))) in Hlt by apply pow2_nz. rewrite Hl, <- Hag in Hlt. unfold l in Hy. lia.
Qed.
Lemma C03_len0_l p a : v6_wf p -> v6_len p = 0 -> a < 2 ^ 128 ->
  v6_in_subnet true p a = Panic /\ v6_in_subnet false p a = Ok false.
Proof.
  intros [Hp _] H0 Ha. unfold v6_in_subnet, v6_norm_subnet, v6_hostsize. rewrite H0.
  change (127 <? 0) with false. cbv iota. rewrite !getn_u128_octets by auto. cbn [bind].
  split; [reflexivity|].
  change (usub false 8 128 0) with (@Ok N 128). cbn [bind].
  change (ushl false 128 1 128) with (@Ok N 1). cbn [bind].
  change (usub false 128 1 1) with (@Ok N 0). cbn [bind].
  set (lv := N.land _ _). assert (Hlv : lv < 2 ^ 128).
  { subst lv. rewrite N.lxor_0_l. rewrite (land_mask 128). apply N.mod_lt, pow2_nz. }
  rewrite uadd_ok by lia. cbn [bind]. f_equal. rewrite N.add_0_r.
  destruct (lv <=? a) eqn:E1; auto. apply N.leb_le in E1. apply N.ltb_ge. auto.
Qed.

Lemma C05_v4_first_l oc p : v4_wf p -> 1 <= v4_len p ->
  exists f, v4_range_first oc p = Ok f /\ member 32 (v4_len p) (v4_addr p) f /\
    forall x, member 32 (v4_len p) (v4_addr p) x -> f <= x.
Proof.
  intros H H1. rewrite v4_range_first_ok by auto. destruct H as [Ha Hl].
  eexists; split; [reflexivity|]. now apply first_least.
Qed.
Lemma C05_v4_last_l oc p : v4_wf p ->
  exists l, v4_range_last oc p = Ok l /\ member 32 (v4_len p) (v4_addr p) l /\
    forall x, member 32 (v4_len p) (v4_addr p) x -> x <= l.
Proof.
  intros H. rewrite v4_range_last_ok by auto. destruct H as [Ha Hl].
  eexists; split; [reflexivity|]. now apply last_greatest.
Qed.
Lemma C05_v6_first_l oc p : v6_wf p -> 1 <= v6_len p ->
  exists f, v6_range_first oc p = Ok f /\ member 128 (v6_len p) (v6_addr p) f /\
    forall x, member 128 (v6_len p) (v6_addr p) x -> f <= x.
Proof.
  intros H H1. rewrite v6_range_first_ok by auto. destruct H as [Ha Hl].
  eexists; split; [reflexivity|]. now apply first_least.
Qed.
Lemma C05_v6_last_l oc p : v6_wf p ->
  exists l, v6_range_last oc p = Ok l /\ member 128 (v6_len p) (v6_addr p) l /\
    forall x, member 128 (v6_len p) (v6_addr p) x -> x <= l.
Proof.
  intros H. rewrite v6_range_last_ok by auto. destruct H as [Ha Hl].
  eexists; split; [reflexivity|]. now apply last_greatest.
Qed.
Lemma C05_mac_l oc p : macp_wf p ->
  exists f l, mac_range_first oc p = Ok f /\ mac_range_last oc p = Ok l /\ mac_wf f /\ mac_wf l /\
    member 48 (mc_len p) (mac_val (mc_addr p)) (mac_val f) /\
    member 48 (mc_len p) (mac_val (mc_addr p)) (mac_val l) /\
    forall x, member 48 (mc_len p) (mac_val (mc_addr p)) x -> mac_val f <= x <= mac_val l.
Proof.
  intros H. rewrite mac_range_first_ok, mac_range_last_ok by auto. destruct H as [Ha Hl].
  pose proof (mac_val_bound _ Ha) as Hb.
  destruct (first_least 48 _ _ Hb Hl) as [F1 F2]. destruct (last_greatest 48 _ _ Hb Hl) as [L1 L2].
  do 2 eexists. do 2 (split; [reflexivity|]). split; [apply mac_from_u64_wf|]. split; [apply mac_from_u64_wf|].
  rewrite !mac_val_from_u64 by (apply F1 || apply L1). repeat split; auto; try apply F1; try apply L1.
Qed.
Lemma C05_v4_first_len0_l p : v4_wf p -> v4_len p = 0 ->
  v4_range_first true p = Panic /\ v4_range_first false p = Ok (v4_addr p).
Proof.
  intros [Ha _] H0. unfold v4_range_first, v4_norm_subnet, v4_hostsize. rewrite H0.
  rewrite !getn_u32_octets by auto. cbn [bind]. split; [reflexivity|].
  change (usub false 8 32 0) with (@Ok N 32). cbn [bind].
  change (ushl false 32 1 32) with (@Ok N 1). cbn [bind].
  change (usub false 32 1 1) with (@Ok N 0). cbn [bind]. rewrite N.lxor_0_l, (land_mask 32).
  rewrite N.mod_small by auto. f_equal. now apply v4_of_u32_id.
Qed.
Lemma C05_v6_first_len0_l p : v6_wf p -> v6_len p = 0 ->
  v6_range_first true p = Panic /\ v6_range_first false p = Ok (v6_addr p).
Proof.
  intros [Ha _] H0. unfold v6_range_first, v6_norm_subnet, v6_hostsize. rewrite H0.
  rewrite !getn_u128_octets by auto. cbn [bind]. split; [reflexivity|].
  change (usub false 8 128 0) with (@Ok N 128). cbn [bind].
  change (ushl false 128 1 128) with (@Ok N 1). cbn [bind].
  change (usub false 128 1 1) with (@Ok N 0). cbn [bind]. rewrite N.lxor_0_l, (land_mask 128).
  rewrite N.mod_small by auto. f_equal. now apply v6_of_u128_id.
Qed.

Lemma C06_l oc p a : v4_wf p -> v4_wf a ->
  contains_spec 32 (v4_len p) (v4_addr p) (v4_len a) (v4_addr a) (v4_contains oc p a).
Proof.
  intros Hp Ha. rewrite v4_contains_eval by auto. destruct Hp, Ha. eexists; split; [reflexivity|].
  fold (cont_val 32 (v4_len p) (v4_addr p) (v4_len a) (v4_addr a)).
  split; [now apply cont_val_sound|now apply cont_val_complete].
Qed.
Lemma C07_v6_l oc p a : v6_wf p -> v6_wf a ->
  contains_spec 128 (v6_len p) (v6_addr p) (v6_len a) (v6_addr a) (v6_contains oc p a).
Proof.
  intros Hp Ha. rewrite v6_contains_eval by auto. destruct Hp, Ha. eexists; split; [reflexivity|].
  fold (cont_val 128 (v6_len p) (v6_addr p) (v6_len a) (v6_addr a)).
  split; [now apply cont_val_sound|now apply cont_val_complete].
Qed.
Lemma C07_mac_l oc p a : macp_wf p -> macp_wf a ->
  contains_spec 48 (mc_len p) (mac_val (mc_addr p)) (mc_len a) (mac_val (mc_addr a)) (mac_contains oc p a).
Proof.
  intros Hp Ha. rewrite mac_contains_eval by auto. destruct Hp as [Hp ?], Ha as [Ha ?]. eexists; split; [reflexivity|].
  fold (cont_val 48 (mc_len p) (mac_val (mc_addr p)) (mc_len a) (mac_val (mc_addr a))).
  apply mac_val_bound in Hp, Ha.
  split; [now apply cont_val_sound|now apply cont_val_complete].
Qed.

(** equal lengths: the raw addresses are compared *)
Lemma C06_equal_len_l oc p a : v4_wf p -> v4_wf a -> 1 <= v4_len p -> v4_len p = v4_len a ->
  v4_contains oc p a = Ok (v4_addr p =? v4_addr a).
Proof.
  intros Hp Ha H1 E. rewrite v4_contains_eval by auto. rewrite <- E, N.ltb_irrefl, N.eqb_refl.
  destruct (v4_len p <? 1) eqn:E0; auto. apply N.ltb_lt in E0; lia.
Qed.

Lemma net_contains_total oc s a : net_wf s -> net_wf a -> exists b, net_contains oc s a = Ok b.
Proof.
  destruct s, a; cbn; intros; eauto; [rewrite v4_contains_eval|rewrite v6_contains_eval|rewrite mac_contains_eval]; eauto.
Qed.
Lemma net_contains_refl oc s : net_wf s -> net_contains oc s s = Ok true.
Proof.
  destruct s; cbn; intros; [rewrite v4_contains_eval|rewrite v6_contains_eval|rewrite mac_contains_eval]; auto;
  f_equal; apply (cont_val_refl _ _ _).
  all: exact 0.
Qed.
Lemma net_contains_trans oc a b c : net_wf a -> net_wf b -> net_wf c ->
  net_contains oc a b = Ok true -> net_contains oc b c = Ok true -> net_contains oc a c = Ok true.
Proof.
  destruct a as [a|a|a], b as [b|b|b]; cbn; try discriminate; destruct c as [c|c|c]; cbn; try discriminate; intros Ha Hb Hc.
  - rewrite !v4_contains_eval by auto. destruct Ha, Hb, Hc. intros X Y. injection X; injection Y; clear X Y; intros Y X. f_equal.
    eapply (cont_val_trans 32 (v4_len a) (v4_addr a) (v4_len b) (v4_addr b) (v4_len c) (v4_addr c)); eauto.
  - rewrite !v6_contains_eval by auto. destruct Ha, Hb, Hc. intros X Y. injection X; injection Y; clear X Y; intros Y X. f_equal.
    eapply (cont_val_trans 128 (v6_len a) (v6_addr a) (v6_len b) (v6_addr b) (v6_len c) (v6_addr c)); eauto.
  - rewrite !mac_contains_eval by auto. destruct Ha as [Ha ?], Hb as [Hb ?], Hc as [Hc ?].
    apply mac_val_bound in Ha, Hb, Hc. intros X Y. injection X; injection Y; clear X Y; intros Y X. f_equal.
    eapply (cont_val_trans 48 (mc_len a) (mac_val (mc_addr a)) (mc_len b) (mac_val (mc_addr b)) (mc_len c) (mac_val (mc_addr c))); eauto.
Qed.
Lemma net_contains_antisym oc a b : net_wf a -> net_wf b -> 1 <= net_len a -> 1 <= net_len b ->
  net_contains oc a b = Ok true -> net_contains oc b a = Ok true -> a = b.
Proof.
  destruct a as [a|a|a], b as [b|b|b]; cbn; try discriminate; intros Ha Hb La Lb.
  - rewrite !v4_contains_eval by auto. destruct a as [aa la], b as [ab lb]. cbn in *. intros X Y. injection X; injection Y; clear X Y; intros Y X.
    destruct (cont_val_antisym 32 la aa lb ab) as [-> ->]; auto.
  - rewrite !v6_contains_eval by auto. destruct a as [aa la], b as [ab lb]. cbn in *. intros X Y. injection X; injection Y; clear X Y; intros Y X.
    destruct (cont_val_antisym 128 la aa lb ab) as [-> ->]; auto.
  - rewrite !mac_contains_eval by auto. destruct a as [ma la], b as [mb lb]. destruct Ha as [Ha ?], Hb as [Hb ?]. cbn in *.
    intros X Y. injection X; injection Y; clear X Y; intros Y X.
    destruct (cont_val_antisym 48 la (mac_val ma) lb (mac_val mb)) as [-> E]; auto.
    now apply mac_val_inj in E as ->.
Qed.

Lemma C03_refuted_l : exists p a, v6_wf p /\ 1 <= v6_len p /\ member 128 (v6_len p) (v6_addr p) a /\
  forall oc, v6_in_subnet oc p a = Ok false.
Proof.
  exists (mkV6 0x2a020000000000000000000000000000 32), 0x2a020000ffffffffffffffffffffffff.
  assert (W : v6_wf (mkV6 0x2a020000000000000000000000000000 32)) by (split; [reflexivity|cbn; lia]).
  split; auto. split; [cbn; lia|]. split; [|intros []; reflexivity].
  split; [reflexivity|]. apply agree_div; try reflexivity. cbn; lia.
Qed.
Lemma C05_refuted_l : exists p, v4_wf p /\ v4_range_first true p = Panic /\
  exists f x, v4_range_first false p = Ok f /\ member 32 (v4_len p) (v4_addr p) x /\ x < f.
Proof.
  exists (mkV4 0x0a000001 0). split; [split; [reflexivity|cbn; lia]|]. split; [reflexivity|].
  exists 0x0a000001, 0. split; [reflexivity|]. split; [|reflexivity].
  split; [reflexivity|]. intros i H1 H2. cbn in H1. lia.
Qed.
Lemma covers_same_class : covers 32 8 0x0a000001 8 0x0a000002.
Proof. apply covers_iff; try reflexivity; lia. Qed.
Lemma C06_refuted_l : exists p a, v4_wf p /\ v4_wf a /\
  covers 32 (v4_len p) (v4_addr p) (v4_len a) (v4_addr a) /\ forall oc, v4_contains oc p a = Ok false.
Proof.
  exists (mkV4 0x0a000001 8), (mkV4 0x0a000002 8). split; [split; [reflexivity|cbn; lia]|]. split; [split; [reflexivity|cbn; lia]|].
  split; [exact covers_same_class|]. intros []; reflexivity.
Qed.
Lemma C07_v6_refuted_l : exists p a, v6_wf p /\ v6_wf a /\
  covers 128 (v6_len p) (v6_addr p) (v6_len a) (v6_addr a) /\ forall oc, v6_contains oc p a = Ok false.
Proof.
  exists (mkV6 1 64), (mkV6 2 64). split; [split; [reflexivity|cbn; lia]|]. split; [split; [reflexivity|cbn; lia]|].
  split; [apply covers_iff; try reflexivity; cbn; lia|]. intros []; reflexivity.
Qed.
