From Coq Require Import Ascii String Permutation.
From Verif Require Import Base BaseFacts S_Attr S_Nlri S_Prefix S_Text S_Text2 F_Attr F_Text M_Util M_Prefix M_Nlri M_Vpls M_Mvpn M_Evpn M_Flowspec M_Addrs M_Attr M_Text M_Text2 M_Serde S_Serde S_Serde2 F_Serde F_Serde2 F_Serde3.
Ltac Zify.zify_post_hook ::= idtac.

(** ** Attributes *)
Definition TA (t : ty) : ty :=
  enum [("Origin", Some T_Origin);
        ("ASPath", Some (TVec (TUint 32)));
        ("NextHop", Some TIp);
        ("MED", Some (TUint 32));
        ("LocalPref", Some (TUint 32));
        ("AtomicAggregate", Some TIp);
        ("AggregatorAS", Some T_Aggregator);
        ("CommunityList", Some (TSet (TUint 32)));
        ("OriginatorID", Some TIp);
        ("ClusterList", Some (TVec TIp));
        ("MPUpdates", Some T_MPUpdates);
        ("MPWithdraws", Some T_MPWithdraws);
        ("ExtCommunityList", Some (TSet T_Ext));
        ("LargeCommunityList", Some (TSet T_Large));
        ("PMSITunnel", Some T_Pmsi);
        ("AttrSet", Some (struct [("asn", TUint 32); ("attrs", TVec t)]));
        ("Connector", Some T_Connector);
        ("Unknown", Some T_Unknown)]%string.
Definition T_Inner (n : nat) : ty := match n with O => TFuel | S n' => T_Attr n' end.
Lemma T_Attr_eq n : T_Attr n = TA (T_Inner n).
Proof. now destruct n. Qed.
Lemma rep_ext : rep T_Ext g_ext ecomm_wf.
Proof.
  split.
  - intros a (H1 & H2 & H3 & H4). repeat (split; [assumption|]). exact I.
  - intros v H. open_struct v H. use (rep_uint 8) H0. use (rep_uint 8) H1. use (rep_uint 16) H2. use (rep_uint 32) H3. exists (mkEC a a0 a1 a2). done_rep.
Qed.
Lemma rep_large : rep T_Large g_large lcomm_wf.
Proof.
  split.
  - intros a (H1 & H2 & H3). repeat (split; [assumption|]). exact I.
  - intros v H. open_struct v H. use (rep_uint 32) H0. use (rep_uint 32) H1. use (rep_uint 32) H2. exists (mkLC a a0 a1). done_rep.
Qed.
Lemma gcmp_ext x y : gcmp (g_ext x) (g_ext y) = ecomm_cmp x y.
Proof. unfold g_ext, ecomm_cmp. cbn [gcmp]. unfold cmp_then. now destruct (ec_type x ?= ec_type y), (ec_subtype x ?= ec_subtype y), (ec_a x ?= ec_a y), (ec_b x ?= ec_b y). Qed.
Lemma gcmp_large x y : gcmp (g_large x) (g_large y) = lcomm_cmp x y.
Proof. unfold g_large, lcomm_cmp. cbn [gcmp]. unfold cmp_then. now destruct (lc_ga x ?= lc_ga y), (lc_1 x ?= lc_1 y), (lc_2 x ?= lc_2 y). Qed.
Definition pmsi_rng (t : pmsi) : Prop := pm_flags t < 2 ^ 8 /\ pm_type t < 2 ^ 8 /\ u32s (pm_label t) /\ tun_any (pm_tun t).
Lemma rep_pmsi : rep T_Pmsi g_pmsi pmsi_rng.
Proof.
  split.
  - intros t (H1 & H2 & H3 & H4). apply rep_labels in H3. split; [exact H1|]. split; [exact H2|]. split; [exact H3|]. split; [|exact I].
    destruct (pm_tun t) as [|e r i p|e|a o]; cbn [tun_any] in H4.
    + reflexivity.
    + destruct H4 as (A1 & A2 & A3 & A4). repeat (split; [assumption|]). exact I.
    + exact H4.
    + destruct H4 as (A1 & A2). apply (rep_nums 8) in A2. repeat (split; [assumption|]). exact I.
  - intros v H. open_struct v H. use (rep_uint 8) H0. use (rep_uint 8) H1. use rep_labels H2. rename H3 into H. open_enum v H.
    + exists (mkPmsi a a0 a1 PtNone). done_rep.
    + open_struct v H. use rep_ip4 H0. use (rep_uint 16) H1. use (rep_uint 16) H2. use rep_ip4 H3. exists (mkPmsi a a0 a1 (PtRSVP a2 a3 a4 a5)). done_rep.
    + use rep_ip4 H. exists (mkPmsi a a0 a1 (PtIngress a2)). done_rep.
    + open_struct v H. use rep_ip H0. use (rep_nums 8) H1. exists (mkPmsi a a0 a1 (PtMLDP a2 a3)). done_rep.
Qed.
Lemma all_Forall (P : attr -> Prop) v : (fix all l := match l with [] => True | x :: l' => P x /\ all l' end) v <-> Forall P v.
Proof. induction v as [|x v IH]; [split; constructor|]. rewrite IH. split; [intros [H1 H2]; now constructor|intros H; now inversion H]. Qed.
Lemma rep_ta t Q : rep t g_attr Q -> (forall a, Q a -> attr_any a) ->
  rep (TA t) g_attr (fun a => attr_any a /\ match a with AAttrSet _ v => Forall Q v | _ => True end).
Proof.
  intros R RQ. pose proof (rep_set _ _ _ _ rep_ext gcmp_ext) as RE. pose proof (rep_set _ _ _ _ rep_large gcmp_large) as RL.
  pose proof (rep_set _ _ _ N.compare (rep_uint 32) (fun x y => eq_refl)) as RC. split.
  - intros a [H HQ]. destruct a; cbn [attr_any] in H; cbn [g_attr]; (eapply enum_case; [reflexivity|]); try exact H.
    + now destruct o.
    + now apply rep_labels.
    + destruct H as [H1 H2]. repeat (split; [assumption|]). exact I.
    + now apply RC.
    + now apply (rep_vec _ _ _ rep_ip).
    + destruct H as [H1 H2]. apply rep_addr in H1. apply rep_addrs in H2. repeat (split; [assumption|]). exact I.
    + apply rep_addrs in H. split; [exact H|exact I].
    + now apply RE.
    + now apply RL.
    + now apply rep_pmsi.
    + destruct H as [H1 H2]. apply (rep_vec _ _ _ R) in HQ. split; [exact H1|]. split; [exact HQ|exact I].
    + destruct H as (H1 & H2 & H3). repeat (split; [assumption|]). exact I.
    + destruct H as (H1 & H2 & H3). apply (rep_nums 8) in H3. split; [split; [exact H1|split; [exact H2|exact I]]|]. split; [exact H3|exact I].
  - intros v H. unfold TA in H. open_enum v H.
    + open_enum v H; [exists (AOrigin Igp)|exists (AOrigin Egp)|exists (AOrigin Incomplete)]; done_rep.
    + use rep_labels H. exists (AASPath a). done_rep.
    + use rep_ip H. exists (ANextHop a). done_rep.
    + use (rep_uint 32) H. exists (AMED a). done_rep.
    + use (rep_uint 32) H. exists (ALocalPref a). done_rep.
    + use rep_ip H. exists (AAtomicAggregate a). done_rep.
    + open_struct v H. use (rep_uint 32) H0. use rep_ip4 H1. exists (AAggregatorAS a a0). done_rep.
    + use RC H. exists (ACommunityList a). done_rep.
    + use rep_ip H. exists (AOriginatorID a). done_rep.
    + use (rep_vec _ _ _ rep_ip) H. exists (AClusterList a). done_rep.
    + open_struct v H. use rep_addr H0. use rep_addrs H1. exists (AMPUpdates a a0). done_rep.
    + open_struct v H. use rep_addrs H0. exists (AMPWithdraws a). done_rep.
    + use RE H. exists (AExtCommunityList a). done_rep.
    + use RL H. exists (ALargeCommunityList a). done_rep.
    + use rep_pmsi H. exists (APMSITunnel a). split; [reflexivity|]. split; [exact Ha|exact I].
    + open_struct v H. use (rep_uint 32) H0. use (rep_vec _ _ _ R) H1. exists (AAttrSet a a0). split; [reflexivity|]. split; [|exact Ha0].
      split; [exact Ha|]. apply (all_Forall attr_any). eapply Forall_impl; [|exact Ha0]. exact RQ.
    + open_struct v H. use (rep_uint 32) H0. use rep_ip4 H1. use rep_ip4 H2. exists (AConnector a a0 a1). done_rep.
    + open_struct v H. apply struct_typed in H0. destruct H0 as (l & -> & H0). cbn [map fst snd] in H0. fields H0 l. use (rep_uint 8) H. use (rep_uint 8) H2.
      use (rep_nums 8) H1. exists (AUnknown a a0 a1). done_rep.
Qed.
Lemma deep_Forall n v : (fold_right (fun x n => Nat.max (S (sets_deep x)) n) O v <= n)%nat <-> Forall (fun a => (S (sets_deep a) <= n)%nat) v.
Proof.
  induction v as [|x v IH]; [split; [constructor|cbn; lia]|]. cbn [fold_right]. rewrite Nat.max_lub_iff, IH.
  split; [intros [H1 H2]; now constructor|intros H; now inversion H].
Qed.
Lemma rep_attr n : rep (T_Attr n) g_attr (fun a => attr_any a /\ (sets_deep a <= n)%nat).
Proof.
  assert (Rec : forall t Q n, rep t g_attr Q -> (forall a, Q a <-> attr_any a /\ (S (sets_deep a) <= n)%nat) -> rep (TA t) g_attr (fun a => attr_any a /\ (sets_deep a <= n)%nat)).
  { intros t Q k R HQ. destruct (rep_ta t Q R) as [R1 R2]; [intros a; apply HQ|]. split.
    - intros a [H1 H2]. apply R1. split; [exact H1|]. destruct a; auto. cbn [sets_deep] in H2. apply deep_Forall in H2. cbn [attr_any] in H1. destruct H1 as [_ H1].
      apply (all_Forall attr_any) in H1. rewrite Forall_forall in *. intros x Hx. apply HQ. split; auto.
    - intros v T. apply R2 in T as (a & -> & H1 & H2). exists a. split; [reflexivity|]. split; [exact H1|].
      destruct a; try apply Nat.le_0_l. cbn [sets_deep]. apply deep_Forall. eapply Forall_impl; [|exact H2]. intros x Hx. now apply HQ. }
  induction n as [|n IH].
  - apply (Rec TFuel (fun _ => False)); [|intros a; split; [contradiction|intros [_ H]; lia]]. split; [contradiction|]. intros v T. contradiction.
  - apply (Rec (T_Attr n) _ (S n) IH). intros a. split; intros [H1 H2]; (split; [exact H1|lia]).
Qed.

(** ** Different values are told apart *)
Lemma map_inj {A B} (g : A -> B) : (forall a b, g a = g b -> a = b) -> forall l m, map g l = map g m -> l = m.
Proof. intros I. induction l as [|x l IH]; intros [|y m] E; cbn in E; try discriminate; auto. injection E as E1 E2. f_equal; auto. Qed.
Lemma inj_num : inj GNum. Proof. intros a b E. now injection E. Qed.
Lemma inj_nums : inj g_nums.
Proof. intros a b E. unfold g_nums in E. assert (E' : map GNum a = map GNum b) by congruence. exact (map_inj GNum inj_num _ _ E'). Qed.
Lemma inj_vec {A} (g : A -> gval) : inj g -> inj (g_vec g).
Proof. intros I a b E. unfold g_vec in E. assert (E' : map g a = map g b) by congruence. exact (map_inj g I _ _ E'). Qed.
Ltac inj_rec := intros [] [] E; cbv in E; congruence.
Lemma inj_rd : inj g_rd. Proof. intros [a b] [c d] E. unfold g_rd in E. cbn in E. congruence. Qed.
Lemma inj_v4 : inj g_v4. Proof. intros [a b] [c d] E. unfold g_v4 in E. cbn in E. congruence. Qed.
Lemma inj_v6 : inj g_v6. Proof. intros [a b] [c d] E. unfold g_v6 in E. cbn in E. congruence. Qed.
Lemma inj_wrd {A} (g : A -> gval) : inj g -> inj (g_wrd g).
Proof. intros I [a b] [c d] E. unfold g_wrd in E. cbn [wrd_rd wrd_prefix] in E. assert (E1 : g_rd b = g_rd d) by congruence. assert (E2 : g a = g c) by congruence. apply inj_rd in E1. apply I in E2. congruence. Qed.
Lemma inj_lab {A} (g : A -> gval) : inj g -> inj (g_lab g).
Proof. intros I [a b] [c d] E. unfold g_lab in E. cbn [lab_labels lab_prefix] in E. assert (E1 : g_nums b = g_nums d) by congruence. assert (E2 : g a = g c) by congruence. apply inj_nums in E1. apply I in E2. congruence. Qed.
Lemma inj_pid {A} (g : A -> gval) : inj g -> inj (g_pid g).
Proof. intros I [a b] [c d] E. unfold g_pid in E. cbn [pid pid_nlri] in E. assert (E2 : g b = g d) by congruence. apply I in E2. congruence. Qed.
Lemma inj_mdt4 : inj g_mdt4.
Proof. intros [a b] [c d] E. unfold g_mdt4 in E. cbn [mdt4_addr mdt4_group] in E. assert (E2 : g_v4 a = g_v4 c) by congruence. apply inj_v4 in E2. congruence. Qed.
Lemma inj_mdt6 : inj g_mdt6.
Proof. intros [a b] [c d] E. unfold g_mdt6 in E. cbn [mdt6_addr mdt6_group] in E. assert (E2 : g_v6 a = g_v6 c) by congruence. apply inj_v6 in E2. congruence. Qed.
Lemma inj_ext : inj g_ext. Proof. intros [a b c d] [a' b' c' d'] E. unfold g_ext in E. cbn in E. congruence. Qed.
Lemma inj_large : inj g_large. Proof. intros [a b c] [a' b' c'] E. unfold g_large in E. cbn in E. congruence. Qed.
Lemma inj_fsval : inj g_fsval. Proof. intros [a b c d e] [a' b' c' d' e'] E. unfold g_fsval in E. cbn in E. congruence. Qed.
Lemma inj_fsmask : inj g_fsmask. Proof. intros [a b c d] [a' b' c' d'] E. unfold g_fsmask in E. cbn in E. congruence. Qed.
Lemma inj_fs6 : inj g_fs6.
Proof. intros [a b] [c d] E. unfold g_fs6 in E. cbn [fs6_ip fs6_offset] in E. assert (E2 : g_v6 a = g_v6 c) by congruence. apply inj_v6 in E2. congruence. Qed.
Lemma inj_ip : inj GIp. Proof. intros a b E. congruence. Qed.
(** equal fields, one after the other *)
Ltac parts E :=
  repeat match type of E with
  | GVariant _ (Some ?x) = GVariant _ (Some ?y) => assert (E : x = y) by congruence
  end.
Lemma list_cons (x y : gval) l m : GList (x :: l) = GList (y :: m) -> x = y /\ GList l = GList m.
Proof. intros E. split; congruence. Qed.
Ltac split_fields E := let E' := fresh "F" in apply list_cons in E; destruct E as [E' E]; try split_fields E.
Ltac back := repeat match goal with
  | H : g_rd _ = g_rd _ |- _ => apply inj_rd in H
  | H : g_nums _ = g_nums _ |- _ => apply inj_nums in H
  | H : GNum _ = GNum _ |- _ => apply inj_num in H
  | H : GIp _ = GIp _ |- _ => apply inj_ip in H
  end.
Lemma inj_l2a : inj g_l2a.
Proof. intros [a b c d e] [a' b' c' d' e'] E. unfold g_l2a in E. cbn [l2a_rd l2a_site l2a_offset l2a_range l2a_labels] in E. split_fields E. back. congruence. Qed.
Lemma inj_l2 : inj g_l2.
Proof. intros [a b c d] [a' b' c' d'] E. unfold g_l2 in E. cbn [l2_rd l2_site l2_offset l2_range] in E. split_fields E. back. congruence. Qed.
Lemma inj_mvpn3 : inj g_mvpn3.
Proof. intros [a b c d] [a' b' c' d'] E. unfold g_mvpn3 in E. cbn [mv3_rd mv3_source mv3_group mv3_orig] in E. split_fields E. back. congruence. Qed.
Lemma inj_mvpn67 : inj g_mvpn67.
Proof. intros [a b c d] [a' b' c' d'] E. unfold g_mvpn67 in E. cbn [mv67_rd mv67_asn mv67_rp mv67_group] in E. split_fields E. back. congruence. Qed.
Lemma payload_eq i j x y : GVariant i (Some x) = GVariant j (Some y) -> x = y.
Proof. congruence. Qed.
Lemma inj_mvpn : inj g_mvpn.
Proof.
  intros [r|r|r|r|r|r|r] [s|s|s|s|s|s|s] E; cbn [g_mvpn] in E; try discriminate E; apply payload_eq in E.
  - split_fields E. back. destruct r, s; cbn in *; congruence.
  - split_fields E. back. destruct r, s; cbn in *; congruence.
  - apply inj_mvpn3 in E. congruence.
  - split_fields E. apply inj_mvpn3 in F. back. destruct r, s; cbn in *; congruence.
  - split_fields E. back. destruct r, s; cbn in *; congruence.
  - apply inj_mvpn67 in E. congruence.
  - apply inj_mvpn67 in E. congruence.
Qed.
Lemma inj_opt : inj g_opt. Proof. intros [a|] [b|] E; cbn in E; congruence. Qed.
Lemma inj_evpn : inj g_evpn.
Proof.
  intros [r|r|r|r|r] [s|s|s|s|s] E; cbn [g_evpn] in E; try discriminate E; apply payload_eq in E.
  - split_fields E. back. destruct r, s; cbn in *; congruence.
  - split_fields E. repeat match goal with H : g_opt _ = g_opt _ |- _ => apply inj_opt in H end. back. destruct r, s; cbn in *; congruence.
  - split_fields E. back. destruct r, s; cbn in *; congruence.
  - split_fields E. back. destruct r, s; cbn in *; congruence.
  - split_fields E. back. destruct r, s; cbn in *; congruence.
Qed.
Lemma inj_flow {A} (g : A -> gval) : inj g -> inj (g_flow g).
Proof.
  intros I a b E. destruct a, b; cbn [g_flow] in E; try discriminate E; apply payload_eq in E;
    first [apply I in E; congruence|apply (inj_vec _ inj_fsval) in E; congruence|apply (inj_vec _ inj_fsmask) in E; congruence].
Qed.
Lemma inj_addr : inj g_addr.
Proof.
  intros [|a|a|rd a|rd a|x|r] [|a'|a'|rd' a'|rd' a'|x'|r'] E; cbn [g_addr] in E; try discriminate E; try apply payload_eq in E; try congruence.
  - split_fields E. back. congruence.
  - split_fields E. back. congruence.
  - apply inj_l2 in E. congruence.
  - apply inj_mvpn in E. congruence.
Qed.
Lemma inj_addrs : inj g_addrs.
Proof.
  intros a b E. destruct a, b; cbn [g_addrs] in E; try discriminate E; try reflexivity; apply payload_eq in E;
  first
  [ apply (inj_vec _ inj_v4) in E | apply (inj_vec _ inj_v6) in E
  | apply (inj_vec _ (inj_lab _ inj_v4)) in E | apply (inj_vec _ (inj_lab _ inj_v6)) in E
  | apply (inj_vec _ (inj_lab _ (inj_wrd _ inj_v4))) in E | apply (inj_vec _ (inj_lab _ (inj_wrd _ inj_v6))) in E
  | apply (inj_vec _ (inj_wrd _ inj_mdt4)) in E | apply (inj_vec _ (inj_wrd _ inj_mdt6)) in E
  | apply (inj_vec _ (inj_pid _ (inj_wrd _ inj_mdt4))) in E | apply (inj_vec _ (inj_pid _ (inj_wrd _ inj_mdt6))) in E
  | apply (inj_vec _ inj_l2a) in E | apply (inj_vec _ inj_mvpn) in E | apply (inj_vec _ inj_evpn) in E
  | apply (inj_vec _ (inj_flow _ inj_v4)) in E | apply (inj_vec _ (inj_flow _ inj_fs6)) in E | apply (inj_vec _ (inj_flow _ (inj_wrd _ inj_v4))) in E
  | apply (inj_vec _ (inj_pid _ inj_v4)) in E | apply (inj_vec _ (inj_pid _ inj_v6)) in E
  | apply (inj_vec _ (inj_pid _ (inj_lab _ inj_v4))) in E | apply (inj_vec _ (inj_pid _ (inj_lab _ inj_v6))) in E
  | apply (inj_vec _ (inj_pid _ (inj_lab _ (inj_wrd _ inj_v4)))) in E | apply (inj_vec _ (inj_pid _ (inj_lab _ (inj_wrd _ inj_v6)))) in E ]; congruence.
Qed.
Lemma inj_pmsi : inj g_pmsi.
Proof.
  intros [a b c t] [a' b' c' t'] E. unfold g_pmsi in E. cbn [pm_flags pm_type pm_label pm_tun] in E. split_fields E. back.
  assert (t = t'); [|congruence]. clear - F2. destruct t, t'; try discriminate F2; try apply payload_eq in F2; try congruence.
  split_fields F2. back. congruence.
Qed.
Lemma inj_attr : inj g_attr.
Proof.
  unfold inj. fix IH 1. intros a b E. destruct a, b; cbn [g_attr] in E; try discriminate E; apply payload_eq in E.
  - destruct o, o0; try discriminate E; reflexivity.
  - back. congruence.
  - congruence.
  - congruence.
  - congruence.
  - congruence.
  - split_fields E. congruence.
  - back. congruence.
  - congruence.
  - apply (inj_vec _ inj_ip) in E. congruence.
  - split_fields E. apply inj_addr in F. apply inj_addrs in F0. congruence.
  - split_fields E. apply inj_addrs in F. congruence.
  - apply (inj_vec _ inj_ext) in E. congruence.
  - apply (inj_vec _ inj_large) in E. congruence.
  - apply inj_pmsi in E. congruence.
  - split_fields E. assert (v = v0).
    { assert (F1 : map g_attr v = map g_attr v0) by congruence. clear - IH F1. revert v0 F1. induction v as [|x v IHv]; intros [|y w] F1; cbn [map] in F1; try discriminate F1; [reflexivity|].
      assert (G1 : g_attr x = g_attr y) by congruence. assert (G2 : map g_attr v = map g_attr w) by congruence. f_equal; [exact (IH x y G1)|exact (IHv w G2)]. }
    congruence.
  - split_fields E. congruence.
  - split_fields E. back. congruence.
Qed.
