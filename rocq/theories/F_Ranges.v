(** Proofs that decoded values are in range. *)
From Verif Require Import Base BaseFacts M_Util S_Wire F_Util M_Prefix S_Prefix M_Nlri S_Nlri F_Nlri M_Vpls M_Cap M_Open M_Session M_Mvpn S_Mvpn M_Evpn S_Evpn M_Flowspec S_Flowspec M_Addrs S_Addrs
  M_Attr S_Attr S_Attr3 M_Update S_Update M_Text S_Text S_Text2 M_Serde S_Serde S_Serde2 S_Debug S_Exact S_Exact2 S_Ranges.
Ltac Zify.zify_post_hook ::= idtac.

Definition bit_any {T} (P : bit_reading T) (Q : T -> Prop) : Prop := forall oc bits b x m, bytes_ok b -> P oc bits b x m -> Q x.
Definition read_any {T} (P : reading T) (Q : T -> Prop) : Prop := forall b x n, bytes_ok b -> P b x n -> Q x.

Lemma bytes_app a b : bytes_ok (a ++ b) -> bytes_ok a /\ bytes_ok b.
Proof. apply Forall_app. Qed.
Lemma bytes_skipn k b : bytes_ok b -> bytes_ok (skipn k b).
Proof. intros H. rewrite <- (firstn_skipn k b) in H. now apply bytes_app in H. Qed.
Lemma bytes_cons x b : bytes_ok (x :: b) -> x < 256 /\ bytes_ok b.
Proof. intros H. inversion H; subst. now split. Qed.
Lemma pfx4_any : bit_any pfx4 v4_wf.
Proof. intros oc bits b x m _ (L & _ & E & A & _). split; [exact A|now rewrite E]. Qed.
Lemma pfx6_any : bit_any pfx6 v6_wf.
Proof. intros oc bits b x m _ (L & _ & E & A & _). split; [exact A|now rewrite E]. Qed.
Lemma entry_small b0 b1 b2 r : bytes_ok (b0 :: b1 :: b2 :: r) -> be_val [b0; b1; b2] / 16 < 2 ^ 32.
Proof.
  intros H. apply bytes_cons in H as [A H]. apply bytes_cons in H as [B H]. apply bytes_cons in H as [C _].
  apply N.div_lt_upper_bound; [discriminate|]. unfold be_val. cbn [fold_left]. clear - A B C. change (16 * 2 ^ 32) with 68719476736. lia.
Qed.
Lemma stack_any oc bits b ls : bytes_ok b -> stack_of oc bits b ls -> u32s ls.
Proof.
  intros H S. induction S as [b|bits left b0 b1 b2 r B L E|bits left b0 b1 b2 r ls B L E S IH]; [constructor| |].
  - constructor; [now apply (entry_small b0 b1 b2 r)|constructor].
  - constructor; [now apply (entry_small b0 b1 b2 r)|]. apply IH. now apply bytes_cons in H as [_ H]; apply bytes_cons in H as [_ H]; apply bytes_cons in H as [_ H].
Qed.
Lemma labelled_any {T} (P : bit_reading T) Q : bit_any P Q -> bit_any (labelled P) (lab_any Q).
Proof. intros H oc bits b x m B (left & k & S & _ & R & _). split; [now apply (stack_any oc bits b)|]. eapply H; [|exact R]. now apply bytes_skipn. Qed.
Lemma distinguished_any {T} (P : bit_reading T) Q : bit_any P Q -> bit_any (distinguished P) (wrd_any Q).
Proof. intros H oc bits b x m B (left & r & k & -> & W & _ & R & _). split; [exact W|]. eapply H; [|exact R]. now apply bytes_app in B. Qed.
Definition mdt4_ok (x : mdtV4) : Prop := v4_wf (mdt4_addr x) /\ mdt4_group x < 2 ^ 32.
Definition mdt6_ok (x : mdtV6) : Prop := v6_wf (mdt6_addr x) /\ mdt6_group x < 2 ^ 128.
Lemma mdt4_reads_any : bit_any mdt4 mdt4_ok.
Proof. intros oc bits b x m B (left & k & r & _ & R & _ & G & _). split; [|exact G]. exact (pfx4_any _ _ _ _ _ B R). Qed.
Lemma mdt6_reads_any : bit_any mdt6 mdt6_ok.
Proof. intros oc bits b x m B (left & k & r & _ & _ & R & _ & G & _). split; [|exact G]. exact (pfx6_any _ _ _ _ _ B R). Qed.
Lemma item_any {T} oc (P : bit_reading T) Q : bit_any P Q -> read_any (item oc P) Q.
Proof. intros H b x n B (bits & s & m & -> & R & _). eapply H; [|exact R]. now apply bytes_cons in B. Qed.
Lemma many_any {T} (P : reading T) Q : read_any P Q -> forall b v n, bytes_ok b -> many P b v n -> Forall Q v.
Proof. intros H b v n B M. induction M as [|b x k v n E R M IH]; [constructor|]. constructor; [exact (H _ _ _ B R)|]. apply IH. now apply bytes_skipn. Qed.
Lemma many_pid_any {T} (P : reading T) Q : read_any P Q -> forall b v n, bytes_ok b -> many_pid P b v n -> Forall (pid_any Q) v.
Proof.
  intros H b v n B M. induction M as [|b i s x k v n E I Z R M IH]; [constructor|]. subst b. apply bytes_app in B as [_ B]. constructor; [|apply IH; now apply bytes_skipn].
  split; [exact I|exact (H _ _ _ B R)].
Qed.
Lemma vpls_any oc : read_any (vpls_reads oc) l2a_any.
Proof.
  intros b x n B (d & s & r & -> & _ & _ & _ & -> & W & A1 & A2 & A3 & S). apply bytes_app in B as [_ B]. apply bytes_app in B as [B _].
  apply bytes_app in B as [_ B]. apply bytes_app in B as [_ B]. apply bytes_app in B as [_ B]. apply bytes_app in B as [_ B]. split; [exact W|]. repeat (split; [assumption|]). now apply (stack_any _ _ _ _ B S).
Qed.
Lemma of_mode_any m a : of_mode m a -> ip_any a.
Proof. destruct m, a; cbn; tauto. Qed.
Lemma mv3_any_of m r : mv3_wf m r -> mv3_any r.
Proof. intros (W & A & B & C). split; [exact W|]. split; [now apply (of_mode_any m)|]. split; now apply (of_mode_any m). Qed.
Lemma mv67_any_of m r : mv67_wf m r -> mv67_any r.
Proof. intros (W & A & B & C). split; [exact W|]. split; [exact A|]. split; now apply (of_mode_any m). Qed.
Lemma mv_reads_any m : read_any (mv_reads m) mv_any.
Proof.
  intros b r n B (body & rest & k & _ & _ & R & _). destruct r; cbn [mv_body_reads mv_any] in *.
  - destruct R as ((W & A) & _). split; [exact W|now apply (of_mode_any m)].
  - now destruct R as (W & _).
  - destruct R as (W & _). now apply (mv3_any_of m).
  - destruct R as (W & A & _). split; [now apply (mv3_any_of m)|exact A].
  - destruct R as (_ & (W & A & C) & _). split; [exact W|]. split; now apply (of_mode_any m).
  - destruct R as (W & _). now apply (mv67_any_of m).
  - destruct R as (W & _). now apply (mv67_any_of m).
Qed.
Lemma ev_reads_any oc : read_any (ev_reads oc) evr_any.
Proof.
  intros b r n B (body & rest & k & -> & _ & R & _). apply bytes_cons in B as [_ B]. apply bytes_cons in B as [_ B]. apply bytes_app in B as [B _].
  destruct r as [r|r|r|r|r]; cbn [ev_body_reads evr_any] in *.
  - destruct R as (s & -> & W & (E1 & E2 & E3) & T & L & _). do 4 apply bytes_app in B as [_ B]. split; [exact W|]. split; [exact E1|]. split; [now split|]. split; [exact T|]. exact (stack_any _ _ _ _ B L).
  - destruct R as (s & -> & W & (E1 & E2 & E3) & T & (M1 & M2) & I & L & _). do 7 apply bytes_app in B as [_ B]. split; [exact W|]. split; [exact E1|]. split; [now split|]. split; [exact T|].
    split; [now split|]. split; [exact I|]. exact (stack_any _ _ _ _ B L).
  - destruct R as (_ & W & T & I & _). split; [exact W|]. split; [exact T|exact I].
  - destruct R as (_ & W & (E1 & E2 & E3) & I & _). split; [exact W|]. split; [exact E1|]. split; [now split|]. exact I.
  - destruct R as (a & g & t & u & s & -> & _ & _ & W & (E1 & E2 & E3) & T & N & A & G & -> & -> & L & _). do 9 apply bytes_app in B as [_ B]. split; [exact W|]. split; [exact E1|]. split; [now split|].
    split; [exact T|]. split; [exact N|]. split; [exact A|]. split; [exact G|]. exact (stack_any _ _ _ _ B L).
Qed.
Definition fs6_ok (x : fs6) : Prop := v6_wf (fs6_ip x) /\ fs6_offset x < 2 ^ 8.
Lemma fs6_reads_any oc : read_any (fs6_reads oc) fs6_ok.
Proof. intros b x n B (bits & s & m & -> & R & _). apply bytes_cons in B as [_ B]. apply bytes_cons in B as [O B]. split; [exact (pfx6_any _ _ _ _ _ B R)|exact O]. Qed.
Lemma oper_small o k v : oper_octets o k -> v < 256 ^ N.of_nat k -> v < 2 ^ 32.
Proof. intros [[_ ->]|[[_ ->]|[_ ->]]] L; (eapply N.lt_le_trans; [exact L|]); now apply N.leb_le. Qed.
Lemma val_any : read_any val_reads (fun x => fv_value x < 2 ^ 32).
Proof. intros b x n _ (o & k & r & _ & O & L & _). exact (oper_small o k _ O L). Qed.
Lemma mask_any : read_any mask_reads (fun x => fm_value x < 2 ^ 32).
Proof. intros b x n _ (o & k & r & _ & O & L & _). exact (oper_small o k _ O L). Qed.
Lemma rule_bytes b rule h : bytes_ok b -> rule_reads b rule h -> bytes_ok rule.
Proof. intros B (rest & [(_ & _ & ->)|(_ & hi & lo & _ & _ & _ & ->)]); apply bytes_cons in B as [_ B]; [|apply bytes_cons in B as [_ B]]; now apply bytes_app in B. Qed.
Lemma fs_reads_any {T} (P : reading T) Q : read_any P Q -> read_any (fs_reads P) (flow_any Q).
Proof.
  intros H b r n B (h & body & k & R & X). apply rule_bytes in R; [|exact B]. apply bytes_cons in R as [_ R].
  destruct r; cbn [flow_any]; destruct X as [X _]; try exact (H _ _ _ R X); try exact (many_any _ _ val_any _ _ _ R X); exact (many_any _ _ mask_any _ _ _ R X).
Qed.

Definition fam_any {T} (plain : list T -> addrs) (withid : list (withPathId T) -> addrs) (Q : T -> Prop) (G : addrs -> Prop) : Prop :=
  (forall v, Forall Q v -> G (plain v)) /\ (forall v, Forall (pid_any Q) v -> G (withid v)).
Lemma family_any {T} oc (P : bit_reading T) plain withid Q G p afi sf b a n : bytes_ok b -> bit_any P Q -> fam_any plain withid Q G ->
  family oc P plain withid p afi sf b a n -> G a.
Proof.
  intros B H [G1 G2] [[_ (v & M & ->)]|[_ (v & M & ->)]].
  - apply G2. exact (many_pid_any _ _ (item_any oc P Q H) _ _ _ B M).
  - apply G1. exact (many_any _ _ (item_any oc P Q H) _ _ _ B M).
Qed.
Definition good (a : addrs) : Prop := addrs_any a /\ lens_ok a.
Lemma v4_wf_any p : v4_wf p -> v4_any p.
Proof. intros [A L]. split; [exact A|]. clear - L. lia. Qed.
Lemma v6_wf_any p : v6_wf p -> v6_any p.
Proof. intros [A L]. split; [exact A|]. clear - L. lia. Qed.
Ltac weaken := let v := fresh "v" in let H := fresh "H" in let x := fresh "x" in let K := fresh "K" in
  intros v H; split; [cbn [addrs_any]; revert H; apply Forall_impl; intros x K; unfold pid_any, lab_any, wrd_any, mdt4_ok, mdt6_ok, mdt4_any, mdt6_any in *;
    intuition auto using v4_wf_any, v6_wf_any
  |split; [cbn [prefixes4]|cbn [prefixes6]]; try (constructor; fail); try exact H; try (apply Forall_map; revert H; apply Forall_impl; intros x K; unfold pid_any, lab_any, wrd_any, mdt4_ok, mdt6_ok in K; tauto)].
Lemma flow_good {T} (Q : T -> Prop) v : Forall (flow_any Q) v -> Forall Q (flat_map flow_prefixes v).
Proof. induction 1 as [|f v H F IH]; [constructor|]. cbn [flat_map]. apply Forall_app. split; [|exact IH]. destruct f; cbn [flow_any flow_prefixes] in *; constructor; auto. Qed.
Lemma flow_impl {T} (Q R : T -> Prop) f : (forall x, Q x -> R x) -> flow_any Q f -> flow_any R f.
Proof. intros H. destruct f; cbn [flow_any]; auto. Qed.
Lemma good_v4 : fam_any IPV4U IPV4UP v4_wf good /\ fam_any IPV4M IPV4MP v4_wf good.
Proof. split; split; weaken. Qed.
Lemma good_v6 : fam_any IPV6U IPV6UP v6_wf good /\ fam_any IPV6M IPV6MP v6_wf good.
Proof. split; split; weaken. Qed.
Lemma good_l4 : fam_any IPV4LU IPV4LUP (lab_any v4_wf) good.
Proof. split; weaken. Qed.
Lemma good_l6 : fam_any IPV6LU IPV6LUP (lab_any v6_wf) good.
Proof. split; weaken. Qed.
Lemma good_mdt4 : fam_any IPV4MDT IPV4MDTP (wrd_any mdt4_ok) good.
Proof. split; weaken. Qed.
Lemma good_mdt6 : fam_any IPV6MDT IPV6MDTP (wrd_any mdt6_ok) good.
Proof. split; weaken. Qed.
Lemma good_vpn4 : fam_any VPNV4U VPNV4UP (lab_any (wrd_any v4_wf)) good /\ fam_any VPNV4M VPNV4MP (lab_any (wrd_any v4_wf)) good.
Proof. split; split; weaken. Qed.
Lemma good_vpn6 : fam_any VPNV6U VPNV6UP (lab_any (wrd_any v6_wf)) good /\ fam_any VPNV6M VPNV6MP (lab_any (wrd_any v6_wf)) good.
Proof. split; split; weaken. Qed.
Lemma good_fs4 v : Forall (flow_any v4_wf) v -> good (FS4U v).
Proof. intros H. split; [|split; [exact (flow_good _ _ H)|constructor]]. cbn [addrs_any]. revert H. apply Forall_impl. intros f. apply flow_impl, v4_wf_any. Qed.
Lemma good_fsv4 v : Forall (flow_any (wrd_any v4_wf)) v -> good (FSV4U v).
Proof.
  intros H. split; [|split; [|constructor]].
  - cbn [addrs_any]. revert H. apply Forall_impl. intros f. apply flow_impl. intros x [W V]. split; [exact W|now apply v4_wf_any].
  - cbn [prefixes4]. apply Forall_map. apply flow_good in H. revert H. apply Forall_impl. now intros x [_ V].
Qed.
Lemma good_fs6 v : Forall (flow_any fs6_ok) v -> good (FS6U v).
Proof.
  intros H. split; [|split; [constructor|]].
  - cbn [addrs_any]. revert H. apply Forall_impl. intros f. apply flow_impl. intros x [V O]. split; [now apply v6_wf_any|exact O].
  - cbn [prefixes6]. apply Forall_map. apply flow_good in H. revert H. apply Forall_impl. now intros x [V _].
Qed.
Lemma good_rest : (forall v, Forall l2a_any v -> good (L2VPLS v)) /\ (forall v, Forall mv_any v -> good (MVPN v)) /\ (forall v, Forall evr_any v -> good (EVPN v)).
Proof. split; [|split]; intros v H; (split; [exact H|split; constructor]). Qed.
Lemma nlri_good oc p afi sf b a n : bytes_ok b -> nlri_reads oc p afi sf b a n -> good a.
Proof.
  intros B H. unfold nlri_reads in H.
  repeat match type of H with
  | match ?x with _ => _ end => is_var x; destruct x; try contradiction
  end;
  first
  [ exact (family_any _ _ _ _ _ _ _ _ _ _ _ _ B pfx4_any (proj1 good_v4) H)
  | exact (family_any _ _ _ _ _ _ _ _ _ _ _ _ B pfx4_any (proj2 good_v4) H)
  | exact (family_any _ _ _ _ _ _ _ _ _ _ _ _ B pfx6_any (proj1 good_v6) H)
  | exact (family_any _ _ _ _ _ _ _ _ _ _ _ _ B pfx6_any (proj2 good_v6) H)
  | exact (family_any _ _ _ _ _ _ _ _ _ _ _ _ B (labelled_any _ _ pfx4_any) good_l4 H)
  | exact (family_any _ _ _ _ _ _ _ _ _ _ _ _ B (labelled_any _ _ pfx6_any) good_l6 H)
  | exact (family_any _ _ _ _ _ _ _ _ _ _ _ _ B (distinguished_any _ _ mdt4_reads_any) good_mdt4 H)
  | exact (family_any _ _ _ _ _ _ _ _ _ _ _ _ B (distinguished_any _ _ mdt6_reads_any) good_mdt6 H)
  | exact (family_any _ _ _ _ _ _ _ _ _ _ _ _ B (labelled_any _ _ (distinguished_any _ _ pfx4_any)) (proj1 good_vpn4) H)
  | exact (family_any _ _ _ _ _ _ _ _ _ _ _ _ B (labelled_any _ _ (distinguished_any _ _ pfx4_any)) (proj2 good_vpn4) H)
  | exact (family_any _ _ _ _ _ _ _ _ _ _ _ _ B (labelled_any _ _ (distinguished_any _ _ pfx6_any)) (proj1 good_vpn6) H)
  | exact (family_any _ _ _ _ _ _ _ _ _ _ _ _ B (labelled_any _ _ (distinguished_any _ _ pfx6_any)) (proj2 good_vpn6) H)
  | destruct H as (v & M & ->); first
    [ apply good_fs4; exact (many_any _ _ (fs_reads_any _ _ (item_any _ _ _ pfx4_any)) _ _ _ B M)
    | apply good_fsv4; exact (many_any _ _ (fs_reads_any _ _ (item_any _ _ _ (distinguished_any _ _ pfx4_any))) _ _ _ B M)
    | apply good_fs6; exact (many_any _ _ (fs_reads_any _ _ (fs6_reads_any _)) _ _ _ B M)
    | apply (proj1 good_rest); exact (many_any _ _ (vpls_any _) _ _ _ B M)
    | apply (proj1 (proj2 good_rest)); exact (many_any _ _ (mv_reads_any _) _ _ _ B M)
    | apply (proj2 (proj2 good_rest)); exact (many_any _ _ (ev_reads_any _) _ _ _ B M) ] ].
Qed.

(** ** Attributes *)
Lemma as_width p : as_octets p = 2%nat \/ as_octets p = 4%nat.
Proof. unfold as_octets. destruct (sp_as32 p); auto. Qed.
Lemma set_from_any {A} cmp (v s : list A) Q : Forall Q v -> set_from cmp v s -> Forall Q s.
Proof. intros H [_ E]. rewrite Forall_forall in *. intros x I. apply H. now apply E. Qed.
Definition attr_good (a : attr) : Prop := attr_any a /\ attr_lens a.
Lemma payload_good p tc b a : In tc plain_codes -> payload p tc b a -> attr_good a.
Proof.
  intros I H. unfold plain_codes in I. cbn [In] in I. destruct I as [E|[E|[E|[E|[E|[E|[E|[E|[E|[E|[E|[E|[E|[]]]]]]]]]]]]]]; subst tc; cbn [payload] in H.
  - destruct H as (c & r & _ & [[_ ->]|[[_ ->]|[_ ->]]]); now split.
  - destruct H as (h & v & _ & _ & F & ->). split; [|exact I]. cbn [attr_any]. revert F. apply Forall_impl. intros x L. eapply N.lt_le_trans; [exact L|]. destruct (as_width p) as [-> | ->]; now apply N.leb_le.
  - destruct H as (x & r & _ & M & ->). split; [|exact I]. exact (of_mode_any _ _ M).
  - destruct H as (v & r & _ & L & ->). now split.
  - destruct H as (v & r & _ & L & ->). now split.
  - destruct H as [[_ ->]|(x & _ & W & ->)]; (split; [|exact I]); [reflexivity|exact W].
  - destruct H as (asn & ad & A & -> & [[L _]|[L _]]); (split; [|exact I]); (split; [|exact A]); [exact L|]. eapply N.lt_trans; [exact L|reflexivity].
  - destruct H as (v & s & _ & F & S & ->). split; [|exact I]. split; [exact (set_from_any _ _ _ _ F S)|exact (proj1 S)].
  - destruct H as (x & r & _ & W & -> & _). split; [exact W|exact I].
  - destruct H as (v & r & _ & F & _ & ->). split; [|exact I]. cbn [attr_any]. revert F. apply Forall_impl. apply of_mode_any.
  - destruct H as (v & s & r & _ & F & _ & S & ->). split; [|exact I]. split; [exact (set_from_any _ _ _ _ F S)|exact (proj1 S)].
  - destruct H as (asn & x & y & r & _ & A & X & Y & ->). split; [|exact I]. now split.
  - destruct H as (v & s & _ & F & S & ->). split; [|exact I]. split; [exact (set_from_any _ _ _ _ F S)|exact (proj1 S)].
Qed.
Lemma hop_any afi sf l b nh n : hop_reads afi sf l b nh n -> addr_any nh.
Proof. destruct 1; cbn [addr_any]; auto. Qed.
Lemma snpas_bytes c s rest : snpas c s rest -> bytes_ok s -> bytes_ok rest.
Proof. induction 1 as [b|k d s rest L S IH]; [auto|]. intros B. apply bytes_cons in B as [_ B]. apply bytes_app in B as [_ B]. auto. Qed.
Lemma reach_good oc p b nh a : bytes_ok b -> reach_reads oc p b nh a -> addr_any nh /\ good a.
Proof.
  intros B (afi & sf & l & h & c & s & rest & n & -> & _ & H & S & R). split; [exact (hop_any _ _ _ _ _ _ H)|]. do 4 apply bytes_app in B as [_ B]. exact (nlri_good _ _ _ _ _ _ _ (snpas_bytes _ _ _ S B) R).
Qed.
Lemma unreach_good oc p b a : bytes_ok b -> unreach_reads oc p b a -> good a.
Proof. intros B (afi & sf & s & n & -> & _ & R). do 2 apply bytes_app in B as [_ B]. exact (nlri_good _ _ _ _ _ _ _ B R). Qed.
Lemma pmsi_good b x : bytes_ok b -> pmsi_reads b x -> attr_any (APMSITunnel x).
Proof.
  intros B (l0 & l1 & l2 & r & -> & L & T). apply bytes_app in B as [B1 B]. apply bytes_cons in B1 as [F B1]. apply bytes_cons in B1 as [Y _]. pose proof (entry_small l0 l1 l2 r B) as E. apply bytes_app in B as [_ B].
  split; [exact F|]. split; [exact Y|]. rewrite L. split; [constructor; [exact E|constructor]|]. destruct (pm_tun x); cbn [tunnel_reads tun_any] in *.
  - exact I.
  - destruct T as (_ & A1 & A2 & A3 & A4 & _). auto.
  - now destruct T as (_ & A & _).
  - destruct T as (_ & a & q & RT & A & _ & _ & ->). rewrite RT. split; [exact A|]. do 5 apply bytes_app in B as [_ B]. now apply bytes_app in B.
Qed.
Lemma all_any v : (fix all l := match l with [] => True | x :: l' => attr_any x /\ all l' end) v <-> Forall attr_any v.
Proof. induction v as [|x v IH]; split; intros H; [constructor|exact I| |]. - constructor; [apply H|]. apply IH, H. - inversion H; subst. split; [assumption|]. now apply IH. Qed.
Lemma all_lens v : (fix all l := match l with [] => True | x :: l' => attr_lens x /\ all l' end) v <-> Forall attr_lens v.
Proof. induction v as [|x v IH]; split; intros H; [constructor|exact I| |]. - constructor; [apply H|]. apply IH, H. - inversion H; subst. split; [assumption|]. now apply IH. Qed.
Lemma good_split v : Forall attr_good v -> Forall attr_any v /\ Forall attr_lens v.
Proof. intros H. split; revert H; apply Forall_impl; now intros x []. Qed.
Lemma area_good (R : N -> N -> nat -> list N -> attr -> Prop) : forall s v, bytes_ok s -> (forall tc f d a, f < 256 -> tc < 256 -> (length d < length s)%nat -> bytes_ok d -> R tc f (length d) d a -> attr_good a) -> area_of R s v -> Forall attr_good v.
Proof.
  intros s v B H A. induction A as [|f tc d s a v L X A IH]; [constructor|]. apply bytes_app in B as [B1 B]. unfold S_Attr.frame in B1. apply bytes_app in B1 as [B1 B2]. apply bytes_cons in B1 as [F B1].
  apply bytes_cons in B1 as [T _]. apply bytes_app in B2 as [_ B2]. constructor.
  - apply (H tc f d a F T); [|exact B2|exact X]. unfold S_Attr.frame. rewrite !app_length. cbn [length]. lia.
  - apply IH; [exact B|]. intros tc' f' d' a' F' T' L'. apply (H tc' f' d' a' F' T'). rewrite !app_length. lia.
Qed.
Lemma attr_reads_good oc p : forall m tc f n b a, (length b <= m)%nat -> f < 256 -> tc < 256 -> bytes_ok b -> attr_reads oc p tc f n b a -> attr_good a.
Proof.
  induction m as [m IH] using lt_wf_ind. intros tc f n b a L F T B H. destruct H as [tc f n b a I P|f n b nh a R|f n b a R|f n b x R|f n asn s v A32 A S|tc f n v r I E].
  - now apply (payload_good p tc b).
  - destruct (reach_good _ _ _ _ _ B R) as [N [A1 A2]]. split; [now split|exact A2].
  - destruct (unreach_good _ _ _ _ B R) as [A1 A2]. split; [exact A1|exact A2].
  - split; [exact (pmsi_good _ _ B R)|exact I].
  - apply bytes_app in B as [_ B]. rewrite app_length, length_be_bytes in L. apply area_good in S; [|exact B|].
    + apply good_split in S as [S1 S2]. split; [split; [exact A|now apply all_any]|now apply all_lens].
    + intros tc' f' d' a' F' T' L' B' R'. apply (IH (length d')) in R'; auto. lia.
  - apply bytes_app in B as [B _]. split; [|exact Logic.I]. now split.
Qed.
Lemma update_good oc p b wd v up : bytes_ok b -> update_reads oc p b wd v up -> update_any (mkUpd up wd v) /\ update_lens (mkUpd up wd v).
Proof.
  intros B (w & s & nl & -> & _ & _ & W & S & U). apply bytes_app in B as [_ B]. apply bytes_app in B as [BW B]. apply bytes_app in B as [_ B]. apply bytes_app in B as [BS BU].
  assert (PN : forall b a, bytes_ok b -> plain_nlri oc p b a -> good a). { intros x a X (n & Y). destruct (sp_mode p); exact (nlri_good _ _ _ _ _ _ _ X Y). }
  destruct (PN _ _ BW W) as [W1 W2]. destruct (PN _ _ BU U) as [U1 U2]. apply area_good in S; [|exact BS|].
  - apply good_split in S as [S1 S2]. split; (split; [|split]); cbn [u_updates u_withdraws u_attrs]; auto.
  - intros tc f d a F T _ D R. exact (attr_reads_good oc p _ _ _ _ _ _ (le_n _) F T D R).
Qed.
