(** Proofs about [Debug] and [Display] texts of messages and attributes. *)
From Coq Require Import Ascii String.
From Verif Require Import Base BaseFacts S_Attr S_Nlri S_Prefix S_Text S_Text2 F_Attr F_Text F_Text2 M_Util M_Prefix M_Nlri M_Vpls M_Mvpn M_Evpn M_Flowspec M_Addrs M_Attr M_Update M_Text M_Text2 S_Order M_Order F_Order
  F_Text3 F_Text4 F_Text5 M_Serde S_Serde S_Serde2 F_Serde F_Serde3 F_Serde4 M_Debug F_Debug F_Debug2 S_Debug.
Ltac Zify.zify_post_hook ::= idtac.

Lemma told_iff {A} (f : A -> text) (P : A -> Prop) a b : told f P -> P a -> P b -> f a = f b <-> a = b.
Proof. intros T Pa Pb. split; [now apply (told_inj f P)|now intros ->]. Qed.
Lemma attr_debug_iff a b : attr_any a -> attr_any b -> attr_debug a = attr_debug b <-> a = b.
Proof. exact (told_iff _ _ a b attr_told). Qed.
Lemma addrs_debug_iff a b : addrs_any a -> addrs_any b -> addrs_debug a = addrs_debug b <-> a = b.
Proof. exact (told_iff _ _ a b addrs_told). Qed.
Lemma addr_debug_iff a b : addr_any a -> addr_any b -> addr_debug a = addr_debug b <-> a = b.
Proof. exact (told_iff _ _ a b addr_told). Qed.
Lemma update_debug_iff a b : update_any a -> update_any b -> update_debug a = update_debug b <-> a = b.
Proof.
  intros (A1 & A2 & A3) (B1 & B2 & B3). split; [|now intros ->]. intros E. unfold update_debug, d_struct in E. cbn [map fst snd] in E. rewrite !commas_cons in E. cbn [commas] in E.
  strip E. apply addrs_told in E as [E1 E]; auto; try reflexivity. strip E. apply addrs_told in E as [E2 E]; auto; try reflexivity. strip E.
  apply attrs_told in E as [E3 E]; auto; try reflexivity. destruct a, b; cbn in *; now subst.
Qed.
Lemma notification_debug_iff c s d c' s' d' : notification_debug c s d = notification_debug c' s' d' <-> c = c' /\ s = s' /\ d = d'.
Proof.
  split; [|now intros (-> & -> & ->)]. intros E. unfold notification_debug, d_struct in E. cbn [map fst snd] in E. rewrite !commas_cons in E. cbn [commas] in E.
  strip E. apply dec_told in E as [E1 E]; auto; try reflexivity. strip E. apply dec_told in E as [E2 E]; auto; try reflexivity. strip E.
  apply dec_told in E as [E3 E]; auto; try reflexivity.
Qed.
Lemma app_suffix {A} (a b s : list A) : a ++ s = b ++ s -> a = b.
Proof. apply app_inv_tail. Qed.
Lemma notification_fmt_iff c s d c' s' d' : notification_fmt c s d = notification_fmt c' s' d' <-> c = c' /\ s = s' /\ d = d'.
Proof.
  split; [|now intros (-> & -> & ->)]. intros E. unfold notification_fmt in E. apply (f_equal (@rev N)) in E.
  rewrite !rev_app_distr in E. rewrite <- !app_assoc in E.
  assert (Cut : forall m n (x y : list N), rev (fmt_dec m) ++ 61 :: x = rev (fmt_dec n) ++ 61 :: y -> m = n /\ x = y).
  { intros m n x y H. apply cut in H as [H ->]; [|rewrite <- in_rev; apply dec_not; right; reflexivity|rewrite <- in_rev; apply dec_not; right; reflexivity].
    apply (f_equal (@rev N)) in H. rewrite !rev_involutive in H. apply dec_inj in H. now split. }
  apply app_inv_head in E. change (rev (txt " data=")) with (61 :: rev (txt " data")) in E. cbn [app] in E. apply Cut in E as [-> E].
  apply app_inv_head in E. change (rev (txt " subcode=")) with (61 :: rev (txt " subcode")) in E. cbn [app] in E. apply Cut in E as [-> E].
  apply app_inv_head in E. change (rev (txt " code=")) with (61 :: rev (txt " code")) in E. cbn [app] in E. apply Cut in E as [-> E]. now repeat split.
Qed.
Lemma addrs_fmt_iff a b : addrs_any a -> addrs_any b -> addrs_fmt a = addrs_fmt b <-> a = b.
Proof. intros A B. split; [|now intros ->]. unfold addrs_fmt. intros E. apply app_inv_head in E. now apply addrs_debug_iff in E. Qed.

(** the error text needs no escapes *)
Lemma dec_plain n : Forall plain (fmt_dec n).
Proof. rewrite Forall_forall. intros c I. assert (H : ~ (c < 48 \/ 57 < c)) by (intros H; exact (dec_not c n H I)). unfold plain. clear - H. lia. Qed.
Definition plainb (c : N) : bool := (32 <=? c) && (c <? 127) && negb (c =? 34) && negb (c =? 92).
Lemma plainb_all l : forallb plainb l = true -> Forall plain l.
Proof.
  intros H. rewrite forallb_forall in H. rewrite Forall_forall. intros c I. apply H in I. unfold plainb in I. unfold plain.
  apply andb_prop in I as [I E92]. apply andb_prop in I as [I E34]. apply andb_prop in I as [I1 I2]. apply N.leb_le in I1. apply N.ltb_lt in I2.
  apply negb_true_iff in E92, E34. apply N.eqb_neq in E92, E34. repeat split; assumption.
Qed.
Lemma txt_plain s : forallb plainb (txt s) = true -> Forall plain (txt s).
Proof. apply plainb_all. Qed.
Lemma arm_plain n l : forallb (fun x => forallb plainb (txt (snd x))) l = true -> match arm n l with Some t => Forall plain t | None => True end.
Proof.
  induction l as [|[k s] l IH]; intros H; [exact I|]. cbn [forallb snd] in H. apply andb_prop in H as [H1 H2]. cbn [arm]. destruct (n =? k); [now apply txt_plain|now apply IH].
Qed.
Ltac plains := repeat (apply Forall_app; split); first [apply dec_plain|apply txt_plain; vm_compute; reflexivity|idtac].
Lemma sub_arm_plain n l : forallb (fun x => forallb plainb (txt (snd x))) l = true -> Forall plain (sub_arm n l).
Proof. intros H. apply (arm_plain n) in H. unfold sub_arm. destruct (arm n l); [exact H|plains]. Qed.
Lemma plain_sub_plain n : Forall plain (plain_sub n).
Proof. unfold plain_sub. destruct (negb _); plains. Qed.
Lemma error_plain c s : Forall plain (error_text c s).
Proof.
  unfold error_text. repeat match goal with |- Forall _ (if ?b then _ else _) => destruct b end; plains; first [apply plain_sub_plain|apply sub_arm_plain; vm_compute; reflexivity].
Qed.

(** ** [Display] of attributes *)
Lemma aspath_told : told (fun v => dbg (YVec (ynew "BgpAS" "value" YNum)) (g_nums v)) u32s.
Proof. exact (rep_told _ (YVec (ynew "BgpAS" "value" YNum)) _ _ (rep_nums 32) inj_nums eq_refl eq_refl). Qed.
Lemma comm_told : told (fun v => dbg Y_CommunitySet (g_nums v)) (fun v => u32s v /\ ascending N.compare v).
Proof. exact (rep_told _ Y_CommunitySet _ _ (rep_set _ _ _ N.compare (rep_uint 32) (fun x y => eq_refl)) inj_nums eq_refl eq_refl). Qed.
Lemma cluster_told : told (fun v => dbg (YVec YIp) (g_vec GIp v)) (Forall ip_any).
Proof. exact (rep_told _ (YVec YIp) _ _ (rep_vec _ _ _ rep_ip) (inj_vec _ inj_ip) eq_refl eq_refl). Qed.
Lemma octets_told : told (fun v => dbg (YVec YNum) (g_nums v)) (Forall (fun x => x < 2 ^ 8)).
Proof. exact (rep_told _ (YVec YNum) _ _ (rep_nums 8) inj_nums eq_refl eq_refl). Qed.
Lemma ext_told : told (fun v => dbg Y_ExtSet (g_vec g_ext v)) (fun v => Forall ecomm_wf v /\ ascending ecomm_cmp v).
Proof. exact (rep_told _ Y_ExtSet _ _ (rep_set _ _ _ _ rep_ext gcmp_ext) (inj_vec _ inj_ext) eq_refl eq_refl). Qed.
Lemma large_told : told (fun v => dbg Y_LargeSet (g_vec g_large v)) (fun v => Forall lcomm_wf v /\ ascending lcomm_cmp v).
Proof. exact (rep_told _ Y_LargeSet _ _ (rep_set _ _ _ _ rep_large gcmp_large) (inj_vec _ inj_large) eq_refl eq_refl). Qed.
Lemma ip_no_space a : ~ In 32 (ip_fmt a).
Proof. apply addr_not; [apply ip_chars|left; reflexivity]. Qed.
Lemma fmt_space a : (forall x, a <> AAtomicAggregate x) -> In 32 (attr_fmt a).
Proof.
  intros H. assert (L : forall s r, In 32 (txt s) -> In 32 (txt s ++ r)) by (intros; apply in_or_app; now left).
  assert (R : forall l r, In 32 r -> In 32 (l ++ r)) by (intros; apply in_or_app; now right).
  destruct a; cbn [attr_fmt]; try (exfalso; now apply (H a));
    unfold pmsi_fmt, origin_fmt; repeat match goal with o : origin |- _ => destruct o end;
    repeat first [apply L; vm_compute; tauto|vm_compute; tauto|apply R].
Qed.
Definition tag (a : attr) : nat :=
  match a with
  | AOrigin _ => 0 | AASPath _ => 1 | ANextHop _ => 2 | AMED _ => 3 | ALocalPref _ => 4 | AAtomicAggregate _ => 5 | AAggregatorAS _ _ => 6
  | ACommunityList _ => 7 | AOriginatorID _ => 8 | AClusterList _ => 9 | AMPUpdates _ _ => 10 | AMPWithdraws _ => 11 | AExtCommunityList _ => 12
  | ALargeCommunityList _ => 13 | APMSITunnel _ => 14 | AAttrSet _ _ => 15 | AConnector _ _ _ => 16 | AUnknown _ _ _ => 17 end%nat.
Lemma fmt_tag a b : attr_fmt a = attr_fmt b -> tag a = tag b.
Proof.
  intros E.
  assert (D : forall a : attr, (exists x, a = AAtomicAggregate x) \/ (forall x, a <> AAtomicAggregate x)) by (intros []; eauto; right; discriminate).
  destruct (D a) as [[x ->]|Da], (D b) as [[y ->]|Db]; [reflexivity| | |].
  - exfalso. apply fmt_space in Db. rewrite <- E in Db. exact (ip_no_space _ Db).
  - exfalso. apply fmt_space in Da. rewrite E in Da. exact (ip_no_space _ Da).
  - destruct a; try (exfalso; now apply (Da a)); destruct b; try reflexivity; try (exfalso; exact (Db _ eq_refl)); exfalso;
      unfold attr_fmt, pmsi_fmt, origin_fmt in E; repeat match goal with o : origin |- _ => destruct o end; texts E; discriminate E.
Qed.
Lemma pmsi_dbg_any t : attr_any (APMSITunnel t) -> pmsi_any t.
Proof. intros (_ & _ & _ & H). unfold pmsi_any. destruct (pm_tun t); cbn [tun_any] in H; intuition. Qed.
Lemma attr_fmt_shown a : attr_fmt (shown a) = attr_fmt a.
Proof. destruct a; try reflexivity. cbn [shown attr_fmt]. apply pmsi_fmt_no_opaque. Qed.
Lemma attr_fmt_iff a b : attr_any a -> attr_any b -> attr_fmt a = attr_fmt b <-> shown a = shown b.
Proof.
  intros A B. split; [|intros E; now rewrite <- (attr_fmt_shown a), <- (attr_fmt_shown b), E]. intros E. pose proof (fmt_tag _ _ E) as T.
  assert (Last : forall X (f : X -> text) P x y, told f P -> P x -> P y -> f x = f y -> x = y) by (intros X f P x y; apply told_inj).
  destruct a, b; try discriminate T; clear T; cbn [attr_fmt shown] in *; cbn [attr_any] in A, B.
  - destruct o, o0; try reflexivity; discriminate E.
  - apply app_inv_head in E. f_equal. exact (Last _ _ _ _ _ aspath_told A B E).
  - strip E. f_equal. now apply ip_inj.
  - strip E. f_equal. now apply dec_inj.
  - strip E. f_equal. now apply dec_inj.
  - f_equal. now apply ip_inj.
  - strip E. apply dec_told in E as [-> E]; auto; try reflexivity. strip E. f_equal. now apply ipv4_inj.
  - apply app_inv_head in E. f_equal. exact (Last _ _ _ _ _ comm_told A B E).
  - strip E. f_equal. now apply ip_inj.
  - apply app_inv_head in E. f_equal. exact (Last _ _ _ _ _ cluster_told A B E).
  - destruct A as [A1 A2], B as [B1 B2]. strip E. apply addr_told in E as [-> E]; auto; try reflexivity. strip E. apply addrs_told in E as [-> E]; auto; try reflexivity.
  - strip E. apply addrs_told in E as [-> E]; auto; try reflexivity.
  - apply app_inv_head in E. f_equal. exact (Last _ _ _ _ _ ext_told A B E).
  - apply app_inv_head in E. f_equal. exact (Last _ _ _ _ _ large_told A B E).
  - f_equal. apply pmsi_alike in E; [exact E|now apply pmsi_dbg_any|now apply pmsi_dbg_any].
  - destruct A as [_ A], B as [_ B]. strip E. apply dec_told in E as [-> E]; auto; try reflexivity. apply app_inv_head in E. f_equal. apply all_Forall in A, B. exact (Last _ _ _ _ _ attrs_told A B E).
  - destruct A as (A1 & A2 & A3), B as (B1 & B2 & B3). texts E. do 13 apply tl_eq in E. apply cut in E as [E1 E]; [|apply dec_not; lia|apply dec_not; lia]. apply dec_inj in E1. apply cut in E as [E2 E]; [|apply addr_not; [apply ipv4_chars|left; reflexivity]|apply addr_not; [apply ipv4_chars|left; reflexivity]]. apply tl_eq in E. apply ip4_told in E as [E3 _]; auto; try reflexivity.
    apply ipv4_inj in E2; auto. now subst.
  - destruct A as (A1 & A2 & A3), B as (B1 & B2 & B3). strip E. apply dec_told in E as [-> E]; auto; try reflexivity. strip E. apply dec_told in E as [-> E]; auto; try reflexivity.
    strip E. apply octets_told in E as [-> E]; auto; try reflexivity.
Qed.
Lemma attr_fmt_opaque f t l n o o' : o <> o' ->
  APMSITunnel (mkPmsi f t l (PtMLDP n o)) <> APMSITunnel (mkPmsi f t l (PtMLDP n o')) /\
  attr_fmt (APMSITunnel (mkPmsi f t l (PtMLDP n o))) = attr_fmt (APMSITunnel (mkPmsi f t l (PtMLDP n o'))).
Proof. intros H. split; [congruence|reflexivity]. Qed.
Lemma equal_differs a b : addrs_any a -> addrs_any b ->
  (oeq oaddrs a b = true /\ addrs_debug a <> addrs_debug b <-> addrs_unlabel a = addrs_unlabel b /\ a <> b).
Proof. intros A B. pose proof (law_eq _ _ laws_addrs a b) as L. pose proof (addrs_debug_iff a b A B) as D. tauto. Qed.
