(** Proofs about the equality and order of path attributes, capabilities and OPEN messages. *)
From Verif Require Import Base BaseFacts M_Util M_Prefix M_Nlri M_Vpls M_Mvpn M_Evpn M_Flowspec M_Cap M_Open M_Session M_Addrs M_Attr M_Serde
  M_Order M_Traits S_Order S_Sort S_Traits F_Order F_Sort F_Serde4 F_Session F_Debug2.
Ltac Zify.zify_post_hook ::= idtac.

(** ** One layer of attributes *)
Lemma laws_pmsi_un : ord_laws opmsi pmsi_unlabel.
Proof. eapply laws_ext; [apply laws_pmsi|]. intros [] []; unfold pmsi_unlabel; cbn; split; intros E; congruence. Qed.
Lemma laws_ecomm : ord_laws oecomm (fun x => x).
Proof. eapply laws_ext; [eapply laws_view; repeat laws_tac|]. intros [] []; cbn; split; congruence. Qed.
Lemma laws_lcomm : ord_laws olcomm (fun x => x).
Proof. eapply laws_ext; [eapply laws_view; repeat laws_tac|]. intros [] []; cbn; split; congruence. Qed.
Lemma pa_ecomm : partial_agrees oecomm. Proof. apply pa_view; repeat pa_tac. Qed.
Lemma pa_lcomm : partial_agrees olcomm. Proof. apply pa_view; repeat pa_tac. Qed.
Lemma laws_bgpaddr : ord_laws obgpaddr (fun x => x).
Proof.
  eapply laws_ext.
  - eapply laws_view. eapply laws_variants; [eapply laws_unit|]. eapply laws_variants; [eapply laws_num|]. eapply laws_variants; [eapply laws_num|].
    eapply laws_variants; [eapply laws_fields; [eapply laws_rd|eapply laws_num]|]. eapply laws_variants; [eapply laws_fields; [eapply laws_rd|eapply laws_num]|].
    eapply laws_variants; [eapply laws_l2|eapply laws_mvpn].
  - intros [] []; cbn; split; congruence.
Qed.
Lemma pa_bgpaddr : partial_agrees obgpaddr.
Proof. assert (L := pa_l2). assert (M := pa_mvpn). apply pa_view; repeat pa_tac. Qed.

(** the key of one layer, given those of AS numbers and of attributes inside a set *)
Definition lay (f : N -> N) (k : attr -> attr) (a : attr) : attr :=
  match a with
  | AASPath v => AASPath (map f v)
  | AMPUpdates h v => AMPUpdates h (addrs_unlabel v)
  | AMPWithdraws v => AMPWithdraws (addrs_unlabel v)
  | APMSITunnel t => APMSITunnel (pmsi_unlabel t)
  | AAttrSet n v => AAttrSet n (map k v)
  | a => a
  end.
Local Definition origin_of (n : N) : origin := if n =? 0 then Igp else if n =? 1 then Egp else Incomplete.
Local Definition attr_unview (t : N + _) : attr :=
  match t with inl o => AOrigin (origin_of o) | inr t =>
  match t with inl v => AASPath v | inr t =>
  match t with inl v => ANextHop v | inr t =>
  match t with inl v => AMED v | inr t =>
  match t with inl v => ALocalPref v | inr t =>
  match t with inl v => AAtomicAggregate v | inr t =>
  match t with inl (n, a) => AAggregatorAS n a | inr t =>
  match t with inl v => ACommunityList v | inr t =>
  match t with inl v => AOriginatorID v | inr t =>
  match t with inl v => AClusterList v | inr t =>
  match t with inl (h, v) => AMPUpdates h v | inr t =>
  match t with inl v => AMPWithdraws v | inr t =>
  match t with inl v => AExtCommunityList v | inr t =>
  match t with inl v => ALargeCommunityList v | inr t =>
  match t with inl v => APMSITunnel v | inr t =>
  match t with inl (n, v) => AAttrSet n v | inr t =>
  match t with inl (n, (a, r)) => AConnector n a r | inr ((c, f), v) => AUnknown c f v
  end end end end end end end end end end end end end end end end end.
Lemma attr_view_inj x y : attr_view x = attr_view y -> x = y.
Proof.
  assert (G : forall a, attr_unview (attr_view a) = a) by (intros [[]| | | | | | | | | | | | | | | | |]; reflexivity).
  intros E. rewrite <- (G x), <- (G y). now rewrite E.
Qed.
Lemma laws_layer (o : ord N) (f : N -> N) (inner : ord attr) (k : attr -> attr) : ord_laws o f -> ord_laws inner k ->
  ord_laws (oattr_layer o inner) (lay f k).
Proof.
  intros Ho Hi. assert (LN := laws_num). assert (LI := laws_ip). assert (LB := laws_bytes).
  eapply laws_ext.
  - eapply laws_view.
    eapply laws_variants; [exact LN|]. eapply laws_variants; [eapply laws_list, Ho|]. eapply laws_variants; [exact LI|].
    eapply laws_variants; [exact LN|]. eapply laws_variants; [exact LN|]. eapply laws_variants; [exact LI|].
    eapply laws_variants; [eapply laws_fields; exact LN|]. eapply laws_variants; [exact LB|]. eapply laws_variants; [exact LI|].
    eapply laws_variants; [eapply laws_listid, LI|].
    eapply laws_variants; [eapply laws_fields; [eapply laws_bgpaddr|eapply laws_addrs]|]. eapply laws_variants; [eapply laws_addrs|].
    eapply laws_variants; [eapply laws_listid, laws_ecomm|]. eapply laws_variants; [eapply laws_listid, laws_lcomm|].
    eapply laws_variants; [eapply laws_pmsi_un|]. eapply laws_variants; [eapply laws_fields; [exact LN|eapply laws_list, Hi]|].
    eapply laws_variants; [eapply laws_fields; [exact LN|eapply laws_fields; exact LN]|].
    eapply laws_fields; [eapply laws_fields; exact LN|exact LB].
  - match goal with |- forall x y, ?q x = ?q y <-> _ =>
      assert (V : forall a, q a = attr_view (lay f k a));
      [intros []; reflexivity|];
      intros x y; split; intros E;
      [apply attr_view_inj; transitivity (q x); [symmetry; apply V|]; transitivity (q y); [exact E|apply V]
      |transitivity (attr_view (lay f k x)); [apply V|]; rewrite E; symmetry; apply V]
    end.
Qed.
(** ** Depth *)
Fixpoint cut (f : N -> N) (d : nat) : attr -> attr := lay f (match d with O => fun _ => AMED 0 | S d => cut f d end).
Lemma laws_g (o : ord N) (f : N -> N) : ord_laws o f -> forall d, ord_laws (oattr_g o d) (cut f d).
Proof.
  intros Ho. induction d as [|d IH]; cbn [oattr_g cut]; apply laws_layer; auto.
  eapply laws_ext; [eapply laws_view, laws_unit|]. intros x y. now split.
Qed.
Lemma deep_inner d n v x : (sets_deep (AAttrSet n v) <= d)%nat -> In x v -> exists d', d = S d' /\ (sets_deep x <= d')%nat.
Proof.
  intros H I. cbn [sets_deep] in H. apply deep_Forall in H. rewrite Forall_forall in H. specialize (H x I). cbv beta in H.
  destruct d as [|d]; [clear - H; lia|]. exists d. split; [reflexivity|clear - H; lia].
Qed.
Lemma cut_norm f a : forall d, (sets_deep a <= d)%nat -> cut f d a = attr_norm f a.
Proof.
  induction a as [a IH] using attr_ind'. intros d H.
  destruct a; try (destruct d; reflexivity). specialize (IH _ _ eq_refl). rewrite Forall_forall in IH.
  assert (E : map (match d with O => fun _ => AMED 0 | S d => cut f d end) v = map (attr_norm f) v).
  { apply map_ext_in. intros x I. destruct (deep_inner _ _ _ _ H I) as (d' & -> & L). now apply IH. }
  destruct d; cbn [cut lay attr_norm]; now rewrite E.
Qed.
(** what an order looks at does not depend on how deep one is prepared to look *)
Definition set_parts (a : attr) : list attr := match a with AAttrSet _ v => v | _ => [] end.
Lemma layer_eq o i j a b : list_eq (oeq i) (set_parts a) (set_parts b) = list_eq (oeq j) (set_parts a) (set_parts b) ->
  oeq (oattr_layer o i) a b = oeq (oattr_layer o j) a b.
Proof.
  intros H. destruct a; [destruct b; cbv [oattr_layer oview oeq attr_view ovariants]; reflexivity..| | |].
  all: destruct b; cbv [oattr_layer oview oeq attr_view ovariants]; try reflexivity. cbn [set_parts] in H. cbn. f_equal. exact H.
Qed.
Lemma layer_cmp o i j a b : list_cmp (ocmp i) (set_parts a) (set_parts b) = list_cmp (ocmp j) (set_parts a) (set_parts b) ->
  ocmp (oattr_layer o i) a b = ocmp (oattr_layer o j) a b.
Proof.
  intros H. destruct a; [destruct b; cbv [oattr_layer oview ocmp attr_view ovariants]; reflexivity..| | |].
  all: destruct b; cbv [oattr_layer oview ocmp attr_view ovariants]; try reflexivity. cbn [set_parts] in H. cbn. now rewrite H.
Qed.
Lemma layer_pcmp o i j a b : list_pcmp (opcmp i) (set_parts a) (set_parts b) = list_pcmp (opcmp j) (set_parts a) (set_parts b) ->
  opcmp (oattr_layer o i) a b = opcmp (oattr_layer o j) a b.
Proof.
  intros H. destruct a; [destruct b; cbv [oattr_layer oview opcmp attr_view ovariants]; reflexivity..| | |].
  all: destruct b; cbv [oattr_layer oview opcmp attr_view ovariants]; try reflexivity. cbn [set_parts] in H. cbn. now rewrite H.
Qed.
Lemma layer_hash o i j a : map (ohash i) (set_parts a) = map (ohash j) (set_parts a) -> ohash (oattr_layer o i) a = ohash (oattr_layer o j) a.
Proof.
  intros H. destruct a; cbv [oattr_layer oview ohash attr_view ovariants]; try reflexivity. cbn [set_parts] in H. cbn. now rewrite H.
Qed.
Lemma list_eq_ext {A} (e e' : A -> A -> bool) : forall v w, (forall x y, In x v -> In y w -> e x y = e' x y) -> list_eq e v w = list_eq e' v w.
Proof.
  induction v as [|x v IH]; intros [|y w] H; cbn [list_eq]; try reflexivity. rewrite (H x y) by now left. f_equal. apply IH. intros; apply H; now right.
Qed.
Lemma list_cmp_ext {A} (e e' : A -> A -> comparison) : forall v w, (forall x y, In x v -> In y w -> e x y = e' x y) -> list_cmp e v w = list_cmp e' v w.
Proof.
  induction v as [|x v IH]; intros [|y w] H; cbn [list_cmp]; try reflexivity. rewrite (H x y) by now left.
  rewrite (IH w); [reflexivity|]. intros; apply H; now right.
Qed.
Lemma list_pcmp_ext {A} (e e' : A -> A -> option comparison) : forall v w, (forall x y, In x v -> In y w -> e x y = e' x y) -> list_pcmp e v w = list_pcmp e' v w.
Proof.
  induction v as [|x v IH]; intros [|y w] H; cbn [list_pcmp]; try reflexivity. rewrite (H x y) by now left.
  rewrite (IH w); [reflexivity|]. intros; apply H; now right.
Qed.
Lemma g_layer o d : oattr_g o d = oattr_layer o (match d with O => oview (fun _ => tt) ounit | S d => oattr_g o d end).
Proof. now destruct d. Qed.
Lemma parts_deep d a x : (sets_deep a <= d)%nat -> In x (set_parts a) -> exists d', d = S d' /\ (sets_deep x <= d')%nat.
Proof. intros H I. destruct a; try contradiction I. eapply deep_inner; eauto. Qed.
Lemma depth o a : forall b d e, (sets_deep a <= d)%nat -> (sets_deep b <= d)%nat -> (sets_deep a <= e)%nat -> (sets_deep b <= e)%nat ->
  oeq (oattr_g o d) a b = oeq (oattr_g o e) a b /\ ocmp (oattr_g o d) a b = ocmp (oattr_g o e) a b /\
  opcmp (oattr_g o d) a b = opcmp (oattr_g o e) a b.
Proof.
  induction a as [a IH] using attr_ind'. intros b d e A1 B1 A2 B2.
  assert (E : forall x y, In x (set_parts a) -> In y (set_parts b) -> exists d' e', d = S d' /\ e = S e' /\
    oeq (oattr_g o d') x y = oeq (oattr_g o e') x y /\ ocmp (oattr_g o d') x y = ocmp (oattr_g o e') x y /\
    opcmp (oattr_g o d') x y = opcmp (oattr_g o e') x y).
  { intros x y Ix Iy.
    destruct (parts_deep _ _ _ A1 Ix) as (d' & -> & L1). destruct (parts_deep _ _ _ A2 Ix) as (e' & -> & L2).
    destruct (parts_deep _ _ _ B1 Iy) as (? & [= <-] & L3). destruct (parts_deep _ _ _ B2 Iy) as (? & [= <-] & L4).
    exists d', e'. split; [reflexivity|]. split; [reflexivity|]. destruct a; try contradiction Ix. specialize (IH _ _ eq_refl).
    rewrite Forall_forall in IH. now apply IH. }
  rewrite (g_layer o d), (g_layer o e). split; [|split].
  - apply layer_eq, list_eq_ext. intros x y Ix Iy. destruct (E x y Ix Iy) as (? & ? & -> & -> & E' & _). exact E'.
  - apply layer_cmp, list_cmp_ext. intros x y Ix Iy. destruct (E x y Ix Iy) as (? & ? & -> & -> & _ & E' & _). exact E'.
  - apply layer_pcmp, list_pcmp_ext. intros x y Ix Iy. destruct (E x y Ix Iy) as (? & ? & -> & -> & _ & _ & E'). exact E'.
Qed.
Lemma hash_depth o a : forall d e, (sets_deep a <= d)%nat -> (sets_deep a <= e)%nat -> ohash (oattr_g o d) a = ohash (oattr_g o e) a.
Proof.
  induction a as [a IH] using attr_ind'. intros d e A1 A2. rewrite (g_layer o d), (g_layer o e). apply layer_hash, map_ext_in. intros x Ix.
  destruct (parts_deep _ _ _ A1 Ix) as (d' & -> & L1). destruct (parts_deep _ _ _ A2 Ix) as (e' & -> & L2).
  destruct a; try contradiction Ix. specialize (IH _ _ eq_refl). rewrite Forall_forall in IH. now apply IH.
Qed.

(** ** AS numbers: equality as if converted, order and hash as plain numbers *)
Definition oconv : ord N := oview as_tonumb onum.
Lemma laws_conv : ord_laws oconv as_tonumb. Proof. exact (laws_view as_tonumb onum (fun x => x) laws_num). Qed.
Lemma eq_conv d : forall a b, oeq (oattr_g oas d) a b = oeq (oattr_g oconv d) a b.
Proof.
  assert (L : forall i a b, oeq (oattr_layer oas i) a b = oeq (oattr_layer oconv i) a b).
  { intros i a b. unfold oattr_layer, oview, oeq. destruct (attr_view a) as [|[|]], (attr_view b) as [|[|]]; reflexivity. }
  induction d as [|d IH]; intros a b; cbn [oattr_g]; rewrite L; [reflexivity|]. apply layer_eq, list_eq_ext. auto.
Qed.
Lemma cmp_plain d : forall a b, ocmp (oattr_g oas d) a b = ocmp (oattr_g onum d) a b.
Proof.
  assert (L : forall i a b, ocmp (oattr_layer oas i) a b = ocmp (oattr_layer onum i) a b).
  { intros i a b. unfold oattr_layer, oview, ocmp. destruct (attr_view a) as [|[|]], (attr_view b) as [|[|]]; reflexivity. }
  induction d as [|d IH]; intros a b; cbn [oattr_g]; rewrite L; [reflexivity|]. apply layer_cmp, list_cmp_ext. auto.
Qed.
Lemma pcmp_plain d : forall a b, opcmp (oattr_g oas d) a b = opcmp (oattr_g onum d) a b.
Proof.
  assert (L : forall i a b, opcmp (oattr_layer oas i) a b = opcmp (oattr_layer onum i) a b).
  { intros i a b. unfold oattr_layer, oview, opcmp. destruct (attr_view a) as [|[|]], (attr_view b) as [|[|]]; reflexivity. }
  induction d as [|d IH]; intros a b; cbn [oattr_g]; rewrite L; [reflexivity|]. apply layer_pcmp, list_pcmp_ext. auto.
Qed.
Lemma hash_plain d : forall a, ohash (oattr_g oas d) a = ohash (oattr_g onum d) a.
Proof.
  assert (L : forall i a, ohash (oattr_layer oas i) a = ohash (oattr_layer onum i) a).
  { intros i a. unfold oattr_layer, oview, ohash. destruct (attr_view a) as [|[|]]; reflexivity. }
  induction d as [|d IH]; intros a; cbn [oattr_g]; rewrite L; [reflexivity|]. apply layer_hash, map_ext. auto.
Qed.
Lemma oattr_at d a b : (sets_deep a <= d)%nat -> (sets_deep b <= d)%nat ->
  oeq oattr a b = oeq (oattr_g oconv d) a b /\ ocmp oattr a b = ocmp (oattr_g onum d) a b /\
  opcmp oattr a b = opcmp (oattr_g onum d) a b /\ ohash oattr a = ohash (oattr_g onum d) a.
Proof.
  intros Ha Hb. unfold oattr. cbn [oeq ocmp opcmp ohash]. set (e := Nat.max (sets_deep a) (sets_deep b)).
  assert (E1 : (sets_deep a <= e)%nat) by apply Nat.le_max_l. assert (E2 : (sets_deep b <= e)%nat) by apply Nat.le_max_r.
  rewrite eq_conv, cmp_plain, pcmp_plain, hash_plain.
  destruct (depth oconv a b e d E1 E2 Ha Hb) as (-> & _). destruct (depth onum a b e d E1 E2 Ha Hb) as (_ & -> & ->).
  rewrite (hash_depth onum a (sets_deep a) d (Nat.le_refl _) Ha). auto.
Qed.
(** [as_tonumb] is the number of the specification *)
Lemma as_number_eq x : as_tonumb x = as_number x.
Proof. unfold as_tonumb, as_number. change 65535 with (N.ones 16). rewrite N.land_ones, N.shiftr_div_pow2. reflexivity. Qed.
Lemma norm_ext f g a : (forall x, f x = g x) -> attr_norm f a = attr_norm g a.
Proof.
  intros E. induction a as [a IH] using attr_ind'. destruct a; try reflexivity; cbn [attr_norm].
  - now rewrite (map_ext _ _ E).
  - specialize (IH _ _ eq_refl). rewrite Forall_forall in IH. f_equal. now apply map_ext_in.
Qed.
Lemma attr_eq_iff a b : oeq oattr a b = true <-> attr_norm as_number a = attr_norm as_number b.
Proof.
  set (d := Nat.max (sets_deep a) (sets_deep b)).
  assert (E1 : (sets_deep a <= d)%nat) by apply Nat.le_max_l. assert (E2 : (sets_deep b <= d)%nat) by apply Nat.le_max_r.
  rewrite (proj1 (oattr_at d a b E1 E2)), (law_eq _ _ (laws_g _ _ laws_conv d)), !cut_norm by assumption.
  now rewrite !(norm_ext as_tonumb as_number) by apply as_number_eq.
Qed.
Lemma attr_cmp_eq a b : ocmp oattr a b = Eq <-> attr_unlabel a = attr_unlabel b.
Proof.
  set (d := Nat.max (sets_deep a) (sets_deep b)).
  assert (E1 : (sets_deep a <= d)%nat) by apply Nat.le_max_l. assert (E2 : (sets_deep b <= d)%nat) by apply Nat.le_max_r.
  rewrite (proj1 (proj2 (oattr_at d a b E1 E2))), (law_cmp_eq _ _ (laws_g _ _ laws_num d)), !cut_norm by assumption. reflexivity.
Qed.
Lemma attr_cmp_opp a b : ocmp oattr b a = CompOpp (ocmp oattr a b).
Proof.
  set (d := Nat.max (sets_deep a) (sets_deep b)).
  assert (E1 : (sets_deep a <= d)%nat) by apply Nat.le_max_l. assert (E2 : (sets_deep b <= d)%nat) by apply Nat.le_max_r.
  rewrite (proj1 (proj2 (oattr_at d a b E1 E2))), (proj1 (proj2 (oattr_at d b a E2 E1))). apply (law_cmp_opp _ _ (laws_g _ _ laws_num d)).
Qed.
Lemma attr_cmp_trans a b c : ocmp oattr a b = Lt -> ocmp oattr b c = Lt -> ocmp oattr a c = Lt.
Proof.
  set (d := Nat.max (sets_deep a) (Nat.max (sets_deep b) (sets_deep c))).
  assert (E1 : (sets_deep a <= d)%nat) by (unfold d; lia). assert (E2 : (sets_deep b <= d)%nat) by (unfold d; lia).
  assert (E3 : (sets_deep c <= d)%nat) by (unfold d; lia).
  rewrite (proj1 (proj2 (oattr_at d a b E1 E2))), (proj1 (proj2 (oattr_at d b c E2 E3))), (proj1 (proj2 (oattr_at d a c E1 E3))).
  apply (law_cmp_trans _ _ (laws_g _ _ laws_num d)).
Qed.
Lemma attr_hash a b : attr_unlabel a = attr_unlabel b -> ohash oattr a = ohash oattr b.
Proof.
  set (d := Nat.max (sets_deep a) (sets_deep b)).
  assert (E1 : (sets_deep a <= d)%nat) by apply Nat.le_max_l. assert (E2 : (sets_deep b <= d)%nat) by apply Nat.le_max_r.
  rewrite (proj2 (proj2 (proj2 (oattr_at d a b E1 E2)))), (proj2 (proj2 (proj2 (oattr_at d b a E2 E1)))).
  intros E. apply (law_hash _ _ (laws_g _ _ laws_num d)). now rewrite !cut_norm.
Qed.
Lemma as_plain x : plain_as x -> as_number x = x.
Proof. unfold as_number. intros [->|H]; [reflexivity|]. destruct (N.eqb_spec (x mod 65536) 0); [contradiction|reflexivity]. Qed.
Lemma as_all_in P v : fold_right (fun x r => as_all P x /\ r) True v -> forall x, In x v -> as_all P x.
Proof. induction v as [|y v IH]; intros H x I; [contradiction I|]. destruct H as [H1 H2]. destruct I as [<-|I]; auto. Qed.
Lemma norm_plain a : as_all plain_as a -> attr_norm as_number a = attr_unlabel a.
Proof.
  unfold attr_unlabel. induction a as [a IH] using attr_ind'. intros H. destruct a; try reflexivity; cbn [attr_norm as_all] in *.
  - f_equal. apply map_ext_in. intros x I. rewrite Forall_forall in H. now apply as_plain, H.
  - specialize (IH _ _ eq_refl). rewrite Forall_forall in IH. f_equal. apply map_ext_in. intros x I. apply IH; [exact I|]. eapply as_all_in; eauto.
Qed.
Lemma attr_lawful a b : as_all plain_as a -> as_all plain_as b -> (oeq oattr a b = true <-> ocmp oattr a b = Eq).
Proof. intros Ha Hb. rewrite attr_eq_iff, attr_cmp_eq, !norm_plain by assumption. reflexivity. Qed.
Lemma attr_as_refuted l1 x l2 : 1 <= x < 65536 ->
  oeq oattr (AASPath (l1 ++ x :: l2)) (AASPath (l1 ++ (x * 65536) :: l2)) = true /\
  ocmp oattr (AASPath (l1 ++ x :: l2)) (AASPath (l1 ++ (x * 65536) :: l2)) = Lt /\
  ohash oattr (AASPath (l1 ++ x :: l2)) <> ohash oattr (AASPath (l1 ++ (x * 65536) :: l2)).
Proof.
  intros H. destruct (aspath_refuted l1 x l2 H) as [E C]. split; [exact E|]. split; [exact C|].
  cbn. intros X. assert (X' : concat (map (fun x => [x]) (l1 ++ x :: l2)) = concat (map (fun x => [x]) (l1 ++ (x * 65536) :: l2))) by congruence.
  assert (F : forall l : list N, concat (map (fun x => [x]) l) = l) by (clear; induction l as [|a l IH]; [reflexivity|cbn; now rewrite IH]).
  rewrite !F in X'. apply app_inv_head in X'. assert (x = x * 65536) by congruence. clear - H H0. lia.
Qed.

(** ** [partial_cmp] *)
Lemma pa_layer inner P : pa_on P inner -> pa_on (fun a => match a with
  | AMPUpdates _ v | AMPWithdraws v => negb (derived_labels v) | APMSITunnel _ => false | AAttrSet _ v => forallb P v | _ => true end) (oattr_layer onum inner).
Proof.
  intros Hi. assert (LN := pa_num). assert (LI := pa_ip). assert (LB := pa_list _ LN). assert (LE := pa_list _ pa_ecomm). assert (LL := pa_list _ pa_lcomm).
  assert (LIP := pa_list _ LI). assert (LA := pa_bgpaddr).
  intros x y E. unfold oattr_layer, oview, opcmp at 1, ocmp at 1.
  refine ((_ : pa_on (fun t => match attr_unview t with
    | AMPUpdates _ v | AMPWithdraws v => negb (derived_labels v) | APMSITunnel _ => false | AAttrSet _ v => forallb P v | _ => true end) _) (attr_view x) (attr_view y) _).
  - clear x y E. intros x y E.
    repeat (destruct x as [x|x]; [destruct y as [y|y]; [|reflexivity]|destruct y as [y|y]; [reflexivity|]]); cbn [opcmp ocmp ovariants attr_unview] in *;
      try (first [apply LN|apply LI|apply LB|apply LE|apply LL|apply LIP|apply (pa_fields _ _ LN LN)|apply (pa_fields _ _ LN (pa_fields _ _ LN LN))
        |apply (pa_fields _ _ (pa_fields _ _ LN LN) LB)]).
    + destruct x as [h v], y as [h' v']. cbn [opcmp ocmp ofields fst snd]. rewrite LA. destruct (ocmp obgpaddr h h'); [|reflexivity..]. now apply pa_addrs.
    + now apply pa_addrs.
    + discriminate E.
    + destruct x as [n v], y as [m w]. cbn [opcmp ocmp ofields fst snd]. rewrite LN. destruct (ocmp onum n m); [|reflexivity..].
      cbn [opcmp ocmp olist]. revert w E. induction v as [|a v IH]; intros [|b w] E; cbn [list_pcmp list_cmp]; try reflexivity.
      cbn [forallb] in E. rewrite Hi by (destruct (P a), (P b); cbn in *; congruence).
      destruct (ocmp inner a b); [|reflexivity..]. apply IH. destruct (P a), (P b), (forallb P v), (forallb P w); cbn in E; try discriminate E; reflexivity.
  - assert (G : forall a, attr_unview (attr_view a) = a) by (intros [[]| | | | | | | | | | | | | | | | |]; reflexivity). now rewrite !G.
Qed.
Fixpoint lab_at (d : nat) (a : attr) : bool :=
  match a with
  | AMPUpdates _ v | AMPWithdraws v => negb (derived_labels v) | APMSITunnel _ => false
  | AAttrSet _ v => forallb (match d with O => fun _ => true | S d => lab_at d end) v | _ => true end.
Lemma pa_g d : pa_on (lab_at d) (oattr_g onum d).
Proof.
  induction d as [|d IH]; cbn [oattr_g].
  - intros x y E. apply (pa_layer (oview (fun _ => tt) ounit) (fun _ => true)); [apply pa_on_all, pa_view, pa_unit|]. destruct x, y; exact E.
  - intros x y E. apply (pa_layer _ _ IH). destruct x, y; exact E.
Qed.
Lemma lab_at_holds a : forall d, (sets_deep a <= d)%nat -> lab_at d a = negb (holds_labels a).
Proof.
  induction a as [a IH] using attr_ind'. intros d H. destruct a; try (destruct d; reflexivity).
  specialize (IH _ _ eq_refl). rewrite Forall_forall in IH.
  assert (E : forallb (match d with O => fun _ => true | S d => lab_at d end) v = negb (existsb holds_labels v)).
  { assert (I : forall x, In x v -> match d with O => fun _ => true | S d => lab_at d end x = negb (holds_labels x)).
    { intros x I. destruct (deep_inner _ _ _ _ H I) as (d' & -> & L). now apply IH. }
    clear - I. induction v as [|x v IHv]; [reflexivity|]. cbn [forallb existsb]. rewrite (I x) by now left. rewrite IHv by (intros; apply I; now right).
    now rewrite negb_orb. }
  destruct d; exact E.
Qed.
Lemma attr_partial a b : holds_labels a = false \/ holds_labels b = false -> opcmp oattr a b = Some (ocmp oattr a b).
Proof.
  intros H. set (d := Nat.max (sets_deep a) (sets_deep b)).
  assert (E1 : (sets_deep a <= d)%nat) by apply Nat.le_max_l. assert (E2 : (sets_deep b <= d)%nat) by apply Nat.le_max_r.
  destruct (oattr_at d a b E1 E2) as (_ & -> & -> & _). apply pa_g. rewrite !lab_at_holds by assumption.
  destruct H as [->| ->]; [reflexivity|apply orb_true_r].
Qed.
Lemma attr_set_pcmp n v m w : opcmp oattr (AAttrSet n v) (AAttrSet m w) =
  match n ?= m with Eq => list_pcmp (opcmp oattr) v w | c => Some c end.
Proof.
  set (d := Nat.max (sets_deep (AAttrSet n v)) (sets_deep (AAttrSet m w))).
  assert (E1 : (sets_deep (AAttrSet n v) <= d)%nat) by apply Nat.le_max_l. assert (E2 : (sets_deep (AAttrSet m w) <= d)%nat) by apply Nat.le_max_r.
  clearbody d. destruct (oattr_at d _ _ E1 E2) as (_ & _ & -> & _). rewrite g_layer. cbn. destruct (n ?= m); try reflexivity.
  apply list_pcmp_ext. intros x y Ix Iy. destruct (deep_inner _ _ _ _ E1 Ix) as (d' & -> & L1).
  destruct (deep_inner _ _ _ _ E2 Iy) as (? & [= <-] & L2). symmetry. apply (oattr_at d' x y L1 L2).
Qed.
Lemma attr_self a : opcmp oattr a a = Some Eq <-> label_free a = true.
Proof.
  induction a as [a IH] using attr_ind'.
  assert (Plain : holds_labels a = false -> opcmp oattr a a = Some Eq).
  { intros H. rewrite attr_partial by now left. f_equal. now apply attr_cmp_eq. }
  assert (Ad : forall v, opcmp oaddrs v v = Some Eq <-> match v with L2VPLS l => match l with [] => true | _ => false end
    | EVPN l => forallb (fun r => negb (evpn_has_labels r)) l | _ => true end = true).
  { intros v. rewrite addrs_self. destruct v; try (split; reflexivity); [destruct v; split; congruence|reflexivity]. }
  destruct a; try (split; [reflexivity|intros _; apply Plain; reflexivity]).
  - change (match opcmp obgpaddr nexthop nexthop with Some Eq => opcmp oaddrs a a | r => r end = Some Eq <-> label_free (AMPUpdates nexthop a) = true).
    rewrite pa_bgpaddr, (proj2 (law_cmp_eq _ _ laws_bgpaddr nexthop nexthop) eq_refl). apply Ad.
  - change (opcmp oaddrs a a = Some Eq <-> label_free (AMPWithdraws a) = true). apply Ad.
  - change (opcmp opmsi t t = Some Eq <-> false = true). rewrite pmsi_partial by reflexivity. split; discriminate.
  - rewrite attr_set_pcmp, N.compare_refl. cbn [label_free]. specialize (IH _ _ eq_refl). clear Plain Ad.
    induction v as [|x v IHv]; [split; reflexivity|]. cbn [list_pcmp forallb]. pose proof (Forall_inv IH) as Hx. specialize (IHv (Forall_inv_tail IH)).
    cbv beta in Hx. destruct (label_free x); cbn [andb].
    + rewrite (proj2 Hx eq_refl). exact IHv.
    + split; [|discriminate]. intros E. apply Hx. destruct (opcmp oattr x x) as [[]|]; congruence.
Qed.
Lemma attr_pmsi_refuted x y : pm_flags x = pm_flags y -> pm_type x = pm_type y -> opcmp oattr (APMSITunnel x) (APMSITunnel y) = None.
Proof. exact (pmsi_partial x y). Qed.

(** ** Sort order of attributes *)
Lemma keyed_ecomm : keyed oecomm ecomm_key any.
Proof. kview kf; [reflexivity|kdone]. Qed.
Lemma keyed_lcomm : keyed olcomm lcomm_key any.
Proof. kview kf; [reflexivity|kdone]. Qed.
Lemma keyed_bgpaddr : keyed obgpaddr bgpaddr_key any.
Proof.
  eapply keyed_imp.
  - apply keyed_view. apply (keyed_variants 0); [apply keyed_unit| |]. apply (keyed_variants 1); [apply (keyed_num any)| |].
    apply (keyed_variants 2); [apply (keyed_num any)| |]. apply (keyed_variants 3); [kf| |]. apply (keyed_variants 4); [kf| |].
    apply (keyed_variants 5); [apply keyed_l2|apply (keyed_last 6), keyed_mvpn|].
    all: repeat apply from_variants; apply from_last.
  - intros []; reflexivity.
  - intros []; cbn; unfold any; tauto.
Qed.
Lemma keyed_pmsi : keyed opmsi (fun t => pm_flags t :: pm_type t :: tun_key (pm_tun t)) any.
Proof.
  eapply keyed_imp.
  - apply keyed_view, keyed_fields; [apply (keyed_num any)|]. apply keyed_fields; [apply (keyed_num any)|]. apply keyed_fields; [apply (keyed_labels any)|].
    apply keyed_view. apply (keyed_variants 0); [apply keyed_unit| |]. apply (keyed_variants 1); [kf| |]. apply (keyed_variants 2); [apply (keyed_num any)| |].
    apply (keyed_last 3), keyed_fields; [apply keyed_ip|apply keyed_vals, (keyed_num any)].
    all: repeat apply from_variants; apply from_last.
  - intros [f t l []]; reflexivity.
  - intros [f t l []] _; cbn; unfold any; tauto.
Qed.
Definition layer_key (k : attr -> list N) (a : attr) : list N := match a with AAttrSet n v => 15 :: n :: list_key k v | a => attr_key a end.
Definition layer_sized (P : attr -> Prop) (a : attr) : Prop := match a with AAttrSet _ v => Forall P v | a => attr_sized a end.
Lemma keyed_layer inner k P : keyed inner k P -> keyed (oattr_layer onum inner) (layer_key k) (layer_sized P).
Proof.
  intros Hi. assert (KN := keyed_num (@any N)). assert (KL := keyed_vals _ _ KN).
  eapply keyed_imp.
  - apply keyed_view. apply (keyed_variants 0); [exact KN| |]. apply (keyed_variants 1); [exact KL| |]. apply (keyed_variants 2); [apply keyed_ip| |].
    apply (keyed_variants 3); [exact KN| |]. apply (keyed_variants 4); [exact KN| |]. apply (keyed_variants 5); [apply keyed_ip| |].
    apply (keyed_variants 6); [apply keyed_fields; exact KN| |]. apply (keyed_variants 7); [exact KL| |]. apply (keyed_variants 8); [apply keyed_ip| |].
    apply (keyed_variants 9); [apply keyed_vals, keyed_ip| |]. apply (keyed_variants 10); [apply keyed_fields; [apply keyed_bgpaddr|apply keyed_addrs]| |].
    apply (keyed_variants 11); [apply keyed_addrs| |]. apply (keyed_variants 12); [apply keyed_vals, keyed_ecomm| |].
    apply (keyed_variants 13); [apply keyed_vals, keyed_lcomm| |]. apply (keyed_variants 14); [apply keyed_pmsi| |].
    apply (keyed_variants 15); [apply keyed_fields; [exact KN|apply keyed_list, Hi]| |].
    apply (keyed_variants 16); [apply keyed_fields; [exact KN|apply keyed_fields; exact KN]| |].
    apply (keyed_last 17), keyed_fields; [apply keyed_fields; exact KN|exact KL].
    all: repeat apply from_variants; apply from_last.
  - intros []; reflexivity.
  - intros [] H; cbn in *; unfold any; repeat split; exact H.
Qed.
Fixpoint key_at (d : nat) : attr -> list N := layer_key (match d with O => fun _ => [] | S d => key_at d end).
Fixpoint sized_at (d : nat) : attr -> Prop := layer_sized (match d with O => fun _ => True | S d => sized_at d end).
Lemma keyed_g d : keyed (oattr_g onum d) (key_at d) (sized_at d).
Proof.
  induction d as [|d IH]; cbn [oattr_g key_at sized_at]; apply keyed_layer; [|exact IH].
  intros x y _ _. split; [reflexivity|now left].
Qed.
Lemma key_at_eq a : forall d, (sets_deep a <= d)%nat -> key_at d a = attr_key a.
Proof.
  induction a as [a IH] using attr_ind'. intros d H. destruct a; try (destruct d; reflexivity).
  specialize (IH _ _ eq_refl). rewrite Forall_forall in IH.
  assert (E : list_key (match d with O => fun _ => [] | S d => key_at d end) v = list_key attr_key v).
  { unfold list_key. do 2 f_equal. apply map_ext_in. intros x I. destruct (deep_inner _ _ _ _ H I) as (d' & -> & L). now rewrite IH. }
  destruct d; cbn [key_at layer_key attr_key]; now rewrite E.
Qed.
Lemma sized_at_eq a : forall d, (sets_deep a <= d)%nat -> attr_sized a -> sized_at d a.
Proof.
  induction a as [a IH] using attr_ind'. intros d H. destruct a; try (destruct d; intros K; exact K).
  specialize (IH _ _ eq_refl). rewrite Forall_forall in IH. intros K.
  assert (E : Forall (match d with O => fun _ => True | S d => sized_at d end) v).
  { apply Forall_forall. intros x I. destruct (deep_inner _ _ _ _ H I) as (d' & -> & L). apply IH; [exact I|exact L|].
    clear - K I. cbn [attr_sized] in K. induction v as [|y v IHv]; [contradiction I|]. destruct K as [K1 K2]. destruct I as [<-|I]; auto. }
  destruct d; exact E.
Qed.
Lemma attr_sorted : sorted_by oattr attr_key attr_sized.
Proof.
  intros a b Ha Hb. set (d := Nat.max (sets_deep a) (sets_deep b)).
  assert (E1 : (sets_deep a <= d)%nat) by apply Nat.le_max_l. assert (E2 : (sets_deep b <= d)%nat) by apply Nat.le_max_r.
  destruct (oattr_at d a b E1 E2) as (_ & -> & _ & _).
  rewrite (keyed_sorted _ _ _ (keyed_g d) a b (sized_at_eq a d E1 Ha) (sized_at_eq b d E2 Hb)), !key_at_eq by assumption. reflexivity.
Qed.
Lemma bgpaddr_sorted : sorted_by obgpaddr bgpaddr_key any.
Proof. exact (keyed_sorted _ _ _ keyed_bgpaddr). Qed.
(** the sets of communities are kept in the order of their elements *)
Lemma comm_orders : (forall x y, ecomm_cmp x y = ocmp oecomm x y) /\ (forall x y, lcomm_cmp x y = ocmp olcomm x y).
Proof.
  split; [intros [a b c d] [a' b' c' d']|intros [a b c] [a' b' c']]; unfold ecomm_cmp, lcomm_cmp; cbn; destruct (a ?= a'); try reflexivity; cbn; destruct (b ?= b'); try reflexivity; cbn;
    destruct (c ?= c'); reflexivity.
Qed.

(** ** Capabilities and OPEN *)
Lemma laws_string : ord_laws ostring (fun x => x).
Proof.
  destruct laws_bytes as [A B C D _]. constructor; [exact A|exact B|exact C|exact D|]. now intros x y ->.
Qed.
Lemma pa_string : partial_agrees ostring. Proof. exact (pa_list _ pa_num). Qed.
Lemma laws_gr : ord_laws ogr (fun x => x).
Proof. eapply laws_ext; [eapply laws_view; repeat laws_tac|]. intros [] []; cbn; split; congruence. Qed.
Lemma laws_llgr : ord_laws ollgr (fun x => x).
Proof. eapply laws_ext; [eapply laws_view; repeat laws_tac|]. intros [] []; cbn; split; congruence. Qed.
Lemma laws_ap : ord_laws oap (fun x => x).
Proof. eapply laws_ext; [eapply laws_view; repeat laws_tac|]. intros [] []; cbn; split; congruence. Qed.
Local Definition cap_unview (t : N * (unit + (N * (bool * list capGR) + (N + (list capAP + (list capLLGR + list N * list N)))))) : bgpcap :=
  match t with
  | (_, inr (inl (t, (st, v)))) => CapGR st t v | (_, inr (inr (inl n))) => CapASN32 n | (_, inr (inr (inr (inl v)))) => CapAddPath v
  | (_, inr (inr (inr (inr (inl v))))) => CapLLGR v | (_, inr (inr (inr (inr (inr (h, d)))))) => CapFQDN h d
  | (n, inl _) => nth (N.to_nat n) [CapMP SafiIPv4u; CapMP SafiIPv4m; CapMP SafiIPv4mvpn; CapMP SafiIPv4fu; CapMP SafiVPNv4u; CapMP SafiVPNv4fu;
      CapMP SafiVPNv4m; CapMP SafiIPv4lu; CapMP SafiIPv4mdt; CapMP SafiIPv6u; CapMP SafiIPv6lu; CapMP SafiIPv6fu; CapMP SafiVPNv6u; CapMP SafiVPNv6m;
      CapMP SafiIPv6mdt; CapMP SafiVPLS; CapMP SafiEVPN; CapRR; CapRR; CapRR; CapRR; CapEnhancedRR; CapRR; CapRR; CapBFD] CapRR
  end.
Lemma cap_view_inj x y : cap_view x = cap_view y -> x = y.
Proof.
  assert (G : forall a, cap_unview (cap_view a) = a) by (intros [[]| | | | | | | |]; reflexivity).
  intros E. rewrite <- (G x), <- (G y). now rewrite E.
Qed.
Lemma laws_cap : ord_laws ocap (fun x => x).
Proof.
  eapply laws_ext.
  - eapply laws_view, laws_fields; [eapply laws_num|]. eapply laws_variants; [eapply laws_unit|].
    eapply laws_variants; [eapply laws_fields; [eapply laws_num|eapply laws_fields; [eapply laws_bool|eapply laws_listid, laws_gr]]|].
    eapply laws_variants; [eapply laws_num|]. eapply laws_variants; [eapply laws_listid, laws_ap|]. eapply laws_variants; [eapply laws_listid, laws_llgr|].
    eapply laws_fields; eapply laws_string.
  - match goal with |- forall x y, ?q x = ?q y <-> _ =>
      assert (V : forall a, q a = cap_view a); [intros []; reflexivity|];
      intros x y; split; intros E; [apply cap_view_inj; transitivity (q x); [symmetry; apply V|]; transitivity (q y); [exact E|apply V]|now rewrite E]
    end.
Qed.
Lemma pa_cap : partial_agrees ocap.
Proof.
  assert (S1 := pa_string). assert (G : partial_agrees ogr) by (apply pa_view; repeat pa_tac).
  assert (L : partial_agrees ollgr) by (apply pa_view; repeat pa_tac). assert (A : partial_agrees oap) by (apply pa_view; repeat pa_tac).
  apply pa_view; repeat pa_tac.
Qed.
Lemma laws_open : ord_laws oopen (fun x => x).
Proof.
  eapply laws_ext; [eapply laws_view; repeat eapply laws_fields; [eapply laws_num..|eapply laws_listid, laws_cap]|]. intros [] []; cbn; split; congruence.
Qed.
Lemma pa_open : partial_agrees oopen.
Proof. assert (C := pa_cap). apply pa_view; repeat pa_tac. Qed.
Lemma cap_eq_used a b : cap_eqb a b = oeq ocap a b.
Proof.
  pose proof (cap_eqb_eq a b) as H1. pose proof (law_eq _ _ laws_cap a b) as H2. cbv beta in H2.
  destruct (cap_eqb a b), (oeq ocap a b); try reflexivity.
  - symmetry. apply H2, H1. reflexivity.
  - apply H1, H2. reflexivity.
Qed.
Lemma keyed_gr : keyed ogr gr_key any. Proof. kview kf; [reflexivity|kdone]. Qed.
Lemma keyed_llgr : keyed ollgr llgr_key any. Proof. kview kf; [reflexivity|kdone]. Qed.
Lemma keyed_ap : keyed oap ap_key any. Proof. kview kf; [reflexivity|kdone]. Qed.
Lemma keyed_string : keyed ostring (list_key num_key) any.
Proof. exact (keyed_vals _ _ (keyed_num (@any N))). Qed.
Lemma keyed_cap : keyed ocap cap_key any.
Proof.
  assert (KG := keyed_vals _ _ keyed_gr). assert (KL := keyed_vals _ _ keyed_llgr). assert (KA := keyed_vals _ _ keyed_ap).
  assert (KGR := keyed_fields _ _ _ _ _ _ (keyed_num any) (keyed_fields _ _ _ _ _ _ (keyed_bool any) KG)).
  assert (KF := keyed_fields _ _ _ _ _ _ keyed_string keyed_string).
  intros x y _ _.
  assert (Hd : forall i (u v : list N) c, c = lexc u v /\ apart u v ->
    (match i ?= i with Eq => c | d => d end) = lexc (i :: u) (i :: v) /\ apart (i :: u) (i :: v)).
  { intros i u v c [-> A]. rewrite N.compare_refl. split; [|apply apart_cons; now right]. unfold lexc. cbn. now rewrite N.compare_refl. }
  assert (G : forall c, cap_key c = fst (cap_view c) :: match snd (cap_view c) with inl _ => []
    | inr (inl (t, (st, v))) => t :: N.b2n st :: list_key gr_key v | inr (inr (inl n)) => [n] | inr (inr (inr (inl v))) => list_key ap_key v
    | inr (inr (inr (inr (inl v)))) => list_key llgr_key v | inr (inr (inr (inr (inr (h, d))))) => list_key num_key h ++ list_key num_key d end).
  { intros [[]| | | | | | | |]; reflexivity. }
  rewrite !G.
  change (ocmp ocap x y) with (match fst (cap_view x) ?= fst (cap_view y) with Eq => ocmp (ovariants ounit (ovariants (ofields onum (ofields obool (olist ogr))) (ovariants onum
    (ovariants (olist oap) (ovariants (olist ollgr) (ofields ostring ostring)))))) (snd (cap_view x)) (snd (cap_view y)) | c => c end).
  destruct (N.eq_dec (fst (cap_view x)) (fst (cap_view y))) as [E|E].
  - rewrite E. apply Hd. clear Hd G.
    destruct x as [[]| | | | | | | |], y as [[]| | | | | | | |]; try discriminate E; try (split; [reflexivity|now left]).
    + apply (KGR (restart_time, (restart_state, afis)) (restart_time0, (restart_state0, afis0))); unfold any; repeat split.
    + apply (keyed_num any n n0); exact I.
    + apply (KA v v0); exact I.
    + apply (KL v v0); exact I.
    + apply (KF (hostname, domainname) (hostname0, domainname0)); unfold any; repeat split.
  - split; [|apply apart_cons; now left]. unfold lexc. cbn [list_cmp]. destruct (N.compare_spec (fst (cap_view x)) (fst (cap_view y))); [contradiction|reflexivity..].
Qed.
Lemma keyed_open : keyed oopen open_key any.
Proof.
  eapply keyed_imp; [apply keyed_view; repeat apply keyed_fields; [apply (keyed_num any)..|apply keyed_vals, keyed_cap]| |].
  - intros []; reflexivity.
  - kdone.
Qed.
Lemma cap_sorted : sorted_by ocap cap_key any. Proof. exact (keyed_sorted _ _ _ keyed_cap). Qed.
Lemma open_sorted : sorted_by oopen open_key any. Proof. exact (keyed_sorted _ _ _ keyed_open). Qed.
