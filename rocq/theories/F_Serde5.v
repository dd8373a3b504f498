From Coq Require Import Ascii String Permutation.
From Verif Require Import Base BaseFacts S_Attr S_Nlri S_Prefix S_Text S_Text2 F_Attr F_Text M_Util M_Prefix M_Nlri M_Vpls M_Mvpn M_Evpn M_Flowspec M_Addrs M_Attr M_Text M_Text2 M_Serde S_Serde S_Serde2 F_Serde F_Serde2 F_Serde3 F_Serde4.
Ltac Zify.zify_post_hook ::= idtac.

(** ** The types of /repo are sound *)
Fixpoint nodupb (l : list text) : bool := match l with [] => true | x :: l' => negb (existsb (text_eqb x) l') && nodupb l' end.
Lemma nodupb_ok l : nodupb l = true -> NoDup l.
Proof.
  induction l as [|x l IH]; [constructor|]. cbn [nodupb]. rewrite andb_true_iff, negb_true_iff. intros [H1 H2]. constructor; [|auto].
  intros I. assert (X : existsb (text_eqb x) l = true) by (apply existsb_exists; exists x; split; [exact I|apply text_eqb_refl]). congruence.
Qed.
Lemma sound_struct fs : nodupb (map fst (map (fun f => (txt (fst f), snd f)) fs)) = true -> Forall (fun f => sound_ty (snd f)) fs -> sound_ty (struct fs).
Proof.
  intros H F. split; [now apply nodupb_ok|]. clear H. induction F as [|[nm t] fs Ht _ IH]; [exact I|]. split; [exact Ht|exact IH].
Qed.
Lemma sound_enum vs : nodupb (map fst (map (fun f => (txt (fst f), snd f)) vs)) = true ->
  Forall (fun f => match snd f with Some t => sound_ty t | None => True end) vs -> sound_ty (enum vs).
Proof.
  intros H F. split; [now apply nodupb_ok|]. clear H. induction F as [|[nm [t|]] vs Ht _ IH]; [exact I| |exact IH]. split; [exact Ht|exact IH].
Qed.
Lemma sound_rd : sound_ty T_RD.
Proof. split; [now apply nodupb_ok|]. now repeat split. Qed.
Ltac fall := repeat (apply Forall_cons; [cbn [snd]; try exact I|]); try apply Forall_nil.
Lemma sound_vec t : sound_ty t -> sound_ty (TVec t). Proof. exact (fun H => H). Qed.
Lemma sound_trd t : sound_ty t -> sound_ty (TRd t). Proof. exact (fun H => H). Qed.
Lemma sound_tlab t : sound_ty t -> sound_ty (TLab t). Proof. exact (fun H => H). Qed.
Lemma sound_tpid t : sound_ty t -> sound_ty (TPid t). Proof. exact (fun H => H). Qed.
Lemma sound_v4 : sound_ty T_V4. Proof. apply sound_struct; [reflexivity|fall]. Qed.
Lemma sound_v6 : sound_ty T_V6. Proof. apply sound_struct; [reflexivity|fall]. Qed.
Lemma sound_mdt4 : sound_ty T_Mdt4. Proof. apply sound_struct; [reflexivity|fall]. apply sound_v4. Qed.
Lemma sound_mdt6 : sound_ty T_Mdt6. Proof. apply sound_struct; [reflexivity|fall]. apply sound_v6. Qed.
Lemma sound_l2a : sound_ty T_AddrL2. Proof. apply sound_struct; [reflexivity|fall]. apply sound_rd. Qed.
Lemma sound_l2 : sound_ty T_L2. Proof. apply sound_struct; [reflexivity|fall]. apply sound_rd. Qed.
Lemma sound_mvpn3 : sound_ty T_Mvpn3. Proof. apply sound_struct; [reflexivity|fall]. apply sound_rd. Qed.
Lemma sound_mvpn67 : sound_ty T_Mvpn67. Proof. apply sound_struct; [reflexivity|fall]. apply sound_rd. Qed.
Lemma sound_mvpn : sound_ty T_Mvpn.
Proof.
  apply sound_enum; [reflexivity|fall]; try apply sound_mvpn3; try apply sound_mvpn67; apply sound_struct; try reflexivity; fall; try apply sound_rd. apply sound_mvpn3.
Qed.
Lemma sound_evpn : sound_ty T_Evpn.
Proof. apply sound_enum; [reflexivity|fall]; apply sound_struct; try reflexivity; fall; apply sound_rd. Qed.
Lemma sound_flow t : sound_ty t -> sound_ty (T_Flow t).
Proof.
  intros H. assert (V : sound_ty T_FsVal) by (apply sound_struct; [reflexivity|fall]). assert (M : sound_ty T_FsMask) by (apply sound_struct; [reflexivity|fall]).
  split; [reflexivity|]. repeat (split; [first [exact H|exact V|exact M]|]). exact I.
Qed.
Lemma sound_fs6 : sound_ty T_Fs6. Proof. apply sound_struct; [reflexivity|fall]. apply sound_v6. Qed.
Ltac route :=
  match goal with
  | |- sound_ty (TVec _) => apply sound_vec; route
  | |- sound_ty (TRd _) => apply sound_trd; route
  | |- sound_ty (TLab _) => apply sound_tlab; route
  | |- sound_ty (TPid _) => apply sound_tpid; route
  | |- sound_ty (T_Flow _) => apply sound_flow; route
  | |- sound_ty ?t => first [exact sound_v4|exact sound_v6|exact sound_mdt4|exact sound_mdt6|exact sound_l2a|exact sound_mvpn|exact sound_evpn|exact sound_fs6]
  end.
Lemma sound_addrs : sound_ty T_Addrs.
Proof. apply sound_enum; [reflexivity|fall]; route. Qed.
Lemma sound_addr : sound_ty T_Addr.
Proof. apply sound_enum; [reflexivity|fall]; try apply sound_l2; try apply sound_mvpn; apply sound_struct; try reflexivity; fall; apply sound_rd. Qed.
Lemma sound_ta t : sound_ty t -> sound_ty (TA t).
Proof.
  intros H. apply sound_enum; [reflexivity|]. fall.
  - apply sound_enum; [reflexivity|fall].
  - apply sound_struct; [reflexivity|fall].
  - left. now exists 32.
  - apply sound_struct; [reflexivity|fall]; [apply sound_addr|apply sound_addrs].
  - apply sound_struct; [reflexivity|fall]. apply sound_addrs.
  - right. eexists. split; [reflexivity|]. split; [now apply nodupb_ok|]. repeat (apply Forall_cons; [eexists; reflexivity|]). apply Forall_nil.
  - right. eexists. split; [reflexivity|]. split; [now apply nodupb_ok|]. repeat (apply Forall_cons; [eexists; reflexivity|]). apply Forall_nil.
  - apply sound_struct; [reflexivity|fall]. apply sound_enum; [reflexivity|fall]; apply sound_struct; try reflexivity; fall.
  - apply sound_struct; [reflexivity|fall]. exact H.
  - apply sound_struct; [reflexivity|fall].
  - apply sound_struct; [reflexivity|fall]. apply sound_struct; [reflexivity|fall].
Qed.
Lemma sound_attr n : sound_ty (T_Attr n).
Proof. induction n as [|n IH]; [exact (sound_ta TFuel I)|exact (sound_ta (T_Attr n) IH)]. Qed.

(** ** Where flow specifications and wrappers are *)
Lemma existsb_map {A} (f : gval -> bool) (g : A -> gval) b v : (forall x, f (g x) = b) -> existsb f (map g v) = (b && some v)%bool.
Proof. intros H. induction v as [|x v IH]; [now rewrite andb_false_r|]. cbn [map existsb some]. rewrite H, IH. now destruct b, v. Qed.
Lemma enum_flow vs i nm t v : nth_error vs i = Some (nm, Some t) -> flow_in (TEnum vs) (GVariant i (Some v)) = flow_in t v.
Proof.
  intros E. change (flow_vs v vs i = flow_in t v). revert i E. induction vs as [|[nm' ot] vs IH]; intros [|i] E; cbn in E; try discriminate.
  - injection E as _ ->. reflexivity.
  - destruct ot; exact (IH i E).
Qed.
Lemma enum_wrapped vs i nm t v : nth_error vs i = Some (nm, Some t) -> wrapped_in (TEnum vs) (GVariant i (Some v)) = wrapped_in t v.
Proof.
  intros E. change (wrapped_vs v vs i = wrapped_in t v). revert i E. induction vs as [|[nm' ot] vs IH]; intros [|i] E; cbn in E; try discriminate.
  - injection E as _ ->. reflexivity.
  - destruct ot; exact (IH i E).
Qed.
Fixpoint plain (t : ty) : bool :=
  match t with
  | TVec t | TSet t | TOpt t => plain t
  | TStruct fs => forallb (fun f => match f with (_, t) => plain t end) fs
  | TEnum vs => forallb (fun f => match f with (_, Some t) => plain t | (_, None) => true end) vs
  | TRd _ | TLab _ | TPid _ | TFlow _ => false
  | _ => true
  end.
Lemma plain_ok t : plain t = true -> forall v, flow_in t v = false /\ wrapped_in t v = false.
Proof.
  induction t as [|w| | | |n|t IH|t IH|t IH|fs IH|vs IH|t IH|t IH|t IH|ps IH| |] using ty_rect'; intros P v; try discriminate P; try (now destruct v).
  - destruct v as [| | | | |l| | | | |]; try now split. cbn [flow_in wrapped_in]. induction l as [|x l IHl]; [now split|]. cbn [existsb]. destruct (IH P x) as [-> ->]. exact IHl.
  - destruct v as [| | | | |l| | | | |]; try now split. cbn [flow_in wrapped_in]. induction l as [|x l IHl]; [now split|]. cbn [existsb]. destruct (IH P x) as [-> ->]. exact IHl.
  - destruct v; try now split. cbn [flow_in wrapped_in]. now apply IH.
  - destruct v as [| | | | |l| | | | |]; try now split. change (flow_fs fs l = false /\ wrapped_fs fs l = false). cbn [plain] in P. revert l.
    induction IH as [|[nm t] fs Ht _ IHf]; intros l; [now destruct l|]. destruct l as [|x l]; [now split|]. cbn [forallb] in P. apply andb_true_iff in P as [P1 P2].
    cbn [flow_fs wrapped_fs]. cbn [snd] in Ht. destruct (Ht P1 x) as [-> ->]. exact (IHf P2 l).
  - destruct v as [| | | | | | | | |i [v|]|]; try now split. change (flow_vs v vs i = false /\ wrapped_vs v vs i = false). cbn [plain] in P. revert i.
    induction IH as [|[nm [t|]] vs Ht _ IHf]; intros i; [now destruct i| |]; cbn [forallb] in P.
    + apply andb_true_iff in P as [P1 P2]. destruct i as [|i]; [exact (Ht P1 v)|exact (IHf P2 i)].
    + destruct i as [|i]; [now split|exact (IHf P i)].
Qed.
Lemma plain_flow t v : plain t = true -> flow_in t v = false. Proof. intros P. now apply plain_ok. Qed.
Lemma plain_wrapped t v : plain t = true -> wrapped_in t v = false. Proof. intros P. now apply plain_ok. Qed.
Ltac no_flow := first [apply plain_flow; reflexivity|match goal with |- flow_in _ (g_lab _ _) = _ => cbn [g_lab flow_in] | |- flow_in _ (g_wrd _ _) = _ => cbn [g_wrd flow_in]
  | |- flow_in _ (g_pid _ _) = _ => cbn [g_pid flow_in] end; no_flow].
Lemma addrs_flow a : flow_in T_Addrs (g_addrs a) = flow_list a.
Proof.
  unfold T_Addrs, enum. destruct a; cbn [g_addrs flow_list]; [reflexivity|..]; erewrite enum_flow by reflexivity; cbn [flow_in g_vec];
    first [rewrite (existsb_map _ _ false); [reflexivity|intros x; no_flow]
          |rewrite (existsb_map _ _ true); [reflexivity|intros x; reflexivity]].
Qed.
Lemma addrs_wrapped a : wrapped_in T_Addrs (g_addrs a) = wrapped_list a.
Proof.
  unfold T_Addrs, enum. destruct a; cbn [g_addrs wrapped_list]; [reflexivity|..]; erewrite enum_wrapped by reflexivity; cbn [wrapped_in g_vec];
    first [rewrite (existsb_map _ _ true); [reflexivity|intros x; reflexivity]
          |rewrite (existsb_map _ _ false); [reflexivity|intros x; first [apply plain_wrapped; reflexivity|now destruct x]]].
Qed.
Lemma attr_occurs (f : ty -> gval -> bool) p :
  (forall vs i nm t v, nth_error vs i = Some (nm, Some t) -> f (TEnum vs) (GVariant i (Some v)) = f t v) ->
  (forall t l, f (TVec t) (GList l) = existsb (f t) l) ->
  (forall x y l, f (struct [x; y]) (GList l) = match l with a :: b :: _ => f (snd x) a || (f (snd y) b || false) | a :: _ => f (snd x) a || false | [] => false end)%bool ->
  (forall x l, f (struct [x]) (GList l) = match l with a :: _ => f (snd x) a || false | [] => false end)%bool ->
  (forall t v, plain t = true -> f t v = false) -> (forall x, f T_Addrs (g_addrs x) = p x) ->
  forall n a, (sets_deep a <= n)%nat -> f (T_Attr n) (g_attr a) = attr_lists p a.
Proof.
  intros HE HV HS2 HS1 HP HA. induction n as [n IHn] using lt_wf_ind. intros a L. rewrite T_Attr_eq. unfold TA, enum.
  destruct a; cbn [g_attr attr_lists]; erewrite HE by reflexivity; try (apply HP; reflexivity).
  - unfold T_MPUpdates. rewrite HS2. cbn [snd]. rewrite HA, (HP T_Addr) by reflexivity. cbn [orb]. apply orb_false_r.
  - unfold T_MPWithdraws. rewrite HS1. cbn [snd]. rewrite HA. apply orb_false_r.
  - rewrite HS2. cbn [snd]. rewrite (HP (TUint 32)) by reflexivity. rewrite HV, orb_false_r. cbn [orb]. cbn [sets_deep] in L. apply deep_Forall in L.
    induction L as [|x v Hx _ IHv]; [reflexivity|]. cbn [map existsb]. rewrite IHv. f_equal. destruct n as [|n]; [clear - Hx; lia|]. cbn [T_Inner]. apply IHn; [|clear - Hx]; lia.
Qed.
Lemma attr_flow n a : (sets_deep a <= n)%nat -> flow_in (T_Attr n) (g_attr a) = attr_lists flow_list a.
Proof.
  revert n a. apply attr_occurs; try exact enum_flow; try exact plain_flow; try exact addrs_flow; try reflexivity.
  - intros [n1 t1] [n2 t2] [|a [|b l]]; reflexivity.
Qed.
Lemma attr_wrapped n a : (sets_deep a <= n)%nat -> wrapped_in (T_Attr n) (g_attr a) = attr_lists wrapped_list a.
Proof.
  revert n a. apply attr_occurs; try exact enum_wrapped; try exact plain_wrapped; try exact addrs_wrapped; try reflexivity.
  - intros [n1 t1] [n2 t2] [|a [|b l]]; reflexivity.
Qed.

(** ** Formats *)
Lemma num_presents : forall s, presents true s (num_doc s).
Proof.
  fix IH 1. intros s. destruct s as [b|n|s| |v|l|l|fs|i nm p]; cbn [num_doc]; try constructor.
  - apply IH.
  - induction l as [|x l IHl]; constructor; [apply IH|exact IHl].
  - induction l as [|x l IHl]; constructor; [apply IH|exact IHl].
  - apply (PrStructMap true fs (map KIndex (seq 0 (length fs))) (map (fun f => match f with (_, v) => num_doc v end) fs)).
    + replace (length fs) with (length (map fst fs)) by apply map_length. now apply by_number.
    + induction fs as [|[nm v] fs IHl]; constructor; [apply IH|exact IHl].
    + reflexivity.
  - destruct p as [v|]; constructor; auto.
Qed.
Lemma name_presents ix : forall s, presents ix s (name_doc s).
Proof.
  fix IH 1. intros s. destruct s as [b|n|s| |v|l|l|fs|i nm p]; cbn [name_doc]; try constructor.
  - apply IH.
  - induction l as [|x l IHl]; constructor; [apply IH|exact IHl].
  - induction l as [|x l IHl]; constructor; [apply IH|exact IHl].
  - apply (PrStructMap ix fs (map KName (map fst fs)) (map (fun f => match f with (_, v) => name_doc v end) fs)).
    + apply by_name.
    + induction fs as [|[nm v] fs IHl]; constructor; [apply IH|exact IHl].
    + replace (combine (map KName (map fst fs)) (map (fun f => match f with (_, v) => name_doc v end) fs)) with (map (fun f => match f with (nm, v) => (KName nm, name_doc v) end) fs); [reflexivity|].
      clear. induction fs as [|[nm v] fs IHl]; [reflexivity|]. cbn [map combine fst]. now rewrite IHl.
  - destruct p as [v|]; constructor; auto.
Qed.
(** numbers for field names: what fails is exactly what has a wrapper or a flow specification *)
Definition nrt (t : ty) : Prop := sound_ty t -> forall hr v, typed t v -> de hr t (num_doc (ser hr t v)) = rd_result (flow_in t v || wrapped_in t v) v.
Definition nfs hr := fix go (fs : list (text * ty)) (l : list gval) {struct fs} : list rfld :=
  match fs, l with
  | (nm, t) :: fs', v :: l' => (nm, de hr t, dflt t, v, (flow_in t v || wrapped_in t v)%bool) :: go fs' l'
  | _, _ => []
  end.
Lemma nfs_fields hr fs : forall l, typed_fs fs l ->
  map rf_f (nfs hr fs l) = map (fun f => match f with (nm, t) => (nm, de hr t, dflt t) end) fs /\ map rf_v (nfs hr fs l) = l /\
  existsb rf_b (nfs hr fs l) = (flow_fs fs l || wrapped_fs fs l)%bool /\ map fst (ser_fs hr fs l) = map fst fs /\
  map fld_name (map rf_f (nfs hr fs l)) = map fst fs /\ length (ser_fs hr fs l) = length fs.
Proof.
  induction fs as [|[nm t] fs IH]; intros [|v l] T; cbn [typed_fs] in T; try contradiction; [repeat split|].
  destruct T as [_ T]. destruct (IH l T) as (E1 & E2 & E3 & E4 & E5 & E6). cbn [nfs map existsb flow_fs wrapped_fs ser_fs rf_f rf_v rf_b fst snd fld_name length].
  rewrite E1, E2, E3, E4, E6. repeat split.
  - now destruct (flow_in t v), (wrapped_in t v), (flow_fs fs l).
  - f_equal. rewrite <- E5, E1. reflexivity.
Qed.
Lemma existsb_or {A} (f g : A -> bool) l : existsb (fun x => (f x || g x)%bool) l = (existsb f l || existsb g l)%bool.
Proof. induction l as [|x l IH]; [reflexivity|]. cbn [existsb]. rewrite IH. now destruct (f x), (g x), (existsb f l). Qed.
Lemma nlist hr t l : nrt t -> sound_ty t -> Forall (typed t) l ->
  Forall2 (fun v d => de hr t d = rd_result (flow_in t v || wrapped_in t v) v) l (map num_doc (map (ser hr t) l)).
Proof. intros R Sd T. induction T as [|v l Tv _ IH]; constructor; auto. Qed.
Lemma numbers t : nrt t.
Proof.
  induction t as [|w| | | |n|t IH|t IH|t IH|fs IH|vs IH|t IH|t IH|t IH|ps IH| |] using ty_rect'; intros Sd hr v T;
    try (rewrite (plain_wrapped _ v) by reflexivity; rewrite orb_false_r; apply (roundtrip _ Sd true hr v);
         [intros _; now apply plain_wrapped|exact T|apply num_presents]).
  - destruct v; cbn [typed] in T; try contradiction. cbn [ser num_doc de de_seq flow_in wrapped_in].
    rewrite (de_list_run (de hr t) (fun v => (flow_in t v || wrapped_in t v)%bool) l) by now apply nlist. rewrite existsb_or.
    now destruct (existsb (flow_in t) l || existsb (wrapped_in t) l)%bool.
  - assert (P : plain t = true).
    { destruct Sd as [(w & ->)|(fs & -> & ND & F')]; [reflexivity|]. cbn [plain]. clear - F'. induction F' as [|[nm t] fs (w & E) _ IH]; [reflexivity|]. cbn [snd] in E. subst t. exact IH. }
    rewrite (plain_wrapped (TSet t) v) by exact P. rewrite orb_false_r. apply (roundtrip _ Sd true hr v); [intros _; now apply plain_wrapped|exact T|apply num_presents].
  - destruct v; cbn [typed] in T; try contradiction; cbn [ser num_doc]; [reflexivity|]. cbn [de flow_in wrapped_in]. rewrite (IH Sd hr v T). now destruct (flow_in t v || wrapped_in t v)%bool.
  - destruct v; cbn [typed] in T; try contradiction. change (typed_fs fs l) in T. destruct Sd as [ND Sd]. change (sound_fs fs) in Sd.
    destruct (nfs_fields hr fs l T) as (E1 & E2 & E3 & E4 & E5 & E6). cbn [de]. rewrite <- E1.
    change (ser hr (TStruct fs) (GList l)) with (VStruct (ser_fs hr fs l)). cbn [num_doc].
    rewrite (de_struct_run true (nfs hr fs l) (map (fun f => match f with (_, v) => num_doc v end) (ser_fs hr fs l))).
    + rewrite E2, E3. change (flow_in (TStruct fs) (GList l)) with (flow_fs fs l). change (wrapped_in (TStruct fs) (GList l)) with (wrapped_fs fs l).
      now destruct (flow_fs fs l || wrapped_fs fs l)%bool.
    + now rewrite E5.
    + clear - IH Sd T. revert l T. induction IH as [|[nm t] fs Ht _ IHf]; intros [|v l] T; cbn [typed_fs] in T; try contradiction; cbn [nfs ser_fs map]; constructor.
      * unfold reads. cbn [rf_f rf_v rf_b fld_de fst snd]. apply (Ht (proj1 Sd) hr v). apply T.
      * apply IHf; [apply Sd|apply T].
    + rewrite E5. right. eexists. eexists. split; [reflexivity|]. split; [|reflexivity]. rewrite E6. rewrite <- (map_length fst fs). now apply by_number.
  - destruct v; cbn [typed] in T; try contradiction. change (typed_vs p vs i) in T. change (ser hr (TEnum vs) (GVariant i p)) with (ser_vs hr i p vs i).
    destruct (vs_case hr i p vs i T) as (nm & ot & E & H). destruct Sd as [ND Sd]. change (sound_vs vs) in Sd.
    cbn [de]. set (g := fun v0 : text * option ty => match v0 with (nm0, Some t) => (nm0, Some (de hr t)) | (nm0, None) => (nm0, None) end).
    assert (EN : map fst (map g vs) = map fst vs) by (rewrite map_map; apply map_ext; intros [? [?|]]; reflexivity).
    assert (EG : nth_error (map g vs) i = Some (g (nm, ot))) by (rewrite nth_error_map, E; reflexivity).
    assert (EF : nth_error (map fst vs) i = Some nm) by (rewrite nth_error_map, E; reflexivity).
    destruct ot as [t|], p as [v|]; try contradiction.
    + destruct H as (Tv & ES & FL & WR). rewrite ES. cbn [num_doc de_enum]. rewrite EN, (variant_key_ok _ i nm (KIndex i) ND EF (or_intror eq_refl)). cbn [sbind]. rewrite EG. cbn [g].
      assert (IHt : nrt t) by (rewrite Forall_forall in IH; apply nth_error_In in E; exact (IH _ E)).
      rewrite (IHt (sound_vs_nth vs i nm t Sd E) hr v Tv).
      change (flow_in (TEnum vs) (GVariant i (Some v))) with (flow_vs v vs i). change (wrapped_in (TEnum vs) (GVariant i (Some v))) with (wrapped_vs v vs i).
      rewrite FL, WR. now destruct (flow_in t v || wrapped_in t v)%bool.
    + rewrite H. cbn [num_doc de_enum]. rewrite EN, (variant_key_ok _ i nm (KIndex i) ND EF (or_intror eq_refl)). cbn [sbind]. rewrite EG. reflexivity.
  - destruct v; cbn [typed] in T; try contradiction. cbn [flow_in wrapped_in]. rewrite orb_true_r. reflexivity.
  - destruct v; cbn [typed] in T; try contradiction. cbn [flow_in wrapped_in]. rewrite orb_true_r. reflexivity.
  - destruct v; cbn [typed] in T; try contradiction. cbn [flow_in wrapped_in]. rewrite orb_true_r. reflexivity.
  - rewrite (roundtrip _ Sd true hr v (num_doc (ser hr (TFlow ps) v))); [|intros _; now destruct v|exact T|apply num_presents]. now destruct v.
Qed.

(** ** Fuel *)
Definition safe (k : nat) (t : ty) : Prop := forall hr d, (doc_deep d <= k)%nat -> de hr t d <> SFuel.
Lemma deep_pos d : (1 <= doc_deep d)%nat. Proof. destruct d; cbn [doc_deep]; lia. Qed.
Lemma safe_mono j k t : (j <= k)%nat -> safe k t -> safe j t.
Proof. intros L H hr d D. apply H. clear - L D. lia. Qed.
Lemma sbind_fuel {A B} (x : sres A) (f : A -> sres B) : x <> SFuel -> (forall a, f a <> SFuel) -> sbind x f <> SFuel.
Proof. intros H1 H2. destruct x; cbn [sbind]; [apply H2|discriminate|contradiction]. Qed.
Lemma map_loop_fuel fs : forall es acc, (forall k d f, In (k, d) es -> In f fs -> fld_de f d <> SFuel) -> map_loop fs acc es <> SFuel.
Proof.
  induction es as [|[k d] es IH]; intros acc H; cbn [map_loop]; [discriminate|].
  assert (H' : forall k d f, In (k, d) es -> In f fs -> fld_de f d <> SFuel) by (intros k' d' f I1 I2; apply (H k'); [now right|exact I2]).
  destruct (field_key (map fld_name fs) k) as [i|]; [|now apply IH]. destruct (nth_error fs i) as [f|] eqn:E; [|discriminate].
  destruct (nth i acc None); [discriminate|]. apply sbind_fuel; [|intros a; now apply IH]. apply (H k); [now left|now apply nth_error_In with i].
Qed.
Lemma finish_fuel : forall fs acc, finish fs acc <> SFuel.
Proof.
  induction fs as [|f fs IH]; intros [|a acc]; cbn [finish]; try discriminate. apply sbind_fuel; [destruct a; [discriminate|destruct (snd f); discriminate]|].
  intros v. apply sbind_fuel; [apply IH|discriminate].
Qed.
Lemma seq_loop_fuel : forall fs ds i, (forall f d, In f fs -> In d ds -> f d <> SFuel) -> seq_loop i fs ds <> SFuel.
Proof.
  induction fs as [|f fs IH]; intros [|d ds] i H; cbn [seq_loop]; try discriminate. apply sbind_fuel; [apply H; now left|].
  intros v. apply sbind_fuel; [|discriminate]. apply IH. intros f' d' I1 I2. apply H; now right.
Qed.
Lemma de_struct_fuel fs d : (forall f d', In f fs -> (S (doc_deep d') <= doc_deep d)%nat -> fld_de f d' <> SFuel) -> de_struct fs d <> SFuel.
Proof.
  destruct d as [| | | | |ds|es|]; cbn [de_struct]; try discriminate; intros H.
  - apply sbind_fuel; [|discriminate]. apply seq_loop_fuel. intros f d' I1 I2. apply in_map_iff in I1 as (f' & <- & I1). apply (H f' d' I1). cbn [doc_deep]. apply le_n_S.
    clear - I2. induction ds as [|x ds IH]; [contradiction|]. cbn [fold_right]. destruct I2 as [->|I2]; [apply Nat.le_max_l|]. specialize (IH I2). etransitivity; [exact IH|apply Nat.le_max_r].
  - apply sbind_fuel; [|intros a; apply sbind_fuel; [apply finish_fuel|discriminate]]. apply map_loop_fuel. intros k d' f I2 I1. apply (H f d' I1). cbn [doc_deep]. apply le_n_S.
    clear - I2. induction es as [|x es IH]; [contradiction|]. cbn [fold_right]. destruct I2 as [->|I2]; [apply Nat.le_max_l|]. specialize (IH I2). etransitivity; [exact IH|apply Nat.le_max_r].
Qed.
Lemma de_list_fuel f ds : (forall d, In d ds -> f d <> SFuel) -> de_list f ds <> SFuel.
Proof. induction ds as [|d ds IH]; intros H; cbn [de_list]; [discriminate|]. apply sbind_fuel; [apply H; now left|]. intros v. apply sbind_fuel; [|discriminate]. apply IH. intros d' I. apply H. now right. Qed.
Lemma de_uint_fuel w d : de_uint w d <> SFuel.
Proof. destruct d; cbn [de_uint]; try discriminate. destruct (n <? 2 ^ w); discriminate. Qed.
Lemma de_octets_fuel n d : de_octets n d <> SFuel.
Proof. destruct d; cbn [de_octets]; try discriminate. apply seq_loop_fuel. intros f d I1 _. apply repeat_spec in I1 as ->. apply de_uint_fuel. Qed.
Lemma de_ip4_fuel hr d : de_ip4 hr d <> SFuel.
Proof. unfold de_ip4. destruct hr; [destruct d; try discriminate; destruct (parse_ipv4 s); discriminate|]. apply sbind_fuel; [apply de_octets_fuel|discriminate]. Qed.
Lemma de_ip6_fuel hr d : de_ip6 hr d <> SFuel.
Proof. unfold de_ip6. destruct hr; [destruct d; try discriminate; destruct (parse_ipv6 s); discriminate|]. apply sbind_fuel; [apply de_octets_fuel|discriminate]. Qed.
Lemma variant_key_fuel names k : variant_key names k <> SFuel.
Proof. unfold variant_key. destruct (field_key names k); discriminate. Qed.
Lemma pair_fuel names miss fa fb d : (forall d', (S (doc_deep d') <= doc_deep d)%nat -> fa d' <> SFuel) -> (forall d', (S (doc_deep d') <= doc_deep d)%nat -> fb d' <> SFuel) -> de_pair names miss fa fb d <> SFuel.
Proof.
  destruct d as [| | | | |ds|es|]; cbn [de_pair]; try discriminate; intros HA HB.
  - destruct ds as [|x ds]; [discriminate|]. apply sbind_fuel; [apply HA; cbn [doc_deep fold_right]; apply le_n_S, Nat.le_max_l|]. intros a.
    destruct ds as [|y ds]; [discriminate|]. apply sbind_fuel; [apply HB; cbn [doc_deep fold_right]; clear; lia|]. intros b. destruct ds; discriminate.
  - apply sbind_fuel; [|intros [a b]; cbn [fst snd]; apply sbind_fuel; [destruct a; discriminate|intros a'; apply sbind_fuel; [destruct b; discriminate|discriminate]]].
    cbn [doc_deep] in HA, HB. generalize (@None gval) at 1. generalize (@None gval). revert HA HB. induction es as [|[k d] es IH]; intros HA HB a b; cbn [pair_loop]; [discriminate|].
    cbn [fold_right] in HA, HB.
    assert (IH' : forall a b, pair_loop names fa fb b a es <> SFuel) by (apply IH; intros d' D; [apply HA|apply HB]; clear - D; lia).
    apply sbind_fuel.
    + destruct k; cbn [pair_key]; [|discriminate]. destruct (text_eqb s (fst names)); [discriminate|]. destruct (text_eqb s (snd names)); discriminate.
    + intros [|].
      * destruct a; [discriminate|]. apply sbind_fuel; [apply HB; clear; lia|]. intros v. apply IH'.
      * destruct b; [discriminate|]. apply sbind_fuel; [apply HA; clear; lia|]. intros v. apply IH'.
Qed.

