(** Proofs about [Debug] texts: the crate's own types. *)
From Coq Require Import Ascii String.
From Verif Require Import Base BaseFacts S_Attr S_Nlri S_Prefix S_Text S_Text2 F_Attr F_Text F_Text2 M_Util M_Prefix M_Nlri M_Vpls M_Mvpn M_Evpn M_Flowspec M_Addrs M_Attr M_Update M_Text M_Text2
  F_Text3 M_Serde S_Serde S_Serde2 F_Serde F_Serde3 F_Serde4 M_Debug F_Debug.
Ltac Zify.zify_post_hook ::= idtac.

(** ** The types of M_Serde and of M_Debug go together *)
Fixpoint same (t : ty) (y : dty) {struct y} : bool :=
  match y, t with
  | YNum, TUint _ => true
  | YBool, TBool => true
  | YIp4, TIp4 => true
  | YIp6, TIp6 => true
  | YIp, TIp => true
  | YMac, TArr n => Nat.eqb n 6
  | YVec y, TVec t => same t y
  | YVec y, TArr _ => match y with YNum => true | _ => false end
  | YSet y, TSet t => same t y
  | YOpt y, TOpt t => same t y
  | YNew _ _ y, t => same t y
  | YStruct _ fs, TStruct ts =>
      (fix go (ts : list (text * ty)) (fs : list (text * dty)) {struct fs} : bool :=
         match ts, fs with [], [] => true | (_, t) :: ts', (_, y) :: fs' => same t y && go ts' fs' | _, _ => false end) ts fs
  | YEnum vs, TEnum ts =>
      (fix go (ts : list (text * option ty)) (vs : list (text * option dty)) {struct vs} : bool :=
         match ts, vs with
         | [], [] => true
         | (_, Some t) :: ts', (_, Some y) :: vs' => same t y && go ts' vs'
         | (_, None) :: ts', (_, None) :: vs' => go ts' vs'
         | _, _ => false
         end) ts vs
  | YEnum vs, TFlow ts =>
      (fix go (ts : list ty) (vs : list (text * option dty)) {struct vs} : bool :=
         match ts, vs with
         | [], [] => true
         | t :: ts', (_, Some y) :: vs' => same t y && go ts' vs'
         | _, _ => false
         end) ts vs
  | YRd y, TRd t => same t y
  | YLab y, TLab t => same t y
  | YPid y, TPid t => same t y
  | YFuel, TFuel => true
  | _, _ => false
  end.
Lemma typed_fits y : forall t v, same t y = true -> typed t v -> fits y v.
Proof.
  induction y as [| | | | | |y IH|y IH|y IH|nm f y IH|nm fs IH|vs IH|y IH|y IH|y IH|] using dty_rect'; intros t v Sm T.
  - destruct t; try discriminate Sm. destruct v; cbn [typed] in T; try contradiction. constructor.
  - destruct t; try discriminate Sm. destruct v; cbn [typed] in T; try contradiction. constructor.
  - destruct t; try discriminate Sm. destruct v; cbn [typed] in T; try contradiction. now constructor.
  - destruct t; try discriminate Sm. destruct v; cbn [typed] in T; try contradiction. now constructor.
  - destruct t; try discriminate Sm. destruct v; cbn [typed] in T; try contradiction. now constructor.
  - destruct t; try discriminate Sm. destruct v; cbn [typed] in T; try contradiction. cbn [same] in Sm. apply Nat.eqb_eq in Sm as ->. destruct T as [L F].
    apply num_belows in F as (ns & -> & F). rewrite map_length in L. apply (FMac ns). now split.
  - destruct t; try discriminate Sm; destruct v; cbn [typed] in T; try contradiction.
    + destruct T as [L F]. cbn [same] in Sm. destruct y; try discriminate Sm. apply num_belows in F as (ns & -> & F). constructor. apply Forall_forall. intros x I.
      apply in_map_iff in I as (k & <- & _). constructor.
    + constructor. eapply Forall_impl; [|exact T]. intros x. now apply IH.
  - destruct t; try discriminate Sm. destruct v; cbn [typed] in T; try contradiction. constructor. destruct T as [T _]. eapply Forall_impl; [|exact T]. intros x. now apply IH.
  - destruct t; try discriminate Sm. destruct v; cbn [typed] in T; try contradiction; constructor. now apply (IH t).
  - constructor. destruct t; exact (IH _ _ Sm T).
  - destruct t as [| | | | | | | | |ts| | | | | | |]; try discriminate Sm. destruct v; cbn [typed] in T; try contradiction. constructor. cbn [same] in Sm.
    revert ts l Sm T. induction IH as [|[f y] fs Hy _ IHf]; intros [|[g t] ts] l Sm T; try discriminate Sm.
    + destruct l; [constructor|contradiction].
    + destruct l as [|v l]; [contradiction|]. apply andb_true_iff in Sm as [S1 S2]. destruct T as [T1 T2]. constructor; [now apply (Hy t)|now apply (IHf ts)].
  - destruct t as [| | | | | | | | | |ts| | | |ps| |]; try discriminate Sm; destruct v as [| | | | | | | | |i p|]; cbn [typed] in T; try contradiction; cbn [same] in Sm.
    + enough (H : forall k, (fix go (vs : list (text * option ty)) (k : nat) {struct vs} : Prop :=
         match vs, k with
         | (_, Some t) :: _, O => match p with Some v => typed t v | None => False end
         | (_, None) :: _, O => p = None
         | _ :: vs', S k' => go vs' k'
         | [], _ => False
         end) ts k -> exists nm oy, nth_error vs k = Some (nm, oy) /\ match oy with Some y => exists v, p = Some v /\ fits y v | None => p = None end).
      { apply H in T as (nm & [y|] & E & Hp); [destruct Hp as (w & -> & Fw); now apply (FVar vs i nm y w)|subst p; now apply (FUnit vs i nm)]. }
      clear T i. revert ts Sm. induction IH as [|[nm oy] vs Hy _ IHf]; intros [|[g ot] ts] Sm [|k] T; try contradiction; try discriminate Sm; try (destruct ot; discriminate Sm); try (destruct ot, oy; discriminate Sm).
      * exists nm, oy. split; [reflexivity|]. destruct ot as [t|], oy as [y|]; try discriminate Sm; [|exact T]. destruct p as [v|]; [|contradiction].
        exists v. split; [reflexivity|]. apply andb_true_iff in Sm as [S1 _]. now apply (Hy t).
      * apply (IHf ts); [|destruct ot; exact T]. destruct ot, oy; try discriminate Sm; [now apply andb_true_iff in Sm as [_ Sm]|exact Sm].
    + destruct p as [v|]; [|contradiction].
      enough (H : forall k, (fix go (ps : list ty) (k : nat) {struct ps} : Prop :=
         match ps, k with
         | t :: _, O => typed t v
         | _ :: ps', S k' => go ps' k'
         | [], _ => False
         end) ps k -> exists nm y, nth_error vs k = Some (nm, Some y) /\ fits y v).
      { apply H in T as (nm & y & E & Hp). now apply (FVar vs i nm y v). }
      clear T i. revert ps Sm. induction IH as [|[nm oy] vs Hy _ IHf]; intros [|t ps] Sm [|k] T; try contradiction; try discriminate Sm; try (destruct oy; discriminate Sm).
      * destruct oy as [y|]; [|discriminate Sm]. exists nm, y. split; [reflexivity|]. apply andb_true_iff in Sm as [S1 _]. now apply (Hy t).
      * apply (IHf ps); [|exact T]. destruct oy; [|discriminate Sm]. now apply andb_true_iff in Sm as [_ Sm].
  - destruct t; try discriminate Sm. destruct v; cbn [typed] in T; try contradiction. destruct T as [(h & l & -> & _) T]. constructor. now apply (IH t).
  - destruct t; try discriminate Sm. destruct v; cbn [typed] in T; try contradiction. destruct T as [(l & -> & F) T]. apply num_belows in F as (ns & -> & F). apply FLab. now apply (IH t).
  - destruct t; try discriminate Sm. destruct v; cbn [typed] in T; try contradiction. destruct T as [(n & -> & F) T]. constructor. now apply (IH t).
  - destruct t; try discriminate Sm. contradiction.
Qed.

(** ** The crate's types *)
Lemma rep_told {A} t y (g : A -> gval) P : rep t g P -> inj g -> same t y = true -> ysound y = true -> told (fun a => dbg y (g a)) P.
Proof.
  intros R I Sm Sd a b r r' Pa Pb Er Er' E. apply R in Pa. apply R in Pb. apply (typed_fits y) in Pa; [|exact Sm]. apply (typed_fits y) in Pb; [|exact Sm].
  apply (dbg_told y Sd) in E as [E ->]; auto.
Qed.
Lemma rep_begins {A} t y (g : A -> gval) P : rep t g P -> same t y = true -> ysound y = true -> begins (fun a => dbg y (g a)) P.
Proof. intros R Sm Sd a Pa. apply R in Pa. apply (typed_fits y) in Pa; [|exact Sm]. now apply dbg_begins. Qed.
Lemma told_inj {A} (f : A -> text) (P : A -> Prop) a b : told f P -> P a -> P b -> f a = f b -> a = b.
Proof. intros T Pa Pb E. apply (T a b [] []); try assumption; try exact I. now rewrite !app_nil_r. Qed.

Definition YA (y : dty) : dty :=
  yenum [("Origin", Some Y_Origin);
         ("ASPath", Some Y_ASPath);
         ("NextHop", Some Y_NextHop);
         ("MED", Some Y_MED);
         ("LocalPref", Some Y_LocalPref);
         ("AtomicAggregate", Some Y_AtomicAggregate);
         ("AggregatorAS", Some Y_Aggregator);
         ("CommunityList", Some Y_CommunityList);
         ("OriginatorID", Some Y_OriginatorID);
         ("ClusterList", Some Y_ClusterList);
         ("MPUpdates", Some Y_MPUpdates);
         ("MPWithdraws", Some Y_MPWithdraws);
         ("ExtCommunityList", Some Y_ExtList);
         ("LargeCommunityList", Some Y_LargeList);
         ("PMSITunnel", Some Y_Pmsi);
         ("AttrSet", Some (ystruct "BgpAttrSet" [("asn", YNum); ("attrs", YVec y)]));
         ("Connector", Some Y_Connector);
         ("Unknown", Some Y_Unknown)]%string.
Definition Y_Inner (n : nat) : dty := match n with O => YFuel | S n' => Y_Attr n' end.
Lemma Y_Attr_eq n : Y_Attr n = YA (Y_Inner n). Proof. now destruct n. Qed.
Lemma same_cons g t ts nm y vs : same (TEnum ((g, Some t) :: ts)) (YEnum ((nm, Some y) :: vs)) = same t y && same (TEnum ts) (YEnum vs). Proof. reflexivity. Qed.
Lemma ysound_cons nm y vs : ysound (YEnum ((nm, Some y) :: vs)) = true -> ysound y = true.
Proof. intros H. now apply (enum_sound _ 0 nm (Some y) H). Qed.
Lemma same_attr n : same (T_Attr n) (Y_Attr n) = true.
Proof.
  assert (Step : forall t y, same t y = true -> same (TA t) (YA y) = true).
  { intros t y H. unfold TA, YA, enum, yenum. cbn [map fst snd]. rewrite !same_cons.
    repeat (match goal with |- _ && _ = true => apply andb_true_intro; split end); try (vm_compute; reflexivity). unfold struct, ystruct. cbn [map fst snd]. cbn [same]. now rewrite H. }
  induction n as [|n IH]; rewrite T_Attr_eq, Y_Attr_eq; apply Step; [reflexivity|exact IH].
Qed.
Definition sound_vs := fix go (vs : list (text * option dty)) := match vs with [] => true | (_, Some y) :: vs' => ysound y && go vs' | (_, None) :: vs' => go vs' end.
Lemma ysound_enum vs : ysound (YEnum vs) = forallb (fun v => name_ok (fst v)) vs && nodupb (map fst vs) && sound_vs vs. Proof. reflexivity. Qed.
Lemma sound_vs_cons nm y vs : sound_vs ((nm, Some y) :: vs) = ysound y && sound_vs vs. Proof. reflexivity. Qed.
Lemma sound_yattr n : ysound (Y_Attr n) = true.
Proof.
  assert (Step : forall y, ysound y = true -> ysound (YA y) = true).
  { intros y H. unfold YA, yenum. cbn [map fst snd]. rewrite ysound_enum, !sound_vs_cons.
    repeat (match goal with |- _ && _ = true => apply andb_true_intro; split end); try (vm_compute; reflexivity). unfold ystruct. cbn [map fst snd]. cbn [ysound]. now rewrite H. }
  induction n as [|n IH]; rewrite Y_Attr_eq; apply Step; [reflexivity|exact IH].
Qed.

(** the text of an attribute does not depend on how deep one is prepared to look *)
Lemma attr_ind' (P : attr -> Prop) : (forall a, (forall asn v, a = AAttrSet asn v -> Forall P v) -> P a) -> forall a, P a.
Proof.
  intros H. fix IH 1. intros a. apply H. intros asn v E. destruct a; try discriminate E. injection E as <- <-. clear H.
  induction v0 as [|x l IHl]; constructor; [apply IH|exact IHl].
Qed.
Lemma enum_at vs i nm y v : nth_error vs i = Some (nm, Some y) -> dbg (YEnum vs) (GVariant i (Some v)) = d_variant nm (Some (dbg y v)).
Proof. intros E. now rewrite (dbg_enum _ _ _ _ _ E). Qed.
Lemma set_text n asn v : dbg (Y_Attr n) (g_attr (AAttrSet asn v)) =
  d_variant (txt "AttrSet") (Some (d_struct (txt "BgpAttrSet") [(txt "asn", fmt_dec asn); (txt "attrs", d_list (map (fun a => dbg (Y_Inner n) (g_attr a)) v))])).
Proof.
  rewrite Y_Attr_eq. cbn [g_attr]. unfold YA, yenum. cbn [map fst snd]. erewrite enum_at by reflexivity. unfold ystruct. cbn [map fst snd]. cbn [dbg]. now rewrite map_map.
Qed.
Lemma other_text n m a : (forall asn v, a <> AAttrSet asn v) -> dbg (Y_Attr n) (g_attr a) = dbg (Y_Attr m) (g_attr a).
Proof.
  intros H. rewrite !Y_Attr_eq. destruct a; try (exfalso; now apply (H asn v)); cbn [g_attr]; unfold YA, yenum; cbn [map fst snd]; (erewrite !enum_at by reflexivity); reflexivity.
Qed.
Lemma deep_text a : forall n m, (sets_deep a <= n)%nat -> (sets_deep a <= m)%nat -> dbg (Y_Attr n) (g_attr a) = dbg (Y_Attr m) (g_attr a).
Proof.
  induction a as [a IH] using attr_ind'. intros n m Hn Hm.
  assert (D : (exists asn v, a = AAttrSet asn v) \/ (forall asn v, a <> AAttrSet asn v)) by (destruct a; eauto; right; discriminate).
  destruct D as [(asn & v & ->)|D]; [|now apply other_text]. rewrite !set_text. specialize (IH _ _ eq_refl). cbn [sets_deep] in Hn, Hm. apply deep_Forall in Hn. apply deep_Forall in Hm.
  enough (M : map (fun a => dbg (Y_Inner n) (g_attr a)) v = map (fun a => dbg (Y_Inner m) (g_attr a)) v) by now rewrite M.
  clear asn. induction v as [|x v IHv]; [reflexivity|]. cbn [map]. f_equal.
  - pose proof (Forall_inv Hn) as H1. pose proof (Forall_inv Hm) as H2. destruct n as [|n]; [cbv beta in H1; lia|]. destruct m as [|m]; [cbv beta in H2; lia|].
    cbn [Y_Inner]. cbv beta in H1, H2. apply (Forall_inv IH); [clear - H1; lia|clear - H2; lia].
  - apply IHv; first [now apply Forall_inv_tail in IH|now apply Forall_inv_tail in Hn|now apply Forall_inv_tail in Hm].
Qed.
Lemma attr_text n a : (sets_deep a <= n)%nat -> attr_debug a = dbg (Y_Attr n) (g_attr a).
Proof. intros H. apply deep_text; [apply Nat.le_refl|exact H]. Qed.
Lemma attr_told : told attr_debug attr_any.
Proof.
  intros a b r r' Pa Pb Er Er' E. set (n := Nat.max (sets_deep a) (sets_deep b)).
  rewrite (attr_text n a), (attr_text n b) in E by (unfold n; lia).
  apply (rep_told _ _ _ _ (rep_attr n) inj_attr (same_attr n) (sound_yattr n)) in E as [-> ->]; auto; (split; [assumption|unfold n; lia]).
Qed.
Lemma attr_begins : begins attr_debug attr_any.
Proof.
  intros a Pa. unfold attr_debug. apply (rep_begins _ _ _ _ (rep_attr (sets_deep a)) (same_attr _) (sound_yattr _)). split; [exact Pa|apply Nat.le_refl].
Qed.
Lemma addrs_told : told addrs_debug addrs_any.
Proof. exact (rep_told _ _ _ _ rep_addrs inj_addrs (eq_refl true <: same T_Addrs Y_Addrs = true) (eq_refl true <: ysound Y_Addrs = true)). Qed.
Lemma addr_told : told addr_debug addr_any.
Proof. exact (rep_told _ _ _ _ rep_addr inj_addr (eq_refl true <: same T_Addr Y_Addr = true) (eq_refl true <: ysound Y_Addr = true)). Qed.
Lemma attrs_told : told (fun l => d_list (map attr_debug l)) (Forall attr_any).
Proof. exact (vec_told _ _ attr_told attr_begins). Qed.
