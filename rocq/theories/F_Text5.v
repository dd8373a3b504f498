(** Proofs about text forms: extended communities, PMSI tunnels, FlowSpec operators, errors. *)
From Coq Require Import Ascii String ZArith.
From Verif Require Import Base BaseFacts M_Util S_Wire F_Util M_Prefix S_Prefix F_Prefix M_Nlri S_Nlri M_Vpls S_Vpls M_Session M_Evpn S_Evpn M_Mvpn S_Mvpn
  M_Attr S_Attr M_Flowspec M_Text S_Text F_Text F_Text2 M_Text2 S_Text2 F_Text3 F_Text4.
Ltac Zify.zify_post_hook ::= idtac.

(** ** Extended communities *)
Lemma get_ipv4_val x : ecomm_wf x -> get_ipv4 x = ec_a x * 65536 + ec_b x / 65536 /\ get_num x = ec_b x mod 65536.
Proof.
  intros (_ & _ & A & B). unfold get_ipv4, get_num, ip4_new. rewrite !N.shiftr_div_pow2. change 255 with (N.ones 8). change 65535 with (N.ones 16). rewrite !N.land_ones.
  change (2 ^ 8) with 256. change (2 ^ 16) with 65536 in *. change (2 ^ 24) with 16777216. change (2 ^ 32) with 4294967296 in *. split; [|reflexivity].
  unfold be_val. cbn [fold_left].
  assert (E : ec_b x / 65536 / 256 = ec_b x / 16777216) by (now rewrite N.div_div by discriminate).
  assert (ec_b x / 16777216 < 256) by (apply N.div_lt_upper_bound; [discriminate|exact B]). assert (ec_a x / 256 < 256) by (apply N.div_lt_upper_bound; [discriminate|exact A]).
  rewrite (N.mod_small (ec_b x / 16777216)), (N.mod_small (ec_a x / 256)) by assumption.
  pose proof (N.div_mod (ec_a x) 256 ltac:(discriminate)). pose proof (N.div_mod (ec_b x / 65536) 256 ltac:(discriminate)). lia.
Qed.
Lemma ipnum_inj x y : ecomm_wf x -> ecomm_wf y -> ec_ipnum x = ec_ipnum y -> ec_a x = ec_a y /\ ec_b x = ec_b y.
Proof.
  intros X Y E. unfold ec_ipnum in E. texts E. cutE E E1. apply dec_inj in E. destruct (get_ipv4_val x X) as [Gx Nx]. destruct (get_ipv4_val y Y) as [Gy Ny].
  rewrite Nx, Ny in E. destruct X as (_ & _ & Ax & Bx), Y as (_ & _ & Ay & By). change (2 ^ 16) with 65536 in *. change (2 ^ 32) with 4294967296 in *.
  assert (Dx : ec_b x / 65536 < 65536) by (apply N.div_lt_upper_bound; [discriminate|exact Bx]). assert (Dy : ec_b y / 65536 < 65536) by (apply N.div_lt_upper_bound; [discriminate|exact By]).
  apply ipv4_inj in E1; [|change (2 ^ 32) with 4294967296; rewrite Gx; clear - Ax Dx; lia|change (2 ^ 32) with 4294967296; rewrite Gy; clear - Ay Dy; lia].
  rewrite Gx, Gy in E1. assert (ec_a x = ec_a y /\ ec_b x / 65536 = ec_b y / 65536) as [EA EB] by (clear - E1 Dx Dy; lia). split; [exact EA|].
  rewrite (N.div_mod (ec_b x) 65536), (N.div_mod (ec_b y) 65536) by discriminate. now rewrite EB, E.
Qed.
Lemma tab_inj x y : ec_tab x = ec_tab y -> ec_type x = ec_type y /\ ec_a x = ec_a y /\ ec_b x = ec_b y.
Proof. intros E. unfold ec_tab in E. texts E. cutE E E1. cutE E E2. apply dec_inj in E, E1, E2. auto. Qed.
Lemma hexes_inj x y : ec_hex x = ec_hex y -> x = y.
Proof.
  intros E. unfold ec_hex in E. texts E. two E. cutE E E1. two E. cutE E E2. two E. cutE E E3. two E. apply hex_inj in E, E1, E2, E3. destruct x, y; cbn in *. now subst.
Qed.
Lemma hexes2_inj x y : ec_hex2 x = ec_hex2 y -> x = y.
Proof.
  intros E. unfold ec_hex2 in E. texts E. two E. cutE E E1. two E. cutE E E2. two E. cutE E E3. two E. apply hex_inj in E, E3. apply hex2_inj in E1, E2. destruct x, y; cbn in *. now subst.
Qed.
Lemma dot_in a : In 46 (fmt_ipv4 a).
Proof.
  unfold fmt_ipv4, octets4. pose proof (length_be_bytes 4 a) as L. destruct (be_bytes 4 a) as [|b0 [|b1 l]]; try discriminate L. cbn [map joined]. apply in_or_app. right. now left.
Qed.
Lemma dec_not_ip n a : fmt_dec n <> fmt_ipv4 a.
Proof. intros E. pose proof (dot_in a) as I. rewrite <- E in I. revert I. apply dec_not. lia. Qed.
Lemma ipnum_not_tab x y : ec_ipnum x <> ec_tab y.
Proof. intros E. unfold ec_ipnum, ec_tab in E. texts E. cutE E E1. symmetry in E1. now apply dec_not_ip in E1. Qed.
Lemma ipnum_not_pair x m n : ec_ipnum x <> fmt_dec m ++ 58 :: fmt_dec n.
Proof. intros E. unfold ec_ipnum in E. texts E. cutE E E1. symmetry in E1. now apply dec_not_ip in E1. Qed.
Lemma tab_not_pair x m n : ec_tab x <> fmt_dec m ++ 58 :: fmt_dec n.
Proof.
  intros E. unfold ec_tab in E. texts E. cutE E E1. assert (I : In 58 (fmt_dec n)) by (rewrite <- E; apply in_or_app; right; now left). revert I. apply dec_not. lia.
Qed.

(** the cases, with the part up to the colon *)
Inductive ecv (x : ecomm) : text -> Prop :=
| ev_t0 : ec_subtype x = 2 -> ec_type x = 0 -> ecv x (txt "ext-target:" ++ fmt_dec (ec_a x) ++ txt ":" ++ fmt_dec (ec_b x))
| ev_t1 : ec_subtype x = 2 -> ec_type x = 1 -> ecv x (txt "ext-target:" ++ ec_ipnum x)
| ev_t2 : ec_subtype x = 2 -> ec_type x = 2 -> ecv x (txt "ext-target:" ++ ec_tab x)
| ev_o1 : ec_subtype x = 3 -> ec_type x = 1 -> ecv x (txt "ext-origin:" ++ ec_ipnum x)
| ev_o : ec_subtype x = 3 -> ecv x (txt "ext-origin:" ++ ec_tab x)
| ev_s : ec_subtype x = 9 -> ecv x (txt "ext-src-as:" ++ ec_tab x)
| ev_i1 : ec_subtype x = 11 -> ec_type x = 1 -> ecv x (txt "ext-rt-import:" ++ ec_ipnum x)
| ev_i : ec_subtype x = 11 -> ecv x (txt "ext-rt-import:" ++ ec_tab x)
| ev_as : ecv x (txt "ext-as-specific:" ++ ec_hex x)
| ev_im : ec_subtype x = 10 -> In (ec_type x) [1; 0x41] -> ecv x (txt "ext-import-rt:" ++ ec_ipnum x)
| ev_ip : ecv x (txt "ext-ipv4a-specific:" ++ ec_hex x)
| ev_en : ec_type x = 3 -> ec_subtype x = 12 -> ecv x (txt "encapsulation:0x" ++ fmt_hex (ec_b x))
| ev_l2 : ec_type x = 6 -> ec_subtype x = 4 -> ecv x (txt "evpn-l2-info:cf=" ++ fmt_dec (ec_a x) ++ txt ":mtu=" ++ fmt_dec (N.shiftr (ec_b x) 16))
| ev_es : ec_type x = 6 -> ec_subtype x = 1 ->
    ecv x (txt "esi-label:" ++ fmt_dec (ec_a x) ++ txt ":label=" ++ fmt_dec (N.shiftr (ec_b x) 8) ++ txt ":" ++ fmt_dec (N.land (ec_b x) 255))
| ev_op : ecv x (txt "ext-opaque:" ++ ec_hex2 x)
| ev_un : ecv x (txt "ext-unknown:" ++ ec_hex2 x).
Lemma ecv_ok x : ecv x (ecomm_fmt x).
Proof.
  unfold ecomm_fmt. repeat match goal with |- ecv _ (if ?c then _ else _) => let C := fresh "C" in destruct c eqn:C end;
    repeat match goal with H : _ = false |- _ => clear H end; rewrite ?andb_true_iff, ?orb_true_iff, ?N.eqb_eq in *;
    try match goal with H : _ /\ _ |- _ => destruct H end;
    first [apply ev_t0; assumption|apply ev_t1; assumption|apply ev_t2; assumption|apply ev_o1; assumption|apply ev_o; assumption|apply ev_s; assumption
      |apply ev_i1; assumption|apply ev_i; assumption|apply ev_as|apply ev_im; [assumption|cbn; intuition]|apply ev_ip|apply ev_en; assumption|apply ev_l2; assumption|apply ev_es; assumption|apply ev_op|apply ev_un].
Qed.
Lemma ecomm_alike x y : ecomm_wf x -> ecomm_wf y -> ecomm_fmt x = ecomm_fmt y <-> ec_alike x y.
Proof.
  intros X Y. split.
  - intros E. pose proof (ecv_ok x) as Vx. pose proof (ecv_ok y) as Vy. rewrite E in Vx. remember (ecomm_fmt y) as s eqn:Es. clear Es E.
    revert Vx. assert (Same : forall s', ecv x s' -> s' = s -> ec_alike x y); [|intros V; now apply (Same s)].
    intros s' Vx. destruct Vy, Vx; intros E; texts E; try discriminate E; repeat match type of E with ?a :: _ = ?a :: _ => apply tl_eq in E end;
      try (exfalso; first [now apply ipnum_not_tab in E|symmetry in E; now apply ipnum_not_tab in E|now apply ipnum_not_pair in E|symmetry in E; now apply ipnum_not_pair in E
                          |now apply tab_not_pair in E|symmetry in E; now apply tab_not_pair in E]);
      try (left; first [now apply hexes_inj|now apply hexes2_inj]);
      try (left; apply ipnum_inj in E as [EA EB]; [|assumption|assumption]; destruct x, y; cbn in *; congruence);
      try (left; apply tab_inj in E as (ET & EA & EB); destruct x, y; cbn in *; congruence).
    + left. cutE E E1. apply dec_inj in E, E1. destruct x, y; cbn in *; congruence.
    + right. right. right. apply ipnum_inj in E as [EA EB]; [|assumption|assumption]. repeat split; assumption.
    + right. left. apply hex_inj in E. repeat split; assumption.
    + right. right. left. cutE E E1. do 4 apply tl_eq in E. apply dec_inj in E, E1. rewrite !N.shiftr_div_pow2 in E. change (2 ^ 16) with 65536 in E. repeat split; assumption.
    + left. cutE E E1. do 6 apply tl_eq in E. cutE E E2. apply dec_inj in E, E1, E2. rewrite !N.shiftr_div_pow2 in E2. change 255 with (N.ones 8) in E. rewrite !N.land_ones in E.
      assert (EB : ec_b x = ec_b y) by (rewrite (N.div_mod (ec_b x) (2 ^ 8)), (N.div_mod (ec_b y) (2 ^ 8)) by discriminate; now rewrite E2, E).
      destruct x, y; cbn in *; congruence.
  - intros [->|[(A & B & C & D & E)|[(A & B & C & D & E & F)|(A & B & C & D & E & F)]]]; [reflexivity| | |]; destruct x as [t s a b], y as [t' s' a' b']; cbn [ec_type ec_subtype ec_a ec_b] in *.
    + subst. reflexivity.
    + subst. unfold ecomm_fmt. cbn [ec_type ec_subtype ec_a ec_b]. cbn [N.eqb Pos.eqb andb orb N.ltb N.compare Pos.compare Pos.compare_cont]. rewrite !N.shiftr_div_pow2. change (2 ^ 16) with 65536. now rewrite F.
    + subst. cbn [In] in A, B. destruct A as [<-|[<-|[]]], B as [<-|[<-|[]]]; reflexivity.
Qed.

(** ** PMSI tunnels *)
Lemma pmsi_fmt_no_opaque x : pmsi_fmt (no_opaque x) = pmsi_fmt x.
Proof. destruct x as [f t l [| | |]]; reflexivity. Qed.
Lemma pmsi_alike x y : pmsi_any x -> pmsi_any y -> pmsi_fmt x = pmsi_fmt y <-> no_opaque x = no_opaque y.
Proof.
  intros X Y. split; [|intros E; now rewrite <- (pmsi_fmt_no_opaque x), <- (pmsi_fmt_no_opaque y), E].
  intros E. unfold pmsi_fmt in E. texts E. do 20 apply tl_eq in E. cutE E E1. do 5 apply tl_eq in E. cutE E E2. do 6 apply tl_eq in E. cutE E E3. do 10 apply tl_eq in E.
  apply dec_inj in E1, E2. apply labels_inj in E3. destruct x as [f t l u], y as [f' t' l' u']. cbn [pm_flags pm_type pm_label pm_tun no_opaque pmsi_any] in *. subst.
  destruct u as [|e r i p|e|n o], u' as [|e' r' i' p'|e'|n' o']; cbn [pmsi_any pmsi_tun_fmt pm_tun no_opaque pm_flags pm_type pm_label] in *; try reflexivity; texts E; try discriminate E.
  - do 17 apply tl_eq in E. cutE E E1. cutE E E2. cutE E E3. destruct X as [X1 X2], Y as [Y1 Y2]. apply ipv4_inj in E, E1; try assumption. apply dec_inj in E2, E3. now subst.
  - do 20 apply tl_eq in E. apply ipv4_inj in E; try assumption. now subst.
  - do 14 apply tl_eq in E. apply ip_inj in E; try assumption. now subst.
Qed.

(** ** FlowSpec operators *)
Lemma fsval_inj x y : fsval_fmt x = fsval_fmt y -> x = y.
Proof.
  destruct x as [a l g e v], y as [a' l' g' e' v']. unfold fsval_fmt. cbn [fv_and fv_lt fv_gt fv_eq fv_value]. intros E.
  destruct a, a'; texts E; try discriminate E; two E; destruct l, l'; texts E; try (destruct e', g'; texts E; discriminate E); try (destruct e, g; texts E; discriminate E); 
    try apply tl_eq in E; destruct e, e'; texts E; try (destruct g'; texts E; discriminate E); try (destruct g; texts E; discriminate E); try apply tl_eq in E; destruct g, g'; texts E; try discriminate E;
    repeat apply tl_eq in E; apply dec_inj in E; now subst.
Qed.
Lemma fsmask_inj x y : fsmask_fmt x = fsmask_fmt y -> x = y.
Proof.
  destruct x as [a n m v], y as [a' n' m' v']. unfold fsmask_fmt. cbn [fm_and fm_not fm_match fm_value]. intros E.
  destruct a, a'; texts E; try discriminate E; two E; destruct n, n', m, m'; texts E; try discriminate E; repeat apply tl_eq in E; apply dec_inj in E; now subst.
Qed.

(** ** Errors *)
Lemma arm_in n l t : arm n l = Some t -> exists s, In (n, s) l /\ t = txt s.
Proof.
  induction l as [|[k s] l IH]; cbn [arm]; [discriminate|]. destruct (N.eqb_spec n k) as [->|]; intros E; [injection E as <-; exists s; split; [now left|reflexivity]|].
  destruct (IH E) as (s' & I & ->). exists s'. split; [now right|reflexivity].
Qed.
Definition arms_ok (l : list (N * string)) : bool :=
  forallb (fun p => negb (match txt (snd p) with c :: _ => c =? 32 | [] => true end) &&
                    forallb (fun q => negb (text_eqb (txt (snd p)) (txt (snd q))) || (fst p =? fst q)) l) l.
Lemma sub_arm_inj l m n : arms_ok l = true -> sub_arm m l = sub_arm n l -> m = n.
Proof.
  intros A E. unfold arms_ok in A. rewrite forallb_forall in A. unfold sub_arm in E. destruct (arm m l) as [s|] eqn:M, (arm n l) as [t|] eqn:N0.
  - apply arm_in in M as (sm & Im & ->). apply arm_in in N0 as (sn & In0 & ->). specialize (A _ Im). apply andb_true_iff in A as [_ A]. rewrite forallb_forall in A. specialize (A _ In0).
    cbn [fst snd] in A. rewrite (proj2 (text_eqb_eq _ _) E) in A. now apply N.eqb_eq in A.
  - exfalso. apply arm_in in M as (sm & Im & ->). specialize (A _ Im). apply andb_true_iff in A as [A _]. cbn [snd] in A. rewrite E in A. discriminate A.
  - exfalso. apply arm_in in N0 as (sn & In0 & ->). specialize (A _ In0). apply andb_true_iff in A as [A _]. cbn [snd] in A. rewrite <- E in A. discriminate A.
  - apply app_inv_head in E. now apply dec_inj.
Qed.
Lemma plain_sub_inj m n : plain_sub m = plain_sub n -> m = n.
Proof.
  unfold plain_sub. destruct (N.eqb_spec m 0) as [->|], (N.eqb_spec n 0) as [->|]; cbn [negb]; intros E; try reflexivity; try (texts E; discriminate E). apply app_inv_head in E. now apply dec_inj.
Qed.
Inductive etv (code sub : N) : text -> Prop :=
| et1 : code = 1 -> etv code sub (txt "Message Header Error: " ++ sub_arm sub header_subcodes)
| et2 : code = 2 -> etv code sub (txt "OPEN Message Error: " ++ sub_arm sub open_subcodes)
| et3 : code = 3 -> etv code sub (txt "Update Message Error: " ++ sub_arm sub update_subcodes)
| et4 : code = 4 -> etv code sub (txt "Hold Timer Expired" ++ plain_sub sub)
| et5 : code = 5 -> etv code sub (txt "Finite State Machine Error" ++ plain_sub sub)
| et6 : code = 6 -> etv code sub (txt "Cease" ++ plain_sub sub)
| et7 : etv code sub (txt "Unknown code " ++ fmt_dec code ++ txt " subcode " ++ fmt_dec sub).
Lemma etv_ok code sub : etv code sub (error_text code sub).
Proof.
  unfold error_text. repeat match goal with |- etv _ _ (if ?a =? ?b then _ else _) => destruct (N.eqb_spec a b); [now constructor|] end. constructor.
Qed.
Lemma error_text_inj c s c' s' : error_text c s = error_text c' s' -> c = c' /\ s = s'.
Proof.
  intros E. pose proof (etv_ok c s) as V. pose proof (etv_ok c' s') as V'. rewrite E in V. remember (error_text c' s') as t eqn:Et. clear Et E.
  assert (Same : forall t', etv c s t' -> t' = t -> c = c' /\ s = s'); [|now apply (Same t)]. clear V. intros t' V.
  destruct V', V; intros E; try (texts E; discriminate E); subst; (split; [try reflexivity|]).
  1-3: apply app_inv_head in E; revert E; apply sub_arm_inj; vm_compute; reflexivity.
  1-3: apply app_inv_head in E; now apply plain_sub_inj.
  - texts E. do 13 apply tl_eq in E. cutE E E1. now apply dec_inj.
  - texts E. do 13 apply tl_eq in E. cutE E E1. do 8 apply tl_eq in E. now apply dec_inj.
Qed.
Lemma names_app s n t : reads (firstn (String.length n) s) n -> names_code (s ++ t) n.
Proof. intros R. exists (firstn (String.length n) s), (skipn (String.length n) s ++ t). split; [rewrite app_assoc, firstn_skipn; reflexivity|exact R]. Qed.
Lemma error_code_named c name : In (c, name) error_codes -> forall sub, names_code (error_text c sub) name.
Proof.
  intros I sub. unfold error_codes in I. cbn [In] in I. decompose [or] I; try contradiction;
    match goal with H : (_, _) = (_, _) |- _ => injection H as <- <- end; unfold error_text; cbn [N.eqb Pos.eqb].
  all: apply names_app; vm_compute; reflexivity.
Qed.
Lemma error_sub_named c s name : In (c, s, name) error_subcodes -> names_subcode (error_text c s) name.
Proof.
  intros I. assert (T : Forall (fun p => names_subcode (error_text (fst (fst p)) (snd (fst p))) (snd p)) error_subcodes).
  { unfold error_subcodes. repeat (apply Forall_cons; [cbn [fst snd]; unfold error_text, sub_arm; cbn [N.eqb Pos.eqb arm header_subcodes open_subcodes update_subcodes]; eexists _, _; split; [reflexivity|vm_compute; reflexivity]|]). apply Forall_nil. }
  rewrite Forall_forall in T. exact (T _ I).
Qed.
Lemma cease_text s : s <> 0 -> error_text 6 s = lit "Cease subcode " ++ fmt_dec s.
Proof. intros H. unfold error_text, plain_sub. cbn [N.eqb Pos.eqb]. destruct (N.eqb_spec s 0); [contradiction|]. reflexivity. Qed.
Lemma cease_unnamed s name : In (s, name) cease_subcodes -> ~ names_subcode (error_text 6 s) name.
Proof.
  intros I (h & t & E & R).
  assert (T : forallb (fun p => let m := String.length (snd p) in let e := error_text 6 (fst p) in
     negb (text_eqb (map small (skipn (List.length e - m) e)) (map small (lit (snd p))))) cease_subcodes = true) by (vm_compute; reflexivity).
  rewrite forallb_forall in T. specialize (T _ I). cbn [fst snd] in T. cbv zeta in T. apply negb_true_iff in T.
  assert (L : List.length t = String.length name).
  { unfold reads in R. apply (f_equal (@List.length N)) in R. rewrite !map_length in R. rewrite R. clear. induction name; cbn; [reflexivity|now rewrite IHname]. }
  rewrite E in T. rewrite app_length, L in T. replace (List.length h + String.length name - String.length name)%nat with (List.length h + 0)%nat in T by lia.
  rewrite skipn_app in T. replace (List.length h + 0 - List.length h)%nat with 0%nat in T by lia. rewrite skipn_all2 in T by lia. cbn [skipn app] in T.
  rewrite (proj2 (text_eqb_eq _ _) R) in T. discriminate T.
Qed.

(** ** Statements as they appear in P_Text2.v *)
Lemma l2_info_alike a b b' : b / 65536 = b' / 65536 -> ecomm_fmt (mkEC 6 4 a b) = ecomm_fmt (mkEC 6 4 a b').
Proof.
  intros F. unfold ecomm_fmt. cbn [ec_type ec_subtype ec_a ec_b]. cbn [N.eqb Pos.eqb andb orb N.ltb N.compare Pos.compare Pos.compare_cont].
  rewrite !N.shiftr_div_pow2. change (2 ^ 16) with 65536. now rewrite F.
Qed.
Lemma mvpn_collide rd a b x c d : group a -> group b -> group x -> group c -> group d ->
  let s := IPv6 (ip6_groups [a; 0; 0; 0; 0; 0; b; x]) in
  let g := IPv6 (ip6_groups [c; 0; 0; 0; 0; 0; 0; d]) in
  let s' := IPv6 (ip6_groups [a; 0; 0; 0; 0; 0; 0; b]) in
  let g' := IPv6 (ip6_groups [x; c; 0; 0; 0; 0; 0; d]) in
  s <> s' /\
  mvpn_fmt (MvT5 (mkMvpn5 rd s g)) = mvpn_fmt (MvT5 (mkMvpn5 rd s' g')) /\
  (forall o, mvpn_fmt (MvT3 (mkMvpn3 rd s g o)) = mvpn_fmt (MvT3 (mkMvpn3 rd s' g' o))) /\
  (forall o o', mvpn_fmt (MvT4 (mkMvpn4 (mkMvpn3 rd s g o) o')) = mvpn_fmt (MvT4 (mkMvpn4 (mkMvpn3 rd s' g' o) o'))) /\
  (forall n, mvpn_fmt (MvT6 (mkMvpn67 rd n s g)) = mvpn_fmt (MvT6 (mkMvpn67 rd n s' g'))) /\
  (forall n, mvpn_fmt (MvT7 (mkMvpn67 rd n s g)) = mvpn_fmt (MvT7 (mkMvpn67 rd n s' g'))).
Proof.
  intros A B X C D s g s' g'.
  assert (K : forall t, ip_fmt s ++ txt ":" ++ ip_fmt g ++ t = ip_fmt s' ++ txt ":" ++ ip_fmt g' ++ t) by (intros t; now apply mvpn_alike).
  assert (K0 : ip_fmt s ++ txt ":" ++ ip_fmt g = ip_fmt s' ++ txt ":" ++ ip_fmt g') by (specialize (K []); now rewrite !app_nil_r in K).
  split; [intros E; apply (groups_differ a b x B X A); subst s s'; congruence|]. clearbody s g s' g'.
  unfold mvpn_fmt, mvpn3_fmt, mvpn67_fmt. cbn [mv5_rd mv5_source mv5_group mv3_rd mv3_source mv3_group mv3_orig mv4_spmsi mv4_orig mv67_rd mv67_asn mv67_rp mv67_group].
  split; [|split; [|split; [|split]]]; intros; repeat rewrite <- app_assoc; rewrite ?K, ?K0; try reflexivity; repeat f_equal; apply K.
Qed.
