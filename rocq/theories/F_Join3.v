(** Proofs about UPDATE messages put together from parts, and about the order of attributes. *)
From Coq Require Import Permutation.
From Verif Require Import Base BaseFacts M_Util S_Wire F_Util M_Prefix S_Prefix M_Nlri S_Nlri F_Nlri M_Vpls M_Cap M_Open M_Session M_Mvpn S_Mvpn M_Evpn S_Evpn M_Flowspec S_Flowspec M_Addrs S_Addrs
  M_Attr S_Attr S_Attr3 M_Update S_Update S_Exact S_Exact2 F_Attr4 F_Exact F_Exact2 F_Exact3 F_Exact4 F_Exact6 S_Join F_Join.
Ltac Zify.zify_post_hook ::= idtac.

Lemma upd_body_inj w s nl w' s' nl' : N.of_nat (length w) < 2 ^ 16 -> N.of_nat (length s) < 2 ^ 16 -> N.of_nat (length w') < 2 ^ 16 -> N.of_nat (length s') < 2 ^ 16 ->
  upd_body w s nl = upd_body w' s' nl' -> w = w' /\ s = s' /\ nl = nl'.
Proof.
  unfold upd_body. intros H1 H2 H3 H4 E. assert (CUT : forall (a b a' b' : list N), length a = length a' -> a ++ b = a' ++ b' -> a = a' /\ b = b').
  { intros a b a' b' L X. apply (f_equal (firstn (length a))) in X as X1. apply (f_equal (skipn (length a))) in X as X2.
    rewrite L in X1 at 2. rewrite L in X2 at 2. rewrite !firstn_app, !Nat.sub_diag, !firstn_all, !firstn_O, !app_nil_r in X1. rewrite !skipn_app, !Nat.sub_diag, !skipn_all in X2. auto. }
  apply CUT in E as [E1 E]; [|now rewrite !length_be_bytes]. apply (f_equal be_val) in E1. rewrite !be_val_be_bytes in E1 by assumption.
  apply CUT in E as [-> E]; [|lia]. apply CUT in E as [E2 E]; [|now rewrite !length_be_bytes]. apply (f_equal be_val) in E2. rewrite !be_val_be_bytes in E2 by assumption.
  apply CUT in E as [-> ->]; [|lia]. auto.
Qed.
Lemma upd_bytes w s nl : bytes_ok w -> bytes_ok s -> bytes_ok nl -> bytes_ok (upd_body w s nl).
Proof. intros. unfold upd_body, bytes_ok. rewrite !Forall_app. repeat split; auto; apply be_bytes_ok. Qed.
Lemma upd_exact oc p w s nl u : bytes_ok w -> bytes_ok s -> bytes_ok nl -> N.of_nat (length w) < 2 ^ 16 -> N.of_nat (length s) < 2 ^ 16 ->
  update_decode oc p update_new (upd_body w s nl) = Ok u <->
  plain_nlri oc p w (u_withdraws u) /\ area_of (attr_reads oc p) s (u_attrs u) /\ plain_nlri oc p nl (u_updates u).
Proof.
  intros Bw Bs Bn Hw Hs. destruct u as [up wd l]. rewrite update_exact' by now apply upd_bytes. cbn [u_updates u_withdraws u_attrs update_new app]. split.
  - intros (v & -> & w' & s' & nl' & E & Hw' & Hs' & R). apply upd_body_inj in E as (-> & -> & ->); auto.
  - intros R. exists l. split; [reflexivity|]. exists w, s, nl. auto.
Qed.
Lemma plain_decodes oc p b a : bytes_ok b -> plain_nlri oc p b a <-> exists n, addrs_decode oc p (own_afi p) 1 b = Ok (a, n).
Proof.
  intros B. unfold plain_nlri, own_afi. split; intros [n H]; exists n; destruct (sp_mode p); apply nlri_exact_l; auto; exact H || (apply nlri_exact_l in H; auto).
Qed.
Lemma plain_join oc p b1 b2 a1 a : bytes_ok b1 -> bytes_ok b2 -> addrs_decode oc p (own_afi p) 1 b1 = Ok (a1, length b1) -> same_form p (own_afi p) 1 b1 b2 ->
  plain_nlri oc p (b1 ++ b2) a <-> exists a2, plain_nlri oc p b2 a2 /\ addrs_join a1 a2 = Some a.
Proof.
  intros B1 B2 D F. destruct (routes_join oc p (own_afi p) 1 b1 b2 a1 (length b1) B1 B2 D (le_n _) F) as [J _]. rewrite Nat.sub_diag in J. cbn [skipn] in J.
  rewrite plain_decodes by now apply Forall_app. split.
  - intros [n H]. apply J in H as (a2 & n2 & H & Ja & _). exists a2. split; [apply plain_decodes; eauto|exact Ja].
  - intros (a2 & H & Ja). apply plain_decodes in H as [n2 H]; [|exact B2]. exists (length b1 + n2)%nat. apply J. eauto.
Qed.
Lemma update_join_announced oc p w s b1 b2 a1 u : bytes_ok w -> bytes_ok s -> bytes_ok b1 -> bytes_ok b2 -> N.of_nat (length w) < 2 ^ 16 -> N.of_nat (length s) < 2 ^ 16 ->
  addrs_decode oc p (own_afi p) 1 b1 = Ok (a1, length b1) -> same_form p (own_afi p) 1 b1 b2 ->
  update_decode oc p update_new (upd_body w s (b1 ++ b2)) = Ok u <->
  exists u2, update_decode oc p update_new (upd_body w s b2) = Ok u2 /\ addrs_join a1 (u_updates u2) = Some (u_updates u) /\
             u_withdraws u = u_withdraws u2 /\ u_attrs u = u_attrs u2.
Proof.
  intros Bw Bs B1 B2 Hw Hs D F. rewrite upd_exact by (auto; now apply Forall_app). rewrite (plain_join oc p b1 b2 a1) by assumption. split.
  - intros (W & A & a2 & U & J). exists (mkUpd a2 (u_withdraws u) (u_attrs u)). rewrite upd_exact by auto. cbn [u_updates u_withdraws u_attrs]. auto.
  - intros ([up wd l] & H & J & E1 & E2). apply upd_exact in H as (W & A & U); auto. cbn [u_updates u_withdraws u_attrs] in *. rewrite E1, E2. eauto.
Qed.
Lemma update_join_withdrawn oc p w1 w2 s nl a1 u : bytes_ok w1 -> bytes_ok w2 -> bytes_ok s -> bytes_ok nl -> N.of_nat (length w1) + N.of_nat (length w2) < 2 ^ 16 -> N.of_nat (length s) < 2 ^ 16 ->
  addrs_decode oc p (own_afi p) 1 w1 = Ok (a1, length w1) -> same_form p (own_afi p) 1 w1 w2 ->
  update_decode oc p update_new (upd_body (w1 ++ w2) s nl) = Ok u <->
  exists u2, update_decode oc p update_new (upd_body w2 s nl) = Ok u2 /\ addrs_join a1 (u_withdraws u2) = Some (u_withdraws u) /\
             u_updates u = u_updates u2 /\ u_attrs u = u_attrs u2.
Proof.
  intros B1 B2 Bs Bn Hw Hs D F. rewrite upd_exact by (auto; try (now apply Forall_app); rewrite app_length; lia). rewrite (plain_join oc p w1 w2 a1) by assumption. split.
  - intros ((a2 & W & J) & A & U). exists (mkUpd (u_updates u) a2 (u_attrs u)). rewrite upd_exact by (auto; lia). cbn [u_updates u_withdraws u_attrs]. auto.
  - intros ([up wd l] & H & J & E1 & E2). apply upd_exact in H as (W & A & U); auto; [|lia]. cbn [u_updates u_withdraws u_attrs] in *. rewrite E1, E2. eauto.
Qed.

(** ** The order of attributes *)
Definition frame_reads oc p (x : N * N * list N) (a : attr) : Prop := let '(f, tc, d) := x in attr_reads oc p tc f (length d) d a.
Lemma area_frames oc p fs : Forall frame_ok fs -> forall v, area_of (attr_reads oc p) (frames_wire fs) v <-> Forall2 (frame_reads oc p) fs v.
Proof.
  induction 1 as [|[[f tc] d] fs [Hf Hd] F IH]; intros v.
  - cbn [frames_wire flat_map]. split; intros H; [apply area_inv in H as [[_ ->]|(f & tc & d & s & a & v' & E & _)]; [constructor|discriminate]|inversion H; constructor].
  - change (frames_wire ((f, tc, d) :: fs)) with (frame f tc d ++ frames_wire fs). split.
    + intros H. apply area_inv in H as [[E _]|(f' & tc' & d' & s & a & v' & E & L & R & A & ->)]; [discriminate|].
      apply frame_inj in E as (<- & <- & <- & <-); auto. constructor; [exact R|now apply IH].
    + intros H. inversion H as [|x a fs' v' R A]; subst. apply area_more; [exact Hd|exact R|now apply IH].
Qed.
Lemma Forall2_perm {A B} (R : A -> B -> Prop) l l' : Permutation l l' -> forall v, Forall2 R l v -> exists v', Forall2 R l' v' /\ Permutation v v'.
Proof.
  induction 1 as [|x l l' P IH|x y l|l l' l'' P1 IH1 P2 IH2]; intros v H.
  - inversion H. exists []. auto.
  - inversion H as [|x' b l0 v0 Hx Hl]; subst. apply IH in Hl as (v' & H' & P'). exists (b :: v'). auto.
  - inversion H as [|x' b l0 v0 Hx Hl]; subst. inversion Hl as [|y' c l1 v1 Hy Hl']; subst. exists (c :: b :: v1). split; [auto|constructor].
  - apply IH1 in H as (v1 & H1 & Q1). apply IH2 in H1 as (v2 & H2 & Q2). exists v2. split; [exact H2|now transitivity v1].
Qed.
Lemma frames_bytes_perm fs fs' : Permutation fs fs' -> Permutation (frames_wire fs) (frames_wire fs').
Proof. apply Permutation_flat_map. Qed.
Lemma update_reordered oc p w fs fs' nl u : Permutation fs fs' -> Forall frame_ok fs -> bytes_ok w -> bytes_ok (frames_wire fs) -> bytes_ok nl ->
  N.of_nat (length w) < 2 ^ 16 -> N.of_nat (length (frames_wire fs)) < 2 ^ 16 -> update_decode oc p update_new (upd_body w (frames_wire fs) nl) = Ok u ->
  exists v, update_decode oc p update_new (upd_body w (frames_wire fs') nl) = Ok (mkUpd (u_updates u) (u_withdraws u) v) /\ Permutation (u_attrs u) v.
Proof.
  intros P F Bw Bs Bn Hw Hs D. apply upd_exact in D as (W & A & U); auto. apply area_frames in A; [|exact F].
  destruct (Forall2_perm _ _ _ P _ A) as (v & A' & Q). exists v. split; [|exact Q]. pose proof (frames_bytes_perm _ _ P) as PB.
  apply upd_exact; auto; [exact (Permutation_Forall PB Bs)|now rewrite <- (Permutation_length PB)|]. cbn [u_updates u_withdraws u_attrs]. split; [exact W|]. split; [|exact U].
  apply area_frames; [exact (Permutation_Forall P F)|exact A'].
Qed.
(** getters *)
Lemma payload_code p tc b a : In tc plain_codes -> payload p tc b a -> attr_code a = tc.
Proof.
  intros I H. cbn in I. repeat destruct I as [<-|I]; [..|contradiction]; cbn [payload] in H;
    repeat match goal with
    | H : exists _, _ |- _ => destruct H
    | H : _ /\ _ |- _ => destruct H
    | H : _ \/ _ |- _ => destruct H
    end; subst; reflexivity.
Qed.
Lemma reads_code oc p tc f n d a : attr_reads oc p tc f n d a -> attr_code a = tc.
Proof. intros H. inversion H; subst; try reflexivity. eapply payload_code; eauto. Qed.
Lemma first_attr_In {T} (g : attr -> option T) l x : first_attr g l = Some x -> exists a, In a l /\ g a = Some x.
Proof.
  induction l as [|a l IH]; [discriminate|]. cbn [first_attr]. destruct (g a) as [y|] eqn:E; [intros H; injection H as ->; exists a; cbn; auto|].
  intros H. apply IH in H as (b & I & G). exists b. cbn. auto.
Qed.
Lemma first_attr_None {T} (g : attr -> option T) l a : first_attr g l = None -> In a l -> g a = None.
Proof.
  induction l as [|b l IH]; [contradiction|]. cbn [first_attr]. destruct (g b) eqn:E; [discriminate|]. intros H [<-|I]; auto.
Qed.
Lemma first_attr_perm {T} (g : attr -> option T) c l l' : (forall a x, g a = Some x -> attr_code a = c) -> NoDup (map attr_code l) -> Permutation l l' ->
  first_attr g l = first_attr g l'.
Proof.
  intros C ND P.
  assert (ONE : forall a b, In a l -> In b l -> attr_code a = attr_code b -> a = b).
  { clear - ND. induction l as [|x l IH]; [contradiction|]. cbn [map] in ND. apply NoDup_cons_iff in ND as [NI ND]. intros a b [ <- | Ia ] [ <- | Ib ] E; auto.
    - exfalso. apply NI. rewrite E. now apply in_map.
    - exfalso. apply NI. rewrite <- E. now apply in_map. }
  destruct (first_attr g l) as [x|] eqn:E, (first_attr g l') as [y|] eqn:E'; auto.
  - apply first_attr_In in E as (a & I & G). apply first_attr_In in E' as (b & I' & G'). apply (Permutation_in _ (Permutation_sym P)) in I'.
    assert (a = b) as -> by (apply ONE; auto; rewrite (C _ _ G), (C _ _ G'); reflexivity). congruence.
  - apply first_attr_In in E as (a & I & G). apply (Permutation_in _ P) in I. pose proof (first_attr_None _ _ _ E' I). congruence.
  - apply first_attr_In in E' as (b & I' & G'). apply (Permutation_in _ (Permutation_sym P)) in I'. pose proof (first_attr_None _ _ _ E I'). congruence.
Qed.
Lemma frame_codes oc p fs v : Forall2 (frame_reads oc p) fs v -> map attr_code v = map (fun x => snd (fst x)) fs.
Proof. induction 1 as [|[[f tc] d] a fs v R F IH]; [reflexivity|]. cbn [map fst snd]. rewrite IH. f_equal. now apply reads_code in R. Qed.
Lemma getters_reordered oc p w fs fs' nl u u' : Permutation fs fs' -> NoDup (map (fun x => snd (fst x)) fs) -> Forall frame_ok fs -> bytes_ok w -> bytes_ok (frames_wire fs) -> bytes_ok nl ->
  N.of_nat (length w) < 2 ^ 16 -> N.of_nat (length (frames_wire fs)) < 2 ^ 16 -> update_decode oc p update_new (upd_body w (frames_wire fs) nl) = Ok u ->
  update_decode oc p update_new (upd_body w (frames_wire fs') nl) = Ok u' ->
  get_attr_origin u = get_attr_origin u' /\ get_attr_aspath u = get_attr_aspath u' /\ get_attr_communitylist u = get_attr_communitylist u' /\
  get_attr_largecommunitylist u = get_attr_largecommunitylist u' /\ get_attr_extcommunitylist u = get_attr_extcommunitylist u' /\
  get_attr_nexthop u = get_attr_nexthop u' /\ get_mpupdates u = get_mpupdates u' /\ get_mpwithdraws u = get_mpwithdraws u'.
Proof.
  intros P ND F Bw Bs Bn Hw Hs D D'. pose proof D as D0. apply upd_exact in D0 as (_ & A & _); auto. apply area_frames in A; [|exact F]. apply frame_codes in A. rewrite <- A in ND.
  destruct (update_reordered _ _ _ _ _ _ _ P F Bw Bs Bn Hw Hs D) as (v & D'' & Q). rewrite D' in D''. injection D'' as ->.
  unfold get_attr_origin, get_attr_aspath, get_attr_communitylist, get_attr_largecommunitylist, get_attr_extcommunitylist, get_attr_nexthop, get_mpupdates, get_mpwithdraws. cbn [u_attrs].
  repeat split; (eapply first_attr_perm; [|exact ND|exact Q]); intros a x; destruct a; intros H; try discriminate H; cbn [attr_code]; reflexivity.
Qed.
