(** Proofs about equality and ordering. *)
From Verif Require Import Base BaseFacts M_Util M_Prefix M_Nlri M_Vpls M_Mvpn M_Evpn M_Flowspec M_Cap M_Open M_Session M_Addrs M_Attr
  M_Order S_Order.
Ltac Zify.zify_post_hook ::= idtac.

(** ** Combinators *)
Lemma laws_ext {T K K'} (o : ord T) (k : T -> K) (k' : T -> K') :
  ord_laws o k -> (forall x y, k x = k y <-> k' x = k' y) -> ord_laws o k'.
Proof.
  intros [A B C D E] H. constructor; intros.
  - now rewrite A.
  - now rewrite B.
  - apply C.
  - eapply D; eauto.
  - apply E. now apply H.
Qed.
Lemma laws_num : ord_laws onum (fun x => x).
Proof.
  constructor; cbn; intros.
  - apply N.eqb_eq.
  - apply N.compare_eq_iff.
  - apply N.compare_antisym.
  - rewrite N.compare_lt_iff in *. now apply N.lt_trans with y.
  - now subst.
Qed.
Lemma pa_num : partial_agrees onum. Proof. intros x y. reflexivity. Qed.
Lemma laws_bool : ord_laws obool (fun x => x).
Proof.
  constructor; cbn.
  - intros [] []; cbn; split; congruence.
  - intros [] []; cbn; split; congruence.
  - intros [] []; reflexivity.
  - intros [] [] []; cbn; congruence.
  - now intros x y ->.
Qed.
Lemma pa_bool : partial_agrees obool. Proof. intros x y. reflexivity. Qed.
Lemma laws_unit : ord_laws ounit (fun x => x).
Proof. constructor; cbn; try easy; intros [] []; split; reflexivity. Qed.
Lemma pa_unit : partial_agrees ounit. Proof. intros x y. reflexivity. Qed.
Lemma laws_labels : ord_laws olabels (fun _ => tt).
Proof. constructor; cbn; easy. Qed.
Lemma pbe_labels : partial_but_equal olabels. Proof. intros x y. right. split; reflexivity. Qed.
Lemma pa_pbe {T} (o : ord T) : partial_agrees o -> partial_but_equal o.
Proof. intros H x y. left. apply H. Qed.

Lemma laws_view {A B K} (f : A -> B) (o : ord B) (k : B -> K) : ord_laws o k -> ord_laws (oview f o) (fun x => k (f x)).
Proof.
  intros [H1 H2 H3 H4 H5]. constructor; cbn; intros; try (apply H1 || apply H2 || apply H3); eauto.
Qed.
Lemma pa_view {A B} (f : A -> B) (o : ord B) : partial_agrees o -> partial_agrees (oview f o).
Proof. intros H x y. apply H. Qed.
Lemma pbe_view {A B} (f : A -> B) (o : ord B) : partial_but_equal o -> partial_but_equal (oview f o).
Proof. intros H x y. apply H. Qed.

(** lexicographic comparison of two parts *)
Lemma lex_laws2 {T A B K L} (a : ord A) (b : ord B) (ka : A -> K) (kb : B -> L) (f : T -> A) (g : T -> B) (c : T -> T -> comparison) :
  ord_laws a ka -> ord_laws b kb ->
  (forall x y, c x y = match ocmp a (f x) (f y) with Eq => ocmp b (g x) (g y) | r => r end) ->
  (forall x y, c x y = Eq <-> (ka (f x), kb (g x)) = (ka (f y), kb (g y))) /\
  (forall x y, c y x = CompOpp (c x y)) /\
  (forall x y z, c x y = Lt -> c y z = Lt -> c x z = Lt).
Proof.
  intros Ha Hb Hc. repeat split.
  - rewrite Hc. destruct (ocmp a (f x) (f y)) eqn:E; try discriminate. intros E2.
    apply (law_cmp_eq _ _ Ha) in E. apply (law_cmp_eq _ _ Hb) in E2. congruence.
  - intros H. assert (H1 : ka (f x) = ka (f y)) by congruence. assert (H2 : kb (g x) = kb (g y)) by congruence.
    rewrite Hc. now rewrite (proj2 (law_cmp_eq _ _ Ha _ _) H1), (proj2 (law_cmp_eq _ _ Hb _ _) H2).
  - intros x y. rewrite !Hc, (law_cmp_opp _ _ Ha (f x)), (law_cmp_opp _ _ Hb (g x)).
    destruct (ocmp a (f x) (f y)); reflexivity.
  - intros x y z. rewrite !Hc.
    assert (EqL : forall u v w, ocmp a u v = Eq -> ocmp a u w = ocmp a v w).
    { clear - Ha. intros u v w E. apply (law_cmp_eq _ _ Ha) in E.
      destruct (ocmp a v w) eqn:E2.
      - apply (law_cmp_eq _ _ Ha) in E2. apply (law_cmp_eq _ _ Ha). congruence.
      - destruct (ocmp a u w) eqn:E3; [| reflexivity |].
        + apply (law_cmp_eq _ _ Ha) in E3. assert (X : ka v = ka w) by congruence.
          apply (law_cmp_eq _ _ Ha) in X. congruence.
        + assert (W : ocmp a w u = Lt) by (rewrite (law_cmp_opp _ _ Ha), E3; reflexivity).
          assert (V := law_cmp_trans _ _ Ha _ _ _ E2 W). assert (X : ka v = ka u) by congruence.
          apply (law_cmp_eq _ _ Ha) in X. congruence.
      - destruct (ocmp a u w) eqn:E3; [| |reflexivity].
        + apply (law_cmp_eq _ _ Ha) in E3. assert (X : ka v = ka w) by congruence.
          apply (law_cmp_eq _ _ Ha) in X. congruence.
        + assert (W : ocmp a w v = Lt) by (rewrite (law_cmp_opp _ _ Ha), E2; reflexivity).
          assert (V := law_cmp_trans _ _ Ha _ _ _ E3 W). assert (X : ka u = ka v) by congruence.
          apply (law_cmp_eq _ _ Ha) in X. congruence. }
    assert (EqR : forall u v w, ocmp a v w = Eq -> ocmp a u v = ocmp a u w).
    { intros u v w E. assert (E' : ocmp a w v = Eq) by (rewrite (law_cmp_opp _ _ Ha), E; reflexivity).
      rewrite (law_cmp_opp _ _ Ha v u), (law_cmp_opp _ _ Ha w u). f_equal. symmetry. now apply EqL. }
    destruct (ocmp a (f x) (f y)) eqn:E1; try discriminate.
    + rewrite (EqL _ _ (f z) E1). intros H1. destruct (ocmp a (f y) (f z)); try discriminate; auto.
      intros H2. now apply (law_cmp_trans _ _ Hb _ (g y)).
    + intros _. destruct (ocmp a (f y) (f z)) eqn:E2; try discriminate.
      * intros _. now rewrite <- (EqR _ _ _ E2), E1.
      * intros _. now rewrite (law_cmp_trans _ _ Ha _ _ _ E1 E2).
Qed.
Lemma laws_fields {A B K L} (a : ord A) (b : ord B) (ka : A -> K) (kb : B -> L) :
  ord_laws a ka -> ord_laws b kb -> ord_laws (ofields a b) (fun x => (ka (fst x), kb (snd x))).
Proof.
  intros Ha Hb.
  destruct (lex_laws2 a b ka kb (@fst A B) (@snd A B) (ocmp (ofields a b)) Ha Hb) as (H1 & H2 & H3); [reflexivity|].
  constructor; auto.
  - intros x y. cbn. rewrite andb_true_iff, (law_eq _ _ Ha), (law_eq _ _ Hb). split; [intros []|intros E]; [|split]; congruence.
  - intros x y E. cbn. f_equal; [apply (law_hash _ _ Ha)|apply (law_hash _ _ Hb)]; congruence.
Qed.
Lemma pa_fields {A B} (a : ord A) (b : ord B) : partial_agrees a -> partial_agrees b -> partial_agrees (ofields a b).
Proof. intros Ha Hb x y. cbn. rewrite Ha. destruct (ocmp a (fst x) (fst y)); [apply Hb|reflexivity..]. Qed.
Lemma pbe_fields {A B} (a : ord A) (b : ord B) : partial_agrees a -> partial_but_equal b -> partial_but_equal (ofields a b).
Proof. intros Ha Hb x y. cbn. rewrite Ha. destruct (ocmp a (fst x) (fst y)); [apply Hb|now left..]. Qed.
Lemma laws_variants {A B K L} (a : ord A) (b : ord B) (ka : A -> K) (kb : B -> L) :
  ord_laws a ka -> ord_laws b kb ->
  ord_laws (ovariants a b) (fun x => match x with inl x => inl (ka x) | inr x => inr (kb x) end).
Proof.
  intros Ha Hb. constructor.
  - intros [x|x] [y|y]; cbn; rewrite ?(law_eq _ _ Ha), ?(law_eq _ _ Hb); split; congruence.
  - intros [x|x] [y|y]; cbn; rewrite ?(law_cmp_eq _ _ Ha), ?(law_cmp_eq _ _ Hb); split; congruence.
  - intros [x|x] [y|y]; cbn; try reflexivity; [apply (law_cmp_opp _ _ Ha)|apply (law_cmp_opp _ _ Hb)].
  - intros [x|x] [y|y] [z|z]; cbn; try congruence; [apply (law_cmp_trans _ _ Ha)|apply (law_cmp_trans _ _ Hb)].
  - intros [x|x] [y|y] E; cbn; try congruence.
    + f_equal. apply (law_hash _ _ Ha). congruence.
    + f_equal. apply (law_hash _ _ Hb). congruence.
Qed.
Lemma pa_variants {A B} (a : ord A) (b : ord B) : partial_agrees a -> partial_agrees b -> partial_agrees (ovariants a b).
Proof. intros Ha Hb [x|x] [y|y]; cbn; try reflexivity; [apply Ha|apply Hb]. Qed.
Lemma pbe_variants {A B} (a : ord A) (b : ord B) : partial_but_equal a -> partial_but_equal b -> partial_but_equal (ovariants a b).
Proof. intros Ha Hb [x|x] [y|y]; cbn; try (now left); [apply Ha|apply Hb]. Qed.

Lemma laws_list {A K} (a : ord A) (k : A -> K) : ord_laws a k -> ord_laws (olist a) (map k).
Proof.
  intros Ha. constructor.
  - cbn. induction x as [|x l IH]; intros [|y m]; cbn; try (split; congruence).
    rewrite andb_true_iff, IH, (law_eq _ _ Ha). split; [intros []|intros E]; [|split]; congruence.
  - cbn. induction x as [|x l IH]; intros [|y m]; cbn; try (split; congruence).
    assert (H := law_cmp_eq _ _ Ha x y). destruct (ocmp a x y).
    + rewrite IH. apply proj1 in H. specialize (H eq_refl). split; [intros|intros E]; congruence.
    + split; [discriminate|]. intros E. apply proj2 in H. assert (X : k x = k y) by congruence. now apply H in X.
    + split; [discriminate|]. intros E. apply proj2 in H. assert (X : k x = k y) by congruence. now apply H in X.
  - cbn. induction x as [|x l IH]; intros [|y m]; cbn; try reflexivity.
    rewrite (law_cmp_opp _ _ Ha x y). destruct (ocmp a x y); cbn; auto.
  - cbn. induction x as [|x l IH]; intros [|y m] [|z n]; cbn; try congruence.
    destruct (lex_laws2 a a k k (fun x : A => x) (fun x => x) (ocmp a) Ha Ha) as (_ & _ & T).
    { intros u v. destruct (ocmp a u v); reflexivity. }
    assert (C := law_cmp_eq _ _ Ha). assert (O := law_cmp_opp _ _ Ha).
    destruct (ocmp a x y) eqn:E1; try discriminate.
    + apply C in E1. intros H1. destruct (ocmp a y z) eqn:E2; try discriminate.
      * apply C in E2. rewrite (proj2 (C x z)) by congruence. intros H2. eapply IH; eauto.
      * intros _. destruct (ocmp a x z) eqn:E3; [|reflexivity|].
        -- apply C in E3. assert (X : k y = k z) by congruence. apply C in X. congruence.
        -- assert (W : ocmp a z x = Lt) by (rewrite O, E3; reflexivity).
           assert (V := T _ _ _ E2 W). assert (X : k y = k x) by congruence. apply C in X. congruence.
    + intros _. destruct (ocmp a y z) eqn:E2; try discriminate.
      * intros _. apply C in E2. destruct (ocmp a x z) eqn:E3; [|reflexivity|].
        -- apply C in E3. assert (X : k x = k y) by congruence. apply C in X. congruence.
        -- assert (W : ocmp a z x = Lt) by (rewrite O, E3; reflexivity).
           assert (V := T _ _ _ W E1). assert (X : k z = k y) by congruence. apply C in X. congruence.
      * intros _. now rewrite (T _ _ _ E1 E2).
  - cbn. intros x y E. f_equal.
    + f_equal. rewrite <- (map_length k x), E. apply map_length.
    + revert y E. induction x as [|x l IH]; intros [|y m] E; cbn in *; try discriminate; [reflexivity|].
      f_equal; [apply (law_hash _ _ Ha)|apply IH]; congruence.
Qed.
Lemma pa_list {A} (a : ord A) : partial_agrees a -> partial_agrees (olist a).
Proof.
  intros Ha x y. cbn. revert y. induction x as [|x l IH]; intros [|y m]; cbn; try reflexivity.
  rewrite Ha. destruct (ocmp a x y); auto.
Qed.
Lemma map_id_inj {A B K} (k : A -> K) (k' : A -> B) : (forall x y, k x = k y <-> k' x = k' y) -> forall x y, map k x = map k y <-> map k' x = map k' y.
Proof.
  intros H. induction x as [|x l IH]; intros [|y m]; cbn; try (split; congruence).
  split; intros E; injection E as E1 E2; f_equal; try (now apply H); now apply IH.
Qed.
Lemma laws_option {A K} (a : ord A) (k : A -> K) : ord_laws a k -> ord_laws (ooption a) (option_map k).
Proof.
  intros H. eapply laws_ext; [eapply laws_view, laws_variants; [eapply laws_unit|exact H]|].
  intros [x|] [y|]; cbn; split; congruence.
Qed.
Lemma pa_option {A} (a : ord A) : partial_agrees a -> partial_agrees (ooption a).
Proof. intros H. apply pa_view, pa_variants; [apply pa_unit|exact H]. Qed.

(** ** Labeled, WithRd, WithPathId *)
Lemma laws_rd : ord_laws ord_rd (fun x => x).
Proof.
  eapply laws_ext; [eapply laws_view, laws_fields; eapply laws_num|]. intros [] []; cbn; split; congruence.
Qed.
Lemma pa_rd : partial_agrees ord_rd. Proof. apply pa_view, pa_fields; apply pa_num. Qed.
Lemma laws_labeled {T K} (o : ord T) (k : T -> K) : ord_laws o k -> ord_laws (olabeled o) (fun x => k (lab_prefix x)).
Proof. eapply laws_view. Qed.
Lemma pa_labeled {T} (o : ord T) : partial_agrees o -> partial_agrees (olabeled o).
Proof. intros H x y. apply H. Qed.
Lemma laws_withrd {T K} (o : ord T) (k : T -> K) : ord_laws o k -> ord_laws (owithrd o) (fun x => (k (wrd_prefix x), wrd_rd x)).
Proof.
  intros Ha.
  destruct (lex_laws2 o ord_rd k (fun x => x) (@wrd_prefix T) (@wrd_rd T) (ocmp (owithrd o)) Ha laws_rd) as (H1 & H2 & H3).
  { intros x y. cbn. destruct (ocmp o (wrd_prefix x) (wrd_prefix y)); reflexivity. }
  constructor; auto.
  - intros x y. unfold owithrd, oeq at 1. rewrite andb_true_iff, (law_eq _ _ Ha), (law_eq _ _ laws_rd).
    split; [intros []|intros E]; [|split]; congruence.
  - intros x y E. cbn [ohash owithrd]. f_equal; [apply (law_hash _ _ Ha)|apply (law_hash _ _ laws_rd)]; congruence.
Qed.
Lemma pa_withrd {T} (o : ord T) : partial_but_equal o -> partial_agrees (owithrd o).
Proof.
  intros H x y. cbn -[ord_rd]. destruct (H (wrd_prefix x) (wrd_prefix y)) as [->|[-> ->]].
  - destruct (ocmp o (wrd_prefix x) (wrd_prefix y)); [apply pa_rd|reflexivity..].
  - apply pa_rd.
Qed.
Lemma laws_withpid {T K} (o : ord T) (k : T -> K) : ord_laws o k -> ord_laws (owithpid o) (fun x => (pid x, k (pid_nlri x))).
Proof.
  intros Ha.
  destruct (lex_laws2 o onum k (fun x => x) (@pid_nlri T) (@pid T) (ocmp (owithpid o)) Ha laws_num) as (H1 & H2 & H3).
  { intros x y. cbn. destruct (ocmp o (pid_nlri x) (pid_nlri y)); reflexivity. }
  constructor; auto.
  - intros x y. unfold owithpid, oeq at 1. rewrite andb_true_iff, (law_eq _ _ Ha), (law_eq _ _ laws_num).
    split; [intros []|intros E]; [|split]; congruence.
  - intros x y. rewrite H1. split; congruence.
  - intros x y E. cbn [ohash owithpid]. f_equal; [apply (law_hash _ _ laws_num)|apply (law_hash _ _ Ha)]; congruence.
Qed.
Lemma pa_withpid {T} (o : ord T) : partial_but_equal o -> partial_agrees (owithpid o).
Proof.
  intros H x y. cbn -[onum]. destruct (H (pid_nlri x) (pid_nlri y)) as [->|[-> ->]].
  - destruct (ocmp o (pid_nlri x) (pid_nlri y)); [apply pa_num|reflexivity..].
  - apply pa_num.
Qed.

(** ** Concrete types *)
Ltac laws_tac := first [ eapply laws_num | eapply laws_bool | eapply laws_unit | eapply laws_rd | eapply laws_labels
  | eapply laws_fields | eapply laws_variants | eapply laws_list | eapply laws_option | eassumption ].
Ltac pa_tac := first [ apply pa_num | apply pa_bool | apply pa_unit | apply pa_rd
  | apply pa_fields | apply pa_variants | apply pa_list | apply pa_option | eassumption ].
Lemma map_id_key {A} (x : list A) : map (fun a => a) x = x. Proof. apply map_id. Qed.
Lemma laws_bytes : ord_laws (olist onum) (fun x => x).
Proof. eapply laws_ext; [eapply laws_list, laws_num|]. intros x y. now rewrite !map_id_key. Qed.
Lemma laws_ip : ord_laws oip (fun x => x).
Proof. eapply laws_ext; [eapply laws_view; repeat laws_tac|]. intros [] []; cbn; split; congruence. Qed.
Lemma pa_ip : partial_agrees oip. Proof. apply pa_view; repeat pa_tac. Qed.
Lemma laws_v4 : ord_laws ov4 (fun x => x).
Proof. eapply laws_ext; [eapply laws_view; repeat laws_tac|]. intros [] []; cbn; split; congruence. Qed.
Lemma pa_v4 : partial_agrees ov4. Proof. apply pa_view; repeat pa_tac. Qed.
Lemma laws_v6 : ord_laws ov6 (fun x => x).
Proof. eapply laws_ext; [eapply laws_view; repeat laws_tac|]. intros [] []; cbn; split; congruence. Qed.
Lemma pa_v6 : partial_agrees ov6. Proof. apply pa_view; repeat pa_tac. Qed.
Lemma laws_macpfx : ord_laws omacpfx (fun x => x).
Proof.
  eapply laws_ext; [eapply laws_view, laws_fields; [eapply laws_bytes|eapply laws_num]|]. intros [] []; cbn; split; congruence.
Qed.
Lemma pa_macpfx : partial_agrees omacpfx. Proof. apply pa_view; unfold omac; repeat pa_tac. Qed.
Lemma laws_net : ord_laws onet (fun x => x).
Proof.
  eapply laws_ext; [eapply laws_view, laws_variants, laws_variants; [eapply laws_v4|eapply laws_v6|eapply laws_macpfx]|].
  intros [] []; cbn; split; congruence.
Qed.
Lemma pa_net : partial_agrees onet.
Proof. apply pa_view, pa_variants, pa_variants; [apply pa_v4|apply pa_v6|apply pa_macpfx]. Qed.
Lemma laws_mdt4 : ord_laws omdt4 (fun x => x).
Proof. eapply laws_ext; [eapply laws_view, laws_fields; [eapply laws_v4|eapply laws_num]|]. intros [] []; cbn; split; congruence. Qed.
Lemma pa_mdt4 : partial_agrees omdt4. Proof. apply pa_view, pa_fields; [apply pa_v4|apply pa_num]. Qed.
Lemma laws_mdt6 : ord_laws omdt6 (fun x => x).
Proof. eapply laws_ext; [eapply laws_view, laws_fields; [eapply laws_v6|eapply laws_num]|]. intros [] []; cbn; split; congruence. Qed.
Lemma pa_mdt6 : partial_agrees omdt6. Proof. apply pa_view, pa_fields; [apply pa_v6|apply pa_num]. Qed.
Lemma laws_l2 : ord_laws ol2 (fun x => x).
Proof. eapply laws_ext; [eapply laws_view; repeat laws_tac|]. intros [] []; cbn; split; congruence. Qed.
Lemma pa_l2 : partial_agrees ol2. Proof. apply pa_view; repeat pa_tac. Qed.
Lemma laws_l2a : ord_laws ol2a l2_unlabel.
Proof. eapply laws_ext; [eapply laws_view; repeat laws_tac|]. intros [] []; unfold l2_unlabel; cbn; split; congruence. Qed.
Lemma pbe_l2a : partial_but_equal ol2a.
Proof. apply pbe_view; repeat (apply pbe_fields; [repeat pa_tac|]). apply pbe_labels. Qed.

Lemma laws_mvpn3 : ord_laws omvpn3 (fun x => x).
Proof.
  eapply laws_ext; [eapply laws_view, laws_fields, laws_fields, laws_fields; [eapply laws_rd|eapply laws_ip..]|].
  intros [] []; cbn; split; congruence.
Qed.
Lemma laws_mvpn67 : ord_laws omvpn67 (fun x => x).
Proof.
  eapply laws_ext; [eapply laws_view, laws_fields, laws_fields, laws_fields; [eapply laws_rd|eapply laws_num|eapply laws_ip..]|].
  intros [] []; cbn; split; congruence.
Qed.
Lemma laws_mvpn : ord_laws omvpn (fun x => x).
Proof.
  assert (L1 : ord_laws omvpn1 (fun x => x)).
  { eapply laws_ext; [eapply laws_view, laws_fields; [eapply laws_rd|eapply laws_ip]|]. intros [] []; cbn; split; congruence. }
  assert (L2 : ord_laws omvpn2 (fun x => x)).
  { eapply laws_ext; [eapply laws_view, laws_fields; [eapply laws_rd|eapply laws_num]|]. intros [] []; cbn; split; congruence. }
  assert (L3 := laws_mvpn3).
  assert (L4 : ord_laws omvpn4 (fun x => x)).
  { eapply laws_ext; [eapply laws_view, laws_fields; [apply L3|eapply laws_ip]|]. intros [] []; cbn; split; congruence. }
  assert (L5 : ord_laws omvpn5 (fun x => x)).
  { eapply laws_ext; [eapply laws_view, laws_fields, laws_fields; [eapply laws_rd|eapply laws_ip..]|]. intros [] []; cbn; split; congruence. }
  assert (L6 := laws_mvpn67).
  eapply laws_ext; [eapply laws_view; repeat eapply laws_variants; eassumption|].
  intros [] []; cbn; split; congruence.
Qed.
Lemma pa_mvpn : partial_agrees omvpn.
Proof.
  assert (I := pa_ip). assert (M3 : partial_agrees omvpn3) by (apply pa_view; repeat pa_tac).
  assert (M67 : partial_agrees omvpn67) by (apply pa_view; repeat pa_tac).
  apply pa_view; repeat apply pa_variants; try assumption; apply pa_view; repeat pa_tac.
Qed.
Lemma laws_optip : ord_laws (ooption oip) (fun x => x).
Proof. eapply laws_ext; [eapply laws_option, laws_ip|]. intros [x|] [y|]; cbn; split; congruence. Qed.
Lemma laws_evpn1 : ord_laws oevpn1 (fun x => evpn_unlabel (Ev1 x)).
Proof.
  eapply laws_ext; [eapply laws_view; repeat eapply laws_fields; try eapply laws_rd; try eapply laws_num; try eapply laws_bytes; eapply laws_labels|].
  intros [] []; cbn; split; congruence.
Qed.
Lemma laws_evpn2 : ord_laws oevpn2 (fun x => evpn_unlabel (Ev2 x)).
Proof.
  eapply laws_ext; [eapply laws_view; repeat eapply laws_fields; try eapply laws_rd; try eapply laws_num; try eapply laws_bytes;
    try eapply laws_optip; eapply laws_labels|].
  intros [] []; cbn; split; congruence.
Qed.
Lemma laws_evpn5 : ord_laws oevpn5 (fun x => evpn_unlabel (Ev5 x)).
Proof.
  eapply laws_ext; [eapply laws_view; repeat eapply laws_fields; try eapply laws_rd; try eapply laws_num; try eapply laws_bytes;
    try eapply laws_ip; eapply laws_labels|].
  intros [] []; cbn; split; congruence.
Qed.
Lemma laws_evpn : ord_laws oevpn evpn_unlabel.
Proof.
  assert (L3 : ord_laws oevpn3 (fun x => x)).
  { eapply laws_ext; [eapply laws_view; repeat eapply laws_fields; try eapply laws_rd; try eapply laws_num; eapply laws_ip|].
    intros [] []; cbn; split; congruence. }
  assert (L4 : ord_laws oevpn4 (fun x => x)).
  { eapply laws_ext; [eapply laws_view; repeat eapply laws_fields; try eapply laws_rd; try eapply laws_num; try eapply laws_bytes; eapply laws_ip|].
    intros [] []; cbn; split; congruence. }
  eapply laws_ext; [eapply laws_view; repeat eapply laws_variants;
    [eapply laws_evpn1|eapply laws_evpn2|apply L3|apply L4|eapply laws_evpn5]|].
  intros [] []; cbn; split; congruence.
Qed.
Lemma pbe_evpn1 : partial_but_equal oevpn1.
Proof. apply pbe_view; repeat (apply pbe_fields; [unfold oesi; repeat pa_tac|]). apply pbe_labels. Qed.
Lemma pbe_evpn2 : partial_but_equal oevpn2.
Proof.
  assert (I := pa_ip).
  apply pbe_view; repeat (apply pbe_fields; [unfold oesi, omac; repeat pa_tac|]). apply pbe_labels.
Qed.
Lemma pbe_evpn5 : partial_but_equal oevpn5.
Proof.
  assert (I := pa_ip).
  apply pbe_view; repeat (apply pbe_fields; [unfold oesi, omac; repeat pa_tac|]). apply pbe_labels.
Qed.
Lemma pa_evpn3 : partial_agrees oevpn3.
Proof. assert (I := pa_ip). apply pa_view; repeat pa_tac. Qed.
Lemma pa_evpn4 : partial_agrees oevpn4.
Proof. assert (I := pa_ip). apply pa_view; unfold oesi; repeat pa_tac. Qed.
Lemma pbe_evpn : partial_but_equal oevpn.
Proof.
  apply pbe_view; repeat apply pbe_variants;
    [apply pbe_evpn1|apply pbe_evpn2|apply pa_pbe, pa_evpn3|apply pa_pbe, pa_evpn4|apply pbe_evpn5].
Qed.
Lemma laws_fs6 : ord_laws ofs6 (fun x => x).
Proof. eapply laws_ext; [eapply laws_view, laws_fields; [eapply laws_v6|eapply laws_num]|]. intros [] []; cbn; split; congruence. Qed.
Lemma pa_fs6 : partial_agrees ofs6. Proof. apply pa_view, pa_fields; [apply pa_v6|apply pa_num]. Qed.
Lemma laws_listid {A} (a : ord A) : ord_laws a (fun x => x) -> ord_laws (olist a) (fun x => x).
Proof. intros H. eapply laws_ext; [eapply laws_list, H|]. intros x y. now rewrite !map_id_key. Qed.
Lemma laws_fsval : ord_laws ofsval (fun x => x).
Proof. eapply laws_ext; [eapply laws_view; repeat laws_tac|]. intros [] []; cbn; split; congruence. Qed.
Lemma laws_fsmask : ord_laws ofsmask (fun x => x).
Proof. eapply laws_ext; [eapply laws_view; repeat laws_tac|]. intros [] []; cbn; split; congruence. Qed.
Lemma pa_fsval : partial_agrees ofsval. Proof. apply pa_view; repeat pa_tac. Qed.
Lemma pa_fsmask : partial_agrees ofsmask. Proof. apply pa_view; repeat pa_tac. Qed.
Lemma laws_flowspec {T} (o : ord T) : ord_laws o (fun x => x) -> ord_laws (oflowspec o) (fun x => x).
Proof.
  intros H. eapply laws_ext; [eapply laws_view, laws_fields; [eapply laws_num|eapply laws_variants; [apply H|eapply laws_variants]]|].
  - eapply laws_listid, laws_fsval.
  - eapply laws_listid, laws_fsmask.
  - intros x y; split; [|now intros ->]. destruct x, y; cbn; intros E; try discriminate E;
    injection E; congruence.
Qed.
Lemma pa_flowspec {T} (o : ord T) : partial_agrees o -> partial_agrees (oflowspec o).
Proof.
  intros H. assert (V := pa_fsval). assert (M := pa_fsmask). apply pa_view; repeat pa_tac.
Qed.

Lemma laws_withrdid {T} (o : ord T) : ord_laws o (fun x => x) -> ord_laws (owithrd o) (fun x => x).
Proof. intros H. eapply laws_ext; [eapply laws_withrd, H|]. intros [] []; cbn; split; congruence. Qed.
Lemma laws_withpidid {T} (o : ord T) : ord_laws o (fun x => x) -> ord_laws (owithpid o) (fun x => x).
Proof. intros H. eapply laws_ext; [eapply laws_withpid, H|]. intros [] []; cbn; split; congruence. Qed.
Lemma laws_labeledid {T} (o : ord T) : ord_laws o (fun x => x) -> ord_laws (olabeled o) unlabel.
Proof. intros H. eapply laws_ext; [eapply laws_labeled, H|]. intros [] []; unfold unlabel; cbn; split; congruence. Qed.
Lemma laws_pidlabeled {T} (o : ord T) : ord_laws o (fun x => x) -> ord_laws (owithpid (olabeled o)) pid_unlabel.
Proof.
  intros H. eapply laws_ext; [eapply laws_withpid, laws_labeledid, H|].
  intros [? []] [? []]; unfold pid_unlabel, unlabel; cbn; split; congruence.
Qed.
Local Definition addrs_unview (t : unit + _) : addrs :=
  match t with inl _ => ANone | inr t =>
  match t with inl v => IPV4U v | inr t =>
  match t with inl v => IPV4M v | inr t =>
  match t with inl v => IPV4LU v | inr t =>
  match t with inl v => VPNV4U v | inr t =>
  match t with inl v => VPNV4M v | inr t =>
  match t with inl v => IPV4MDT v | inr t =>
  match t with inl v => IPV4MDTP v | inr t =>
  match t with inl v => IPV6U v | inr t =>
  match t with inl v => IPV6M v | inr t =>
  match t with inl v => IPV6LU v | inr t =>
  match t with inl v => VPNV6U v | inr t =>
  match t with inl v => VPNV6M v | inr t =>
  match t with inl v => IPV6MDT v | inr t =>
  match t with inl v => IPV6MDTP v | inr t =>
  match t with inl v => L2VPLS v | inr t =>
  match t with inl v => MVPN v | inr t =>
  match t with inl v => EVPN v | inr t =>
  match t with inl v => FS4U v | inr t =>
  match t with inl v => FS6U v | inr t =>
  match t with inl v => FSV4U v | inr t =>
  match t with inl v => IPV4UP v | inr t =>
  match t with inl v => IPV4MP v | inr t =>
  match t with inl v => IPV4LUP v | inr t =>
  match t with inl v => VPNV4UP v | inr t =>
  match t with inl v => VPNV4MP v | inr t =>
  match t with inl v => IPV6UP v | inr t =>
  match t with inl v => IPV6MP v | inr t =>
  match t with inl v => IPV6LUP v | inr t =>
  match t with inl v => VPNV6UP v | inr t =>
  VPNV6MP t end end end end end end end end end end end end end end end end end end end end end end end end end end end end end end.
Lemma addrs_view_inj x y : addrs_view x = addrs_view y -> x = y.
Proof.
  assert (G : forall a, addrs_unview (addrs_view a) = a) by (intros []; reflexivity).
  intros E. rewrite <- (G x), <- (G y). now rewrite E.
Qed.
Lemma laws_addrs : ord_laws oaddrs addrs_unlabel.
Proof.
  eapply laws_ext.
  - eapply laws_view. repeat eapply laws_variants; try eapply laws_unit;
      eapply laws_list; first [eapply laws_v4|eapply laws_v6|eapply laws_l2a|eapply laws_mvpn|eapply laws_evpn
      |eapply laws_pidlabeled|eapply laws_withpidid|eapply laws_labeledid|eapply laws_withrdid|eapply laws_flowspec];
      try eapply laws_withrdid; first [eapply laws_v4|eapply laws_v6|eapply laws_mdt4|eapply laws_mdt6|eapply laws_fs6].
  - match goal with |- forall x y, ?k x = ?k y <-> _ =>
      assert (V : forall a, k a = addrs_view (addrs_unlabel a));
      [intros []; cbn [addrs_unlabel addrs_view]; rewrite ?map_id_key; reflexivity|];
      intros x y; split; intros E;
      [apply addrs_view_inj; transitivity (k x); [symmetry; apply V|]; transitivity (k y); [exact E|apply V]
      |transitivity (addrs_view (addrs_unlabel x)); [apply V|]; rewrite E; symmetry; apply V]
    end.
Qed.

(** ** Agreement of [partial_cmp] when one side satisfies a condition *)
Definition pa_on {T} (P : T -> bool) (o : ord T) : Prop := forall x y, P x || P y = true -> opcmp o x y = Some (ocmp o x y).
Lemma pa_on_all {T} (o : ord T) : partial_agrees o -> pa_on (fun _ => true) o.
Proof. intros H x y _. apply H. Qed.
Lemma pa_on_none {T} (o : ord T) : pa_on (fun _ => false) o.
Proof. intros x y E. discriminate E. Qed.
Lemma pa_on_variants {A B} (P : A -> bool) (Q : B -> bool) (a : ord A) (b : ord B) : pa_on P a -> pa_on Q b ->
  pa_on (fun s => match s with inl x => P x | inr x => Q x end) (ovariants a b).
Proof. intros Ha Hb [x|x] [y|y] E; cbn; try reflexivity; [now apply Ha|now apply Hb]. Qed.
Lemma pa_addrs : pa_on (fun a => negb (derived_labels a)) oaddrs.
Proof.
  assert (L : forall T (o : ord T), partial_agrees o -> pa_on (fun _ => true) (olist o)) by (intros; now apply pa_on_all, pa_list).
  assert (R : forall T (o : ord T), partial_agrees o -> partial_agrees (owithrd o)) by (intros; now apply pa_withrd, pa_pbe).
  assert (I : forall T (o : ord T), partial_agrees o -> partial_agrees (owithpid o)) by (intros; now apply pa_withpid, pa_pbe).
  intros x y E. unfold oaddrs, oview, opcmp at 1, ocmp at 1.
  refine ((_ : pa_on _ _) (addrs_view x) (addrs_view y) _).
  - repeat apply pa_on_variants;
      lazymatch goal with
      | |- pa_on _ ounit => apply pa_on_all, pa_unit
      | |- pa_on _ (olist ol2a) => apply pa_on_none
      | |- pa_on _ (olist oevpn) => apply pa_on_none
      | |- _ => apply L
      end;
      repeat first [apply pa_v4|apply pa_v6|apply pa_mvpn|apply pa_mdt4|apply pa_mdt6|apply pa_fs6
        |apply pa_flowspec|apply pa_labeled|apply R|apply I].
  - assert (G : forall a b c d : bool, (a = true -> c = true) -> (b = true -> d = true) -> a || b = true -> c || d = true).
    { intros [] [] [] []; cbn; intuition congruence. }
    revert E. apply G; [destruct x|destruct y]; cbn; congruence.
Qed.

(** ** Label stacks inside derived orders *)
Definition pnone {T} (o : ord T) : Prop := forall x y, opcmp o x y = match ocmp o x y with Eq => None | Lt => Some Lt | Gt => Some Gt end.
Lemma pnone_labels : pnone olabels. Proof. intros x y. reflexivity. Qed.
Lemma pnone_fields {A B} (a : ord A) (b : ord B) : partial_agrees a -> pnone b -> pnone (ofields a b).
Proof. intros Ha Hb x y. cbn. rewrite Ha. destruct (ocmp a (fst x) (fst y)); [apply Hb|reflexivity..]. Qed.
Lemma pnone_view {A B} (f : A -> B) (o : ord B) : pnone o -> pnone (oview f o).
Proof. intros H x y. apply H. Qed.
Lemma pnone_l2a : pnone ol2a.
Proof. apply pnone_view; repeat (apply pnone_fields; [repeat pa_tac|]). apply pnone_labels. Qed.
Lemma pnone_evpn1 : pnone oevpn1.
Proof. apply pnone_view; repeat (apply pnone_fields; [unfold oesi; repeat pa_tac|]). apply pnone_labels. Qed.
Lemma pnone_evpn2 : pnone oevpn2.
Proof.
  assert (I := pa_ip).
  apply pnone_view; repeat (apply pnone_fields; [unfold oesi, omac; repeat pa_tac|]). apply pnone_labels.
Qed.
Lemma pnone_evpn5 : pnone oevpn5.
Proof.
  assert (I := pa_ip).
  apply pnone_view; repeat (apply pnone_fields; [unfold oesi, omac; repeat pa_tac|]). apply pnone_labels.
Qed.
Lemma l2a_partial x y : opcmp ol2a x y = if oeq ol2a x y then None else Some (ocmp ol2a x y).
Proof.
  rewrite pnone_l2a. assert (E := law_eq _ _ laws_l2a x y). assert (C := law_cmp_eq _ _ laws_l2a x y).
  destruct (oeq ol2a x y), (ocmp ol2a x y); try reflexivity.
  - apply proj1 in E. specialize (E eq_refl). apply C in E. discriminate.
  - apply proj1 in E. specialize (E eq_refl). apply C in E. discriminate.
  - apply proj1 in C. specialize (C eq_refl). apply E in C. discriminate.
Qed.
Lemma evpn_partial x y : opcmp oevpn x y = if oeq oevpn x y && evpn_has_labels x then None else Some (ocmp oevpn x y).
Proof.
  assert (E := law_eq _ _ laws_evpn x y). assert (C := law_cmp_eq _ _ laws_evpn x y). rewrite <- E in C. clear E.
  assert (G : forall b c, (c = Eq <-> b = true) -> match c with Eq => None | Lt => Some Lt | Gt => Some Gt end = if b then None else Some c).
  { clear. intros [] [] [H1 H2]; try reflexivity; try (now specialize (H2 eq_refl)); now specialize (H1 eq_refl). }
  destruct x, y; cbn [evpn_has_labels]; rewrite ?andb_true_r, ?andb_false_r; try reflexivity.
  - rewrite <- (G _ _ C). exact (pnone_evpn1 r r0).
  - rewrite <- (G _ _ C). exact (pnone_evpn2 r r0).
  - exact (pa_evpn3 r r0).
  - exact (pa_evpn4 r r0).
  - rewrite <- (G _ _ C). exact (pnone_evpn5 r r0).
Qed.
Lemma l2vpls_partial x v y w : oeq ol2a x y = true -> opcmp oaddrs (L2VPLS (x :: v)) (L2VPLS (y :: w)) = None.
Proof.
  intros E. change (match opcmp ol2a x y with Some Eq => list_pcmp (opcmp ol2a) v w | r => r end = None).
  now rewrite l2a_partial, E.
Qed.
Lemma evpn_list_partial x v y w : oeq oevpn x y = true -> evpn_has_labels x = true ->
  opcmp oaddrs (EVPN (x :: v)) (EVPN (y :: w)) = None.
Proof.
  intros E L. change (match opcmp oevpn x y with Some Eq => list_pcmp (opcmp oevpn) v w | r => r end = None).
  now rewrite evpn_partial, E, L.
Qed.
Lemma addrs_self a : opcmp oaddrs a a = Some Eq <->
  match a with L2VPLS v => v = [] | EVPN v => forallb (fun r => negb (evpn_has_labels r)) v = true | _ => True end.
Proof.
  assert (D : derived_labels a = false -> opcmp oaddrs a a = Some Eq).
  { intros H. rewrite (pa_addrs a a) by now rewrite H. f_equal. now apply (law_cmp_eq _ _ laws_addrs). }
  destruct a; try (split; [trivial|intros _; apply D; reflexivity]); clear D.
  - destruct v as [|x v]; [split; reflexivity|]. rewrite l2vpls_partial by now apply (law_eq _ _ laws_l2a). split; discriminate.
  - change (opcmp oaddrs (EVPN v) (EVPN v)) with (list_pcmp (opcmp oevpn) v v).
    induction v as [|x v IH]; [split; reflexivity|]. cbn [list_pcmp forallb]. rewrite evpn_partial.
    rewrite (proj2 (law_eq _ _ laws_evpn x x) eq_refl), (proj2 (law_cmp_eq _ _ laws_evpn x x) eq_refl).
    destruct (evpn_has_labels x); cbn [andb negb]; [split; discriminate|exact IH].
Qed.
(** [MplsLabels] in the middle of a structure *)
Lemma laws_pmsi : ord_laws opmsi (fun x => (pm_flags x, pm_type x, pm_tun x)).
Proof.
  eapply laws_ext; [eapply laws_view; repeat eapply laws_fields; [eapply laws_num..|eapply laws_labels|]|].
  - eapply laws_view. repeat eapply laws_variants; [eapply laws_unit| |eapply laws_num|eapply laws_fields; [eapply laws_ip|eapply laws_bytes]].
    repeat eapply laws_fields; eapply laws_num.
  - intros [f t l u] [f' t' l' u']; cbn. split; intros E.
    + injection E as -> -> E. f_equal. destruct u, u'; cbn in E; congruence.
    + injection E as -> -> ->. reflexivity.
Qed.
Lemma pmsi_partial x y : pm_flags x = pm_flags y -> pm_type x = pm_type y -> opcmp opmsi x y = None.
Proof. intros H1 H2. cbn. rewrite H1, H2, !N.compare_refl. reflexivity. Qed.

(** ** AS numbers *)
Lemma as_tonumb_val x : x < 2 ^ 32 -> as_tonumb x = if x mod 65536 =? 0 then x / 65536 else x.
Proof.
  intros _. unfold as_tonumb. change 65535 with (N.ones 16). rewrite N.land_ones, N.shiftr_div_pow2. reflexivity.
Qed.
Lemma as_eq_iff x y : x < 2 ^ 32 -> y < 2 ^ 32 ->
  (oeq oas x y = true <-> x = y \/ as_upper x y \/ as_upper y x).
Proof.
  intros Hx Hy. unfold oas, oeq, as_upper. rewrite N.eqb_eq, !as_tonumb_val by assumption.
  assert (Dx := N.div_mod x 65536 ltac:(discriminate)). assert (Dy := N.div_mod y 65536 ltac:(discriminate)).
  assert (Mx := N.mod_lt x 65536 ltac:(discriminate)). assert (My := N.mod_lt y 65536 ltac:(discriminate)).
  assert (Qx : x / 65536 < 65536) by (apply N.div_lt_upper_bound; [discriminate|exact Hx]).
  assert (Qy : y / 65536 < 65536) by (apply N.div_lt_upper_bound; [discriminate|exact Hy]).
  destruct (N.eqb_spec (x mod 65536) 0) as [Zx|Zx], (N.eqb_spec (y mod 65536) 0) as [Zy|Zy];
    set (qx := x / 65536) in *; set (qy := y / 65536) in *; set (mx := x mod 65536) in *; set (my := y mod 65536) in *;
    clearbody qx qy mx my; clear Hx Hy; subst x y; lia.
Qed.
Lemma as_refuted x : 1 <= x < 65536 ->
  oeq oas x (x * 65536) = true /\ ocmp oas x (x * 65536) = Lt /\ ohash oas x <> ohash oas (x * 65536).
Proof.
  intros H. repeat split.
  - apply as_eq_iff; [clear - H; lia|clear - H; lia|]. right. right. split; [exact H|reflexivity].
  - cbn. apply N.compare_lt_iff. clear - H. lia.
  - cbn. intros E. assert (x = x * 65536) by congruence. clear - H H0. lia.
Qed.
Lemma as_equiv : (forall x, oeq oas x x = true) /\ (forall x y, oeq oas x y = oeq oas y x) /\
  (forall x y z, oeq oas x y = true -> oeq oas y z = true -> oeq oas x z = true).
Proof.
  cbn. split; [|split].
  - intros. apply N.eqb_refl.
  - intros. apply N.eqb_sym.
  - intros x y z. rewrite !N.eqb_eq. congruence.
Qed.
Lemma as_exact x y : x < 2 ^ 32 -> y < 2 ^ 32 ->
  (oeq oas x y = true /\ (ocmp oas x y <> Eq \/ ohash oas x <> ohash oas y) <-> as_upper x y \/ as_upper y x).
Proof.
  intros Hx Hy. rewrite as_eq_iff by assumption. cbn.
  assert (N1 : forall u v, as_upper u v -> u <> v) by (clear; unfold as_upper; lia).
  assert (C : x ?= y <> Eq <-> x <> y) by now rewrite N.compare_eq_iff.
  split.
  - intros [[->|H] H2]; [|exact H]. rewrite N.compare_refl in H2. destruct H2; congruence.
  - intros H. split; [now right|]. left. apply C. destruct H as [H|H]; apply N1 in H; congruence.
Qed.
Lemma as_laws_when x y : (as_tonumb x = x /\ as_tonumb y = y) -> (oeq oas x y = true <-> ocmp oas x y = Eq).
Proof. intros [H1 H2]. cbn. rewrite H1, H2, N.eqb_eq, N.compare_eq_iff. reflexivity. Qed.
Lemma aspath_refuted l1 x l2 : 1 <= x < 65536 ->
  oeq oaspath (l1 ++ x :: l2) (l1 ++ (x * 65536) :: l2) = true /\
  ocmp oaspath (l1 ++ x :: l2) (l1 ++ (x * 65536) :: l2) = Lt.
Proof.
  intros H. destruct (as_refuted x H) as (E & C & _).
  induction l1 as [|a l IH]; cbn [app].
  - split.
    + change (oeq oas x (x * 65536) && oeq oaspath l2 l2 = true). rewrite E. cbn.
      clear. induction l2; [reflexivity|]. cbn. now rewrite N.eqb_refl.
    + change (match ocmp oas x (x * 65536) with Eq => ocmp oaspath l2 l2 | r => r end = Lt). now rewrite C.
  - destruct IH as [I1 I2]. split.
    + change (oeq oas a a && oeq oaspath (l ++ x :: l2) (l ++ x * 65536 :: l2) = true).
      rewrite I1. cbn. now rewrite N.eqb_refl.
    + change (match ocmp oas a a with Eq => ocmp oaspath (l ++ x :: l2) (l ++ x * 65536 :: l2) | r => r end = Lt).
      cbn [ocmp oas]. now rewrite N.compare_refl.
Qed.
