(** Proofs about what octets mean: attribute areas, every attribute, UPDATE. *)
From Verif Require Import Base BaseFacts M_Util S_Wire F_Util M_Prefix S_Prefix M_Nlri S_Nlri F_Nlri F_Nlri2 M_Session M_Vpls F_Vpls M_Mvpn S_Mvpn F_Mvpn M_Evpn S_Evpn F_Evpn
  M_Flowspec S_Flowspec F_Flowspec M_Cap M_Addrs S_Addrs M_Attr S_Attr F_Attr F_Attr3 S_Attr3 F_Lay F_Attr4 M_Update S_Update F_Update S_Exact S_Exact2 F_Exact F_Exact2 F_Exact3 F_Exact4 F_Exact5.
Ltac Zify.zify_post_hook ::= idtac.

(** ** Attribute areas *)
Lemma app_same_len {A} (d d' s s' : list A) : length d = length d' -> d ++ s = d' ++ s' -> d = d' /\ s = s'.
Proof.
  revert d'. induction d as [|x d IH]; intros [|y d'] EL E; try discriminate EL; [auto|]. injection E as -> E. injection EL as EL. destruct (IH d' EL E) as [-> ->]. auto.
Qed.
Lemma frame_inj f tc d s f' tc' d' s' : N.of_nat (length d) <= len_max f -> N.of_nat (length d') <= len_max f' ->
  frame f tc d ++ s = frame f' tc' d' ++ s' -> f = f' /\ tc = tc' /\ d = d' /\ s = s'.
Proof.
  intros F F' E. unfold frame in E. rewrite <- !app_assoc in E. cbn [app] in E.
  assert (E1 := f_equal (@hd N 0) E). cbn [hd] in E1. apply (f_equal (@tl N)) in E. cbn [tl] in E. assert (E2 := f_equal (@hd N 0) E). cbn [hd] in E2. apply (f_equal (@tl N)) in E. cbn [tl] in E.
  subst f' tc'. split; [reflexivity|]. split; [reflexivity|].
  apply app_same_len in E as [E E']; [|now rewrite !length_be_bytes]. assert (EL : length d = length d').
  { apply (f_equal be_val) in E. unfold len_max, len_octets in *. destruct (fl_extended f); rewrite !be_val_be_bytes in E by (clear - F F'; cbn; lia); lia. }
  now apply app_same_len.
Qed.
(** what is read of the head of an attribute determines the frame *)
Lemma head_frame f tc s n h : bytes_ok s ->
  (if fl_extended f then exists r, s = be_bytes 2 (N.of_nat n) ++ r /\ N.of_nat n < 2 ^ 16 /\ h = 4%nat else exists r, s = N.of_nat n :: r /\ h = 3%nat) ->
  (h + n <= 2 + length s)%nat -> exists d s', f :: tc :: s = frame f tc d ++ s' /\ length d = n /\ N.of_nat n <= len_max f /\ h = (2 + len_octets f)%nat.
Proof.
  intros B H L. unfold len_max, len_octets, frame. unfold len_octets. destruct (fl_extended f).
  - destruct H as (r & -> & Hn & ->). rewrite app_length, length_be_bytes in L. destruct (take n r) as (d & s' & -> & Ld); [lia|]. exists d, s'. rewrite Ld.
    split; [now rewrite <- !app_assoc|]. split; [reflexivity|]. split; [clear - Hn; lia|reflexivity].
  - destruct H as (r & -> & ->). cbn [length] in L. destruct (take n r) as (d & s' & -> & Ld); [lia|]. exists d, s'. rewrite Ld. apply Forall_cons_iff in B as [B _].
    change (N.of_nat n < 256) in B. split; [|split; [reflexivity|split; [clear - B; lia|reflexivity]]].
    rewrite <- !app_assoc. cbn [app be_bytes]. change (8 * N.of_nat 0) with 0. rewrite N.pow_0_r, N.div_1_r, N.mod_small by exact B. reflexivity.
Qed.
Lemma len_frame f tc d : length (frame f tc d) = (2 + len_octets f + length d)%nat.
Proof. apply length_frame. Qed.

Lemma area_inv R w v : area_of R w v -> w = [] /\ v = [] \/
  exists f tc d s a v', w = frame f tc d ++ s /\ N.of_nat (length d) <= len_max f /\ R tc f (length d) d a /\ area_of R s v' /\ v = a :: v'.
Proof. intros [|f tc d s a v' F HR HA]; [auto|]. right. exists f, tc, d, s, a, v'. auto. Qed.
Section Set_loop.
Variables (dec : N -> N -> nat -> list N -> res attr) (R : N -> N -> nat -> list N -> attr -> Prop).
Lemma set_loop_exact : forall fuel q s v, bytes_ok s -> (length s < fuel)%nat ->
  (forall tc f n d a, bytes_ok d -> (length d < length s)%nat -> dec tc f n d = Ok a <-> R tc f n d a) ->
  attrset_loop dec fuel (q ++ s) (length q) = Ok v <-> area_of R s v.
Proof.
  induction fuel as [|fuel IH]; intros q s v B L HD; [lia|]. destruct s as [|f s].
  - rewrite app_nil_r, attrset_loop_end by lia. split; [intros H; injection H as <-; constructor|].
    intros H. inversion H. reflexivity.
  - assert (STEP : forall tc d s', f :: s = frame f tc d ++ s' -> N.of_nat (length d) <= len_max f -> 
      attrset_loop dec (S fuel) (q ++ f :: s) (length q) = Ok v <-> exists a v', R tc f (length d) d a /\ area_of R s' v' /\ v = a :: v').
    { intros tc d s' E F. rewrite E in B |- *. rewrite attrset_loop_frame by exact F. apply bytes_app in B as [B1 B2].
      assert (Bd : bytes_ok d) by (unfold frame in B1; now apply bytes_app in B1 as [_ [_ ?]%bytes_app]).
      assert (LE := f_equal (@length N) E). rewrite app_length, len_frame in LE.
      assert (HD' : forall tc f n d a, bytes_ok d -> (length d < length s')%nat -> dec tc f n d = Ok a <-> R tc f n d a) by (intros; apply HD; [assumption|lia]).
      assert (HR := fun a => HD tc f (length d) d a Bd ltac:(lia)).
      assert (HL := fun v' => IH (q ++ frame f tc d) s' v' B2 ltac:(cbn [length] in *; lia) HD').
      rewrite app_length, <- app_assoc in HL. split.
      - intros H. apply bind_Ok_inv in H as (a & E1 & H). apply bind_Ok_inv in H as (v' & E2 & H). injection H as <-. exists a, v'. split; [now apply HR|]. split; [now apply HL|reflexivity].
      - intros (a & v' & E1 & E2 & ->). apply HR in E1. apply HL in E2. now rewrite E1, bind_ok, E2, bind_ok. }
    split.
    + intros H. assert (P : exists tc d s', f :: s = frame f tc d ++ s' /\ N.of_nat (length d) <= len_max f).
      { cbn [attrset_loop] in H. destruct (Nat.ltb_spec (length q) (length (q ++ f :: s))) as [_|X]; [|rewrite app_length in X; cbn [length] in X; lia].
        rewrite (idx_peel q _ (length q)), Nat.sub_diag in H by auto. change (idx (f :: s) 0) with (Ok f : res N) in H. rewrite bind_ok in H.
        rewrite (idx_peel q _ (length q)) in H by (auto; lia). replace (length q + 1 - length q)%nat with 1%nat in H by lia.
        destruct s as [|tc s]; [discriminate|]. change (idx (f :: tc :: s) 1) with (Ok tc : res N) in H. rewrite bind_ok in H.
        apply Forall_cons_iff in B as [_ B]. apply Forall_cons_iff in B as [_ B]. rewrite ext_bit in H.
        apply bind_Ok_inv in H as ([n h] & E1 & H). destruct (Nat.ltb_spec (length (q ++ f :: tc :: s)) (h + n)) as [|Lh]; [discriminate|]. rewrite app_length in Lh. cbn [length] in Lh. clear H.
        destruct (head_frame f tc s n (h - length q) B) as (d & s' & E & Ld & Lm & _).
        - destruct (fl_extended f).
          + rewrite (rslice_peel q _ (length q)) in E1 by (auto; lia). replace (length q + 4 - 2 - length q)%nat with 2%nat in E1 by lia. replace (length q + 4 - length q)%nat with 4%nat in E1 by lia.
            apply bind_Ok_inv in E1 as (sl & ES & E1). apply rslice_Ok_inv in ES as (_ & LS & ->). cbn [length] in LS.
            destruct (take_be 2 s B ltac:(lia)) as (l & r & -> & Hl & Br). change (sub (f :: tc :: be_bytes 2 l ++ r) 2 4) with (be_bytes 2 l) in E1.
            rewrite <- (app_nil_r (be_bytes 2 l)), getn_u16_be, bind_ok in E1 by exact Hl. apply Ok_inj in E1. assert (E2 := f_equal fst E1). assert (E3 := f_equal snd E1). cbn [fst snd] in E2, E3.
            subst n h. exists r. rewrite N2Nat.id. split; [reflexivity|]. split; [exact Hl|lia].
          + rewrite (idx_peel q _ (length q)) in E1 by (auto; lia). replace (length q + 3 - 1 - length q)%nat with 2%nat in E1 by lia. destruct s as [|l r]; [discriminate|].
            change (idx (f :: tc :: l :: r) 2) with (Ok l : res N) in E1. rewrite bind_ok in E1. apply Ok_inj in E1. assert (E2 := f_equal fst E1). assert (E3 := f_equal snd E1). cbn [fst snd] in E2, E3.
            subst n h. exists r. rewrite N2Nat.id. split; [reflexivity|lia].
        - assert (length q <= h)%nat. { clear - E1. destruct (fl_extended f); apply bind_Ok_inv in E1 as (x1 & _ & E1); [apply bind_Ok_inv in E1 as (x2 & _ & E1)|]; injection E1 as _ <-; lia. } lia.
        - exists tc, d, s'. split; [exact E|]. now rewrite Ld. }
      destruct P as (tc & d & s' & E & F). destruct (proj1 (STEP _ _ _ E F) H) as (a & v' & HR & HA & ->). rewrite E. now constructor.
    + intros H. destruct (area_inv _ _ _ H) as [(X & _)|(f' & tc & d & s' & a & v' & E & F & HR & HA & EV)]; [discriminate|]. assert (EF := E). unfold frame in EF. cbn [app] in EF. apply (f_equal (@hd N 0)) in EF. cbn [hd] in EF. subst f'.
      apply (STEP _ _ _ E F). now exists a, v'.
Qed.
End Set_loop.

(** ** Every attribute *)
Lemma untyped_codes oc p tc f n b : ~ In tc typed_codes -> attr_decode oc p tc f n b = unknown_decode tc f n b.
Proof.
  intros H. unfold attr_decode. cbn [attr_decode_n].
  repeat match goal with |- (if tc =? ?k then _ else _) = _ => destruct (N.eqb_spec tc k) as [E|_]; [exfalso; apply H; rewrite E; unfold typed_codes, plain_codes; cbn; tauto|] end.
  reflexivity.
Qed.
Lemma unknown_exact tc f n b a : unknown_decode tc f n b = Ok a <-> exists v r, b = v ++ r /\ length v = n /\ a = AUnknown tc f v.
Proof.
  unfold unknown_decode. split.
  - intros H. apply bind_Ok_inv in H as (s & E & H). apply Ok_inj in H. apply rslice_Ok_inv in E as (_ & L & E). unfold sub in E. rewrite Nat.sub_0_r in E. cbn [skipn] in E. subst s.
    exists (firstn n b), (skipn n b). split; [symmetry; apply firstn_skipn|]. split; [now apply firstn_length_le|auto].
  - intros (v & r & -> & L & ->). now rewrite rslice_front.
Qed.
Lemma attr_exact_l oc p : forall m tc f n b a, bytes_ok b -> (length b <= m)%nat -> attr_decode oc p tc f n b = Ok a <-> attr_reads oc p tc f n b a.
Proof.
  induction m as [m IH] using lt_wf_ind. intros tc f n b a B Lm.
  destruct (in_dec N.eq_dec tc plain_codes) as [I|I].
  - rewrite (payload_exact oc p tc f n b a B I). split; [now apply ar_plain|].
    intros H. destruct H as [tc f n b a _ H|f n b nh a H|f n b a H|f n b x H|f n asn s v H|tc f n v r H]; [exact H|exfalso..]; try (cbn in I; intuition discriminate).
    apply H. unfold typed_codes. apply in_or_app. auto.
  - destruct (N.eq_dec tc 14) as [->|T14]; [|destruct (N.eq_dec tc 15) as [->|T15]; [|destruct (N.eq_dec tc 22) as [->|T22]; [|destruct (N.eq_dec tc 128) as [->|T128]]]].
    + change (attr_decode oc p 14 f n b) with ('(nh, a) <- mpupdates_decode oc p b ;; Ok (AMPUpdates nh a)). split.
      * intros H. apply bind_Ok_inv in H as ([nh a'] & E & H). apply Ok_inj in H. subst a. apply ar_reach. now apply reach_exact.
      * intros H. inversion H as [? ? ? ? ? X|? ? ? nh a' H'| | | |? ? ? v r X]; subst; [contradiction| |exfalso; apply X; cbn; tauto].
        apply reach_exact in H'; [|exact B]. now rewrite H'.
    + change (attr_decode oc p 15 f n b) with (a <- mpwithdraws_decode oc p b ;; Ok (AMPWithdraws a)). split.
      * intros H. apply bind_Ok_inv in H as (a' & E & H). apply Ok_inj in H. subst a. apply ar_unreach. now apply unreach_exact.
      * intros H. inversion H as [? ? ? ? ? X| |? ? ? a' H'| | |? ? ? v r X]; subst; [contradiction| |exfalso; apply X; cbn; tauto].
        apply unreach_exact in H'; [|exact B]. now rewrite H'.
    + rewrite attr_pmsi. split.
      * intros H. apply bind_Ok_inv in H as (a' & E & H). apply Ok_inj in H. subst a. apply ar_pmsi. now apply pmsi_exact in E.
      * intros H. inversion H as [? ? ? ? ? X| | |? ? ? x H'| |? ? ? v r X]; subst; [contradiction| |exfalso; apply X; cbn; tauto].
        apply (pmsi_exact oc) in H'; [|exact B]. now rewrite H'.
    + rewrite attr_decode_set. unfold attrset_decode.
      assert (LOOP : forall asn s v, b = be_bytes 4 asn ++ s -> attrset_loop (attr_decode oc p) (S (length b)) b 4 = Ok v <-> area_of (attr_reads oc p) s v).
      { intros asn s v ->. apply bytes_app in B as [_ B]. rewrite app_length, length_be_bytes in Lm |- *.
        apply (set_loop_exact (attr_decode oc p) (attr_reads oc p) _ (be_bytes 4 asn)); [exact B|lia|].
        intros tc f' n' d a' Bd Ld. apply (IH (length d)); auto; lia. }
      split.
      * intros H. destruct (sp_as32 p) eqn:A32; [|discriminate]. cbn [negb] in H. destruct (Nat.ltb_spec (length b) 4) as [|L]; [discriminate|].
        apply bind_Ok_inv in H as (v & E & H). apply bind_Ok_inv in H as (asn & E2 & H). apply Ok_inj in H. subst a.
        destruct (take_be 4 b B L) as (x & s & Eb & Hx & _). apply (LOOP _ _ _ Eb) in E. rewrite Eb, getn_u32_be in E2 by exact Hx. apply Ok_inj in E2. subst x. rewrite Eb.
        now apply ar_set.
      * intros H. inversion H as [? ? ? ? ? X| | | |? ? asn s v A32 HA HS|? ? ? v r X]; subst; [contradiction| |exfalso; apply X; cbn; tauto].
        rewrite A32. cbn [negb]. destruct (Nat.ltb_spec (length (be_bytes 4 asn ++ s)) 4) as [L|L]; [rewrite app_length, length_be_bytes in L; lia|].
        rewrite (proj2 (LOOP asn s v eq_refl) HS), bind_ok, getn_u32_be by exact HA. reflexivity.
    + assert (K : ~ In tc typed_codes). { unfold typed_codes. intros X. apply in_app_or in X as [X|X]; [contradiction|]. cbn in X. intuition congruence. }
      rewrite untyped_codes by exact K. rewrite unknown_exact. split.
      * intros (v & r & -> & L & ->). now apply ar_unknown.
      * intros H. inversion H; subst; try contradiction. eauto.
Qed.
Lemma attr_exact oc p tc f n b a : bytes_ok b -> attr_decode oc p tc f n b = Ok a <-> attr_reads oc p tc f n b a.
Proof. intros B. now apply (attr_exact_l oc p (length b)). Qed.

(** ** UPDATE *)
Lemma idx_in {A} (s r : list A) i : (i < length s)%nat -> idx (s ++ r) i = idx s i.
Proof. intros H. unfold idx. now rewrite nth_error_app1. Qed.
Lemma upd_area_exact oc p : forall fuel q s nl v c, bytes_ok s -> (length s < fuel)%nat ->
  upd_attrs fuel oc p (q ++ s ++ nl) (length q) (length q + length s) = Ok (v, c) <-> area_of (attr_reads oc p) s v /\ c = (length q + length s)%nat.
Proof.
  induction fuel as [|fuel IH]; intros q s nl v c B L; [lia|]. destruct s as [|f s].
  - cbn [upd_attrs length]. rewrite Nat.add_0_r, Nat.ltb_irrefl. split; [intros H; injection H as <- <-; split; [constructor|reflexivity]|].
    intros (H & ->). inversion H. reflexivity.
  - assert (STEP : forall tc d s', f :: s = frame f tc d ++ s' -> N.of_nat (length d) <= len_max f -> 
      upd_attrs (S fuel) oc p (q ++ (f :: s) ++ nl) (length q) (length q + length (f :: s)) = Ok (v, c) <->
      (exists a v', attr_reads oc p tc f (length d) d a /\ area_of (attr_reads oc p) s' v' /\ v = a :: v') /\ c = (length q + length (f :: s))%nat).
    { intros tc d s' E F. assert (Bf : f < 256) by (apply Forall_cons_iff in B as [B _]; exact B). rewrite E in B |- *. rewrite <- app_assoc.
      rewrite frame_step by (try (split; [exact Bf|exact F]); rewrite app_length; lia). apply bytes_app in B as [B1 B2].
      assert (Bd : bytes_ok d) by (unfold frame in B1; now apply bytes_app in B1 as [_ [_ ?]%bytes_app]).
      assert (LE := f_equal (@length N) E). rewrite app_length, len_frame in LE.
      assert (HR := fun a => attr_exact oc p tc f (length d) d a Bd).
      assert (HL := fun v' c' => IH (q ++ frame f tc d) s' nl v' c' B2 ltac:(cbn [length] in *; lia)).
      rewrite app_length, <- app_assoc in HL. rewrite (app_length (frame f tc d) s'), !Nat.add_assoc. split.
      - intros H. apply bind_Ok_inv in H as (a & E1 & H). apply bind_Ok_inv in H as ([v' c'] & E2 & H). injection H as <- <-. apply HL in E2 as [E2 ->]. split; [|reflexivity]. exists a, v'. split; [now apply HR|]. auto.
      - intros ((a & v' & E1 & E2 & ->) & ->). apply HR in E1. rewrite E1, bind_ok. rewrite (proj2 (HL v' _) (conj E2 eq_refl)), bind_ok. reflexivity. }
    split.
    + intros H. assert (P : exists tc d s', f :: s = frame f tc d ++ s' /\ N.of_nat (length d) <= len_max f).
      { cbn [upd_attrs] in H. destruct (Nat.ltb_spec (length q) (length q + length (f :: s))) as [_|X]; [|cbn [length] in X; lia].
        rewrite (idx_peel q _ (length q)), Nat.sub_diag in H by auto. change (idx ((f :: s) ++ nl) 0) with (Ok f : res N) in H. rewrite bind_ok in H.
        rewrite (idx_peel q _ (length q)) in H by (auto; lia). replace (length q + 1 - length q)%nat with 1%nat in H by lia.
        apply bind_Ok_inv in H as (tc & E0 & H). rewrite ext_bit in H.
        apply bind_Ok_inv in H as ([n h] & E1 & H). destruct (Nat.ltb_spec (length q + length (f :: s)) (h + n)) as [|Lh]; [discriminate|]. cbn [length] in Lh. clear H.
        assert (H3 : h = (length q + (if fl_extended f then 4 else 3))%nat).
        { clear - E1. destruct (fl_extended f); apply bind_Ok_inv in E1 as (x1 & _ & E1); [apply bind_Ok_inv in E1 as (x2 & _ & E1)|]; injection E1 as _ <-; lia. }
        rewrite idx_in in E0 by (cbn [length]; destruct (fl_extended f); lia).
        destruct s as [|tc' s]; [discriminate|]. injection E0 as ->.
        apply Forall_cons_iff in B as [_ B]. apply Forall_cons_iff in B as [_ B]. cbn [length] in Lh.
        destruct (head_frame f tc s n (h - length q) B) as (d & s' & E & Ld & Lm & _).
        - destruct (fl_extended f).
          + apply bind_Ok_inv in E1 as (sl & ES & E1). 
            destruct (take_be 2 s B ltac:(lia)) as (l & r & -> & Hl & Br).
            replace (q ++ (f :: tc :: be_bytes 2 l ++ r) ++ nl) with ((q ++ [f; tc]) ++ be_bytes 2 l ++ r ++ nl) in ES by (rewrite <- !app_assoc; cbn [app]; now rewrite <- !app_assoc).
            rewrite eslice_app in ES by (rewrite ?app_length, ?length_be_bytes; cbn [length]; lia). apply Ok_inj in ES. subst sl.
            rewrite <- (app_nil_r (be_bytes 2 l)), getn_u16_be, bind_ok in E1 by exact Hl. apply Ok_inj in E1. assert (E2 := f_equal fst E1). cbn [fst] in E2.
            subst n h. exists r. rewrite N2Nat.id. split; [reflexivity|]. split; [exact Hl|lia].
          + rewrite (idx_peel q _ (length q)) in E1 by (auto; lia). replace (length q + 3 - 1 - length q)%nat with 2%nat in E1 by lia. rewrite idx_in in E1 by (cbn [length]; lia).
            destruct s as [|l r]; [discriminate|].
            change (idx (f :: tc :: l :: r) 2) with (Ok l : res N) in E1. rewrite bind_ok in E1. apply Ok_inj in E1. assert (E2 := f_equal fst E1). cbn [fst] in E2.
            subst n h. exists r. rewrite N2Nat.id. split; [reflexivity|lia].
        - lia.
        - exists tc, d, s'. split; [exact E|]. now rewrite Ld. }
      destruct P as (tc & d & s' & E & F). destruct (proj1 (STEP _ _ _ E F) H) as ((a & v' & HR & HA & ->) & ->). split; [|reflexivity]. rewrite E. now constructor.
    + intros (H & EC). destruct (area_inv _ _ _ H) as [(X & _)|(f' & tc & d & s' & a & v' & E & F & HR & HA & EV)]; [discriminate|].
      assert (EF := E). unfold frame in EF. cbn [app] in EF. apply (f_equal (@hd N 0)) in EF. cbn [hd] in EF. subst f'.
      apply (STEP _ _ _ E F). split; [|exact EC]. now exists a, v'.
Qed.
Lemma plain_exact oc p b a : bytes_ok b -> upd_nlri_decode oc p b = Ok a <-> plain_nlri oc p b a.
Proof.
  intros B. unfold upd_nlri_decode, plain_nlri. destruct (sp_mode p).
  - assert (X := fun a n => nlri_exact_l oc p 1 1 b a n B). change (addrs_decode oc p 1 1 b) with (dec_fam oc v4_from_bits IPV4U IPV4UP p 1 1 b) in X. split.
    + intros H. apply bind_Ok_inv in H as ([a' n] & E & H). apply Ok_inj in H. subst. apply X in E. eauto.
    + intros (n & E). apply X in E. now rewrite E.
  - assert (X := fun a n => nlri_exact_l oc p 2 1 b a n B). change (addrs_decode oc p 2 1 b) with (dec_fam oc v6_from_bits IPV6U IPV6UP p 2 1 b) in X. split.
    + intros H. apply bind_Ok_inv in H as ([a' n] & E & H). apply Ok_inj in H. subst. apply X in E. eauto.
    + intros (n & E). apply X in E. now rewrite E.
Qed.
Lemma update_exact oc p m b m' : bytes_ok b ->
  update_decode oc p m b = Ok m' <-> exists v, m' = mkUpd (u_updates m') (u_withdraws m') (u_attrs m ++ v) /\ update_reads oc p b (u_withdraws m') v (u_updates m').
Proof.
  intros B. split.
  - intros H. unfold update_decode in H.
    apply bind_Ok_inv in H as (s0 & E0 & H). apply eslice_Ok_inv in E0 as (_ & L0 & ->). destruct (take_be 2 b B L0) as (lw & b1 & Eb & Hw & B1).
    replace (sub b 0 2) with (be_bytes 2 lw ++ []) in H by (rewrite Eb, app_nil_r; symmetry; apply (sub_app_exact [] (be_bytes 2 lw) b1); reflexivity).
    rewrite getn_u16_be, bind_ok in H by exact Hw. cbv zeta in H. destruct (Nat.leb_spec (length b) (2 + N.to_nat lw)) as [|L1]; [discriminate|].
    assert (LB := f_equal (@length N) Eb). rewrite app_length, length_be_bytes in LB. destruct (take_raw (N.to_nat lw) b1 B1 ltac:(lia)) as (w & b2 & -> & Lw & Bw & B2).
    rewrite app_length in LB. assert (EL : lw = N.of_nat (length w)) by lia.
    assert (E1 : eslice b 2 (2 + N.to_nat lw) = Ok w) by (rewrite Eb; apply eslice_app; [apply length_be_bytes|lia]).
    rewrite E1, bind_ok in H. apply bind_Ok_inv in H as (wd & E2 & H). apply (plain_exact _ _ _ _ Bw) in E2.
    apply bind_Ok_inv in H as (s1 & E3 & H). apply eslice_Ok_inv in E3 as (_ & L3 & E3).
    destruct (take_be 2 b2 B2 ltac:(lia)) as (la & b3 & -> & Ha & B3). rewrite app_length, length_be_bytes in LB.
    assert (E3' : eslice b (2 + N.to_nat lw) (2 + N.to_nat lw + 2) = Ok (be_bytes 2 la)).
    { rewrite Eb, app_assoc. apply eslice_app; rewrite ?app_length, !length_be_bytes; lia. }
    rewrite eslice_ok in E3' by lia. apply Ok_inj in E3'. rewrite E3' in E3. subst s1.
    rewrite <- (app_nil_r (be_bytes 2 la)), getn_u16_be, bind_ok in H by exact Ha.
    destruct (Nat.ltb_spec (length b) (2 + N.to_nat lw + 2 + N.to_nat la)) as [|L4]; [discriminate|].
    destruct (take_raw (N.to_nat la) b3 B3 ltac:(lia)) as (s & nl & -> & Ls & Bs & Bn). rewrite app_length in LB.
    apply bind_Ok_inv in H as ([v c] & E5 & H).
    assert (EB : b = (be_bytes 2 lw ++ w ++ be_bytes 2 la) ++ s ++ nl) by (rewrite Eb; now rewrite <- !app_assoc).
    assert (LQ : length (be_bytes 2 lw ++ w ++ be_bytes 2 la) = (2 + N.to_nat lw + 2)%nat) by (rewrite !app_length, !length_be_bytes; lia).
    rewrite EB, <- LQ, <- Ls in E5. apply upd_area_exact in E5 as [E5 ->]; [|exact Bs|rewrite !app_length; lia].
    apply bind_Ok_inv in H as (s2 & E6 & H).
    assert (E6' : eslice b (length (be_bytes 2 lw ++ w ++ be_bytes 2 la) + length s) (length b) = Ok nl).
    { rewrite EB at 1. rewrite app_assoc. rewrite <- (app_nil_r nl) at 1. apply eslice_app; rewrite !app_length in *; lia. }
    rewrite E6' in E6. apply Ok_inj in E6. subst s2. apply bind_Ok_inv in H as (up & E7 & H). apply (plain_exact _ _ _ _ Bn) in E7. apply Ok_inj in H. subst m'.
    cbn [u_updates u_withdraws]. exists v. split; [reflexivity|]. exists w, s, nl. rewrite Eb. split; [|].
    + replace la with (N.of_nat (length s)) by lia. now rewrite EL.
    + rewrite <- EL. replace (N.of_nat (length s)) with la by lia. auto.
  - destruct m' as [up wd va]. cbn [u_updates u_withdraws]. intros (v & E & w & s & nl & -> & Hw & Ha & RW & RA & RU). injection E as ->.
    apply bytes_app in B as [_ B]. apply bytes_app in B as [Bw B]. apply bytes_app in B as [_ B]. apply bytes_app in B as [Bs Bn].
    unfold update_decode.
    set (b := be_bytes 2 (N.of_nat (length w)) ++ w ++ be_bytes 2 (N.of_nat (length s)) ++ s ++ nl).
    assert (LB : length b = (4 + length w + length s + length nl)%nat) by (unfold b; rewrite !app_length, !length_be_bytes; lia).
    assert (E0 : eslice b 0 2 = Ok (be_bytes 2 (N.of_nat (length w)))) by (apply (eslice_app []); reflexivity).
    rewrite E0, bind_ok, <- (app_nil_r (be_bytes 2 _)), getn_u16_be, bind_ok by exact Hw. cbv zeta. rewrite Nat2N.id.
    destruct (Nat.leb_spec (length b) (2 + length w)) as [|_]; [lia|].
    assert (E1 : eslice b 2 (2 + length w) = Ok w) by (apply eslice_app; [apply length_be_bytes|lia]).
    rewrite E1, bind_ok. apply (plain_exact _ _ _ _ Bw) in RW. rewrite RW, bind_ok.
    assert (E3 : eslice b (2 + length w) (2 + length w + 2) = Ok (be_bytes 2 (N.of_nat (length s)))).
    { unfold b. rewrite app_assoc. apply eslice_app; rewrite ?app_length, !length_be_bytes; lia. }
    rewrite E3, bind_ok, <- (app_nil_r (be_bytes 2 _)), getn_u16_be, bind_ok by exact Ha. rewrite Nat2N.id.
    destruct (Nat.ltb_spec (length b) (2 + length w + 2 + length s)) as [|_]; [lia|].
    assert (EB : b = (be_bytes 2 (N.of_nat (length w)) ++ w ++ be_bytes 2 (N.of_nat (length s))) ++ s ++ nl) by (unfold b; now rewrite <- !app_assoc).
    assert (LQ : length (be_bytes 2 (N.of_nat (length w)) ++ w ++ be_bytes 2 (N.of_nat (length s))) = (2 + length w + 2)%nat) by (rewrite !app_length, !length_be_bytes; lia).
    assert (E5 : upd_attrs (S (length b)) oc p b (2 + length w + 2) (2 + length w + 2 + length s) = Ok (v, (2 + length w + 2 + length s)%nat)).
    { rewrite EB at 2. rewrite <- LQ. apply upd_area_exact; [exact Bs|lia|auto]. }
    rewrite E5, bind_ok.
    assert (E6 : eslice b (2 + length w + 2 + length s) (length b) = Ok nl).
    { rewrite EB at 1. rewrite app_assoc. rewrite <- (app_nil_r nl) at 1. apply eslice_app; rewrite !app_length in *; rewrite ?length_be_bytes in *; lia. }
    rewrite E6, bind_ok. apply (plain_exact _ _ _ _ Bn) in RU. now rewrite RU.
Qed.
Lemma update_exact' oc p m b up wd l : bytes_ok b ->
  update_decode oc p m b = Ok (mkUpd up wd l) <-> exists v, l = u_attrs m ++ v /\ update_reads oc p b wd v up.
Proof.
  intros B. rewrite update_exact by exact B. cbn [u_updates u_withdraws]. split.
  - intros (v & E & R). injection E as ->. eauto.
  - intros (v & -> & R). eauto.
Qed.
