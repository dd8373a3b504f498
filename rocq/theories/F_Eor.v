(** Proofs about End-of-RIB markers. *)
From Verif Require Import Base BaseFacts M_Util S_Wire F_Util M_Prefix S_Prefix M_Nlri S_Nlri F_Nlri M_Vpls M_Cap M_Open M_Session M_Mvpn S_Mvpn M_Evpn S_Evpn M_Flowspec S_Flowspec M_Addrs S_Addrs
  M_Attr S_Attr S_Attr3 M_Update S_Update F_Update S_Exact S_Exact2 F_Attr4 F_Exact F_Exact2 F_Exact3 F_Exact4 F_Exact6 S_Join F_Join F_Join3 S_Eor.
Ltac Zify.zify_post_hook ::= idtac.

Lemma many_none {T} (P : reading T) b n : many P b [] n <-> b = [] /\ n = 0%nat.
Proof. split; [intros H; inversion H; auto|intros [-> ->]; constructor]. Qed.
Lemma many_pid_none {T} (P : reading T) b n : many_pid P b [] n <-> (length b <= 4)%nat /\ n = 0%nat.
Proof. split; [intros H; inversion H; auto|intros [L ->]; now constructor]. Qed.
Lemma nilb_true {A} (l : list A) : nilb l = true <-> l = [].
Proof. destruct l; cbn; split; congruence. Qed.
Lemma family_none {T} oc (P : bit_reading T) plain withid p afi sf b a n :
  (forall v, addrs_is_empty (plain v) = nilb v) -> (forall v, addrs_is_empty (withid v) = nilb v) ->
  family oc P plain withid p afi sf b a n /\ addrs_is_empty a = true <->
  n = 0%nat /\ a = (if check_addpath_receive p afi sf then withid [] else plain []) /\
  (b = [] \/ check_addpath_receive p afi sf = true /\ (length b <= 4)%nat).
Proof.
  intros E1 E2. unfold family, asks_pid. split.
  - intros [[[A (v & M & ->)]|[A (v & M & ->)]] E].
    + rewrite E2 in E. apply nilb_true in E as ->. apply many_pid_none in M as [L ->].
      destruct A as [->|(_ & L' & _)]; [auto|clear - L L'; lia].
    + rewrite E1 in E. apply nilb_true in E as ->. apply many_none in M as [-> ->].
      destruct (check_addpath_receive p afi sf); [tauto|auto].
  - intros (-> & -> & B). destruct (check_addpath_receive p afi sf).
    + split; [left; split; [auto|]|now rewrite E2]. exists []. split; [|reflexivity]. apply many_pid_none. split; [|reflexivity].
      destruct B as [-> | [_ L]]; [cbn; clear; lia|exact L].
    + split; [right; split|now rewrite E1].
      * intros [C|(_ & L & _)]; [discriminate|]. destruct B as [-> | [C _]]; [cbn in L; clear - L; lia|discriminate].
      * exists []. split; [|reflexivity]. apply many_none. destruct B as [-> | [C _]]; [auto|discriminate].
Qed.
Lemma single_none {T} (P : reading T) (mk : list T -> addrs) b a n : (forall v, addrs_is_empty (mk v) = nilb v) ->
  (exists v, many P b v n /\ a = mk v) /\ addrs_is_empty a = true <-> n = 0%nat /\ a = mk [] /\ b = [].
Proof.
  intros E. split.
  - intros [(v & M & ->) H]. rewrite E in H. apply nilb_true in H as ->. apply many_none in M as [-> ->]. auto.
  - intros (-> & -> & ->). split; [|now rewrite E]. exists []. split; [now apply many_none|reflexivity].
Qed.
Definition family_cases : list (N * N) := [(1, 1); (1, 2); (1, 4); (1, 5); (1, 66); (1, 128); (1, 129); (1, 133); (1, 134); (2, 1); (2, 2); (2, 4); (2, 66); (2, 128); (2, 129); (2, 133); (25, 65); (25, 70)].
Lemma routes_none oc p afi sf b a n :
  nlri_reads oc p afi sf b a n /\ addrs_is_empty a = true <->
  n = 0%nat /\ no_routes afi sf (check_addpath_receive p afi sf) = Some a /\ stray p afi sf b.
Proof.
  assert (FAM : forall T (P : bit_reading T) plain withid f s, (forall v, addrs_is_empty (plain v) = nilb v) -> (forall v, addrs_is_empty (withid v) = nilb v) -> with_ids f s ->
    (forall ids, no_routes f s ids = Some (if ids then withid [] else plain [])) ->
    family oc P plain withid p f s b a n /\ addrs_is_empty a = true <-> n = 0%nat /\ no_routes f s (check_addpath_receive p f s) = Some a /\ stray p f s b).
  { intros T P plain withid f s E1 E2 W NR. rewrite (family_none oc P plain withid p f s b a n E1 E2), NR. unfold stray. 
    split; intros (-> & Q & B); (split; [reflexivity|]); (split; [congruence|]); tauto. }
  assert (ONE : forall T (P : reading T) (mk : list T -> addrs) f s, (forall v, addrs_is_empty (mk v) = nilb v) -> (forall ids, no_routes f s ids = Some (mk [])) ->
    (exists v, many P b v n /\ a = mk v) /\ addrs_is_empty a = true <-> n = 0%nat /\ no_routes f s (check_addpath_receive p f s) = Some a /\ stray p f s b).
  { intros T P mk f s E NR. rewrite (single_none P mk b a n E), NR. unfold stray, with_ids. rewrite !NR. 
    split; intros (-> & Q & B); (split; [reflexivity|]); (split; [congruence|]); tauto. }
  assert (NO : (nlri_reads oc p afi sf b a n -> False) -> no_routes afi sf (check_addpath_receive p afi sf) = None ->
    nlri_reads oc p afi sf b a n /\ addrs_is_empty a = true <-> n = 0%nat /\ no_routes afi sf (check_addpath_receive p afi sf) = Some a /\ stray p afi sf b).
  { intros F E. rewrite E. split; [intros [H _]; contradiction|intros (_ & H & _); discriminate]. }
  assert (D : In (afi, sf) family_cases \/ ~ In (afi, sf) family_cases).
  { destruct (in_dec (fun x y : N * N => ltac:(decide equality; apply N.eq_dec)) (afi, sf) family_cases); auto. }
  destruct D as [I|I].
  - unfold family_cases in I. cbn [In] in I. repeat (destruct I as [I|I]; [injection I as <- <-; cbn [nlri_reads]; (apply FAM || apply ONE); try reflexivity; unfold with_ids; cbn; discriminate|]); contradiction.
  - apply NO.
    + intros H. apply I. clear I FAM ONE NO. unfold nlri_reads in H.
      repeat match type of H with match ?x with _ => _ end => destruct x; try contradiction end; cbn; tauto.
    + generalize (check_addpath_receive p afi sf). intros ids. destruct (no_routes afi sf ids) eqn:E; [|reflexivity]. exfalso. apply I. clear I FAM ONE NO. unfold no_routes in E.
      repeat match type of E with match ?x with _ => _ end = _ => destruct x; try discriminate E end; cbn; tauto.
Qed.

(** ** Messages *)
Lemma is_marker_attr oc p s v a : area_of (attr_reads oc p) s v -> v = [AMPWithdraws a] ->
  exists f d, s = frame f 15 d /\ N.of_nat (length d) <= len_max f /\ unreach_reads oc p d a.
Proof.
  intros A ->. inversion A as [|f tc d s' a' v' L R A' E1 E2]; subst. inversion A'; subst. rewrite app_nil_r. exists f, d.
  apply reads_code in R as C. cbn in C. subst tc. inversion R; subst.
  - match goal with H : In _ plain_codes |- _ => cbn in H; clear - H; exfalso; repeat (destruct H as [H|H]; [discriminate H|]); contradiction end.
  - auto.
Qed.
Lemma marker_attr oc p f d a : N.of_nat (length d) <= len_max f -> unreach_reads oc p d a -> area_of (attr_reads oc p) (frame f 15 d) [AMPWithdraws a].
Proof. intros L R. rewrite <- (app_nil_r (frame f 15 d)). apply area_more; [exact L|now apply ar_unreach|constructor]. Qed.
Lemma plain_none oc p b a : plain_nlri oc p b a /\ addrs_is_empty a = true <->
  no_routes (plain_afi p) 1 (check_addpath_receive p (plain_afi p) 1) = Some a /\ stray p (plain_afi p) 1 b.
Proof.
  unfold plain_nlri, plain_afi. split.
  - intros [[n H] E]. destruct (sp_mode p); (apply (conj H), routes_none in E as (_ & E & S0); auto).
  - intros [E S0]. destruct (sp_mode p).
    + destruct (proj2 (routes_none oc p 1 1 b a 0%nat) (conj eq_refl (conj E S0))) as [H H']. eauto.
    + destruct (proj2 (routes_none oc p 2 1 b a 0%nat) (conj eq_refl (conj E S0))) as [H H']. eauto.
Qed.
Lemma stray_len p afi sf s : stray p afi sf s -> N.of_nat (length s) <= 4.
Proof. intros [->|(_ & _ & L)]; [cbn; clear; lia|clear - L; lia]. Qed.
Lemma plain_form w nl : eor_plain_with w nl = upd_body w [] nl.
Proof. unfold eor_plain_with, upd_body, len2. now rewrite N.add_0_r. Qed.
Lemma marker_form w f afi sf s nl : N.of_nat (length s) <= 4 -> afi < 2 ^ 16 ->
  eor_with w f afi sf s nl = upd_body w (frame f 15 (be_bytes 2 afi ++ [sf] ++ s)) nl.
Proof.
  intros L A. assert (B : be_bytes 2 afi = [afi / 256; afi mod 256]).
  { cbn [be_bytes]. change (256 ^ N.of_nat 1) with 256. change (256 ^ N.of_nat 0) with 1. rewrite N.div_1_r, N.mod_small; [reflexivity|]. apply N.div_lt_upper_bound; [discriminate|exact A]. }
  unfold eor_with, upd_body, len2, frame, len_octets. rewrite N.add_0_r. change (fl_extended f) with (N.testbit f 4).
  assert (K : forall k, N.of_nat (k + length s) = N.of_nat (length s) + N.of_nat k) by (intros; clear; lia).
  rewrite !app_length, B. cbn [length]. change (2 + (1 + length s))%nat with (3 + length s)%nat. destruct (N.testbit f 4).
  - rewrite length_be_bytes. change (2 + (2 + (3 + length s)))%nat with (7 + length s)%nat. rewrite !K. rewrite <- !app_assoc. reflexivity.
  - rewrite length_be_bytes. change (2 + (1 + (3 + length s)))%nat with (6 + length s)%nat. rewrite !K. rewrite <- !app_assoc. repeat f_equal.
    change (be_bytes 1 (N.of_nat (length s) + N.of_nat 3)) with [(N.of_nat (length s) + 3) / 1 mod 256]. rewrite N.div_1_r, N.mod_small by (clear - L; lia). reflexivity.
Qed.
Lemma stray_nil p afi sf : stray p afi sf [].
Proof. left. reflexivity. Qed.
Lemma plain_exact oc p b u : bytes_ok b ->
  update_decode oc p update_new b = Ok u /\ says_eor_plain u <->
  exists w nl, b = eor_plain_with w nl /\ stray p (plain_afi p) 1 w /\ stray p (plain_afi p) 1 nl /\
    exists a, no_routes (plain_afi p) 1 (check_addpath_receive p (plain_afi p) 1) = Some a /\ u = mkUpd a a [].
Proof.
  intros B. split.
  - intros [D (E1 & E2 & E3)]. destruct u as [up wd l]. cbn [u_updates u_withdraws u_attrs] in *. subst l.
    apply update_exact' in D as (v & E & w & s & nl & -> & Hw & Hs & W & A & U); [|exact B]. cbn [update_new u_attrs app] in E. subst v. inversion A; subst.
    destruct (proj1 (plain_none oc p w wd) (conj W E2)) as [N1 S1]. destruct (proj1 (plain_none oc p nl up) (conj U E1)) as [N2 S2].
    exists w, nl. rewrite plain_form. split; [reflexivity|]. split; [exact S1|]. split; [exact S2|]. exists up. split; [exact N2|congruence].
  - intros (w & nl & -> & S1 & S2 & a & E & ->). rewrite plain_form in *. apply Forall_app in B as [_ B]. apply Forall_app in B as [Bw B]. apply Forall_app in B as [_ B]. 
    destruct (proj2 (plain_none oc p w a) (conj E S1)) as [W E1]. destruct (proj2 (plain_none oc p nl a) (conj E S2)) as [U E2].
    split; [|unfold says_eor_plain; auto]. apply stray_len in S1. apply upd_exact; cbn [length]; auto; [constructor|clear - S1; lia|clear; lia|].
    cbn [u_updates u_withdraws u_attrs]. split; [exact W|]. split; [constructor|exact U].
Qed.
Lemma none_family afi sf ids a : no_routes afi sf ids = Some a -> get_afi_safi a = (afi, sf) /\ addrs_is_empty a = true /\ afi < 2 ^ 16.
Proof.
  unfold no_routes. intros E. repeat match type of E with match ?x with _ => _ end = _ => destruct x; try discriminate E end; injection E as <-; destruct ids; repeat split.
Qed.
Lemma marker_exact oc p b u afi sf : bytes_ok b ->
  update_decode oc p update_new b = Ok u /\ says_eor u afi sf <->
  exists w f s nl, b = eor_with w f afi sf s nl /\ stray p (plain_afi p) 1 w /\ stray p (plain_afi p) 1 nl /\ stray p afi sf s /\
    exists a e, no_routes (plain_afi p) 1 (check_addpath_receive p (plain_afi p) 1) = Some a /\ no_routes afi sf (check_addpath_receive p afi sf) = Some e /\
      u = mkUpd a a [AMPWithdraws e].
Proof.
  intros B. split.
  - intros [D (E1 & E2 & e & E3 & E4 & E5)]. destruct u as [up wd l]. cbn [u_updates u_withdraws u_attrs] in *. subst l.
    apply update_exact' in D as (v & E & w & s & nl & -> & Hw & Hs & W & A & U); [|exact B]. cbn [update_new u_attrs app] in E. subst v.
    apply (is_marker_attr oc p s _ e) in A as (f & d & -> & L & afi' & sf' & s & n & -> & Ha & R); [|reflexivity].
    destruct (proj1 (routes_none oc p afi' sf' s e n) (conj R E4)) as (_ & N3 & S3). destruct (none_family _ _ _ _ N3) as [F _]. rewrite F in E5. injection E5 as -> ->.
    destruct (proj1 (plain_none oc p w wd) (conj W E2)) as [N1 S1]. destruct (proj1 (plain_none oc p nl up) (conj U E1)) as [N2 S2].
    exists w, f, s, nl. rewrite marker_form; [|exact (stray_len _ _ _ _ S3)|exact Ha]. split; [reflexivity|]. split; [exact S1|]. split; [exact S2|]. split; [exact S3|]. exists up, e. split; [exact N2|]. split; [exact N3|congruence].
  - intros (w & f & s & nl & -> & S1 & S2 & S3 & a & e & N1 & N3 & ->). destruct (none_family _ _ _ _ N3) as (F & E4 & Ha).
    rewrite marker_form in * by (exact Ha || exact (stray_len _ _ _ _ S3)). apply Forall_app in B as [_ B]. apply Forall_app in B as [Bw B]. apply Forall_app in B as [_ B]. apply Forall_app in B as [Bs B].
    destruct (proj2 (plain_none oc p w a) (conj N1 S1)) as [W E1]. destruct (proj2 (plain_none oc p nl a) (conj N1 S2)) as [U E2].
    destruct (proj2 (routes_none oc p afi sf s e 0%nat) (conj eq_refl (conj N3 S3))) as [R _].
    split; [|unfold says_eor; cbn [u_updates u_withdraws u_attrs]; eauto 10]. apply stray_len in S1. apply stray_len in S3.
    assert (LD : length (be_bytes 2 afi ++ [sf] ++ s) = (3 + length s)%nat) by (rewrite !app_length, length_be_bytes; reflexivity).
    apply upd_exact; auto.
    + clear - S1; lia.
    + unfold frame, len_octets. rewrite app_length, app_length, length_be_bytes, LD. cbn [length]. destruct (fl_extended f); clear - S3; lia.
    + cbn [u_updates u_withdraws u_attrs]. split; [exact W|]. split; [|exact U]. apply marker_attr.
      * rewrite LD. unfold len_max. destruct (fl_extended f); clear - S3; lia.
      * exists afi, sf, s, 0%nat. auto.
Qed.

Lemma clean_marker f afi sf : eor_with [] f afi sf [] [] = eor f afi sf.
Proof. unfold eor_with, eor, len2. destruct (N.testbit f 4); reflexivity. Qed.
Lemma eor_bytes f afi sf : f < 256 -> afi < 2 ^ 16 -> sf < 256 -> bytes_ok (eor f afi sf).
Proof.
  intros Hf Ha Hs. assert (afi / 256 < 256) by (apply N.div_lt_upper_bound; [discriminate|exact Ha]). assert (afi mod 256 < 256) by (apply N.mod_lt; discriminate).
  unfold eor, bytes_ok. destruct (N.testbit f 4); cbn [app]; repeat (apply Forall_cons; [assumption || reflexivity|]); apply Forall_nil.
Qed.
Lemma plain_list p : exists a, no_routes (plain_afi p) 1 (check_addpath_receive p (plain_afi p) 1) = Some a.
Proof. unfold plain_afi. destruct (sp_mode p); cbn; eauto. Qed.
Lemma marker_read oc p f afi sf e : f < 256 -> no_routes afi sf (check_addpath_receive p afi sf) = Some e ->
  exists a, no_routes (plain_afi p) 1 (check_addpath_receive p (plain_afi p) 1) = Some a /\
  update_decode oc p update_new (eor f afi sf) = Ok (mkUpd a a [AMPWithdraws e]).
Proof.
  intros Hf E. destruct (plain_list p) as [a Ea]. exists a. split; [exact Ea|]. destruct (none_family _ _ _ _ E) as (_ & _ & Ha).
  assert (Hs : sf < 256) by (clear - E; unfold no_routes in E; repeat match type of E with match ?x with _ => _ end = _ => destruct x; try discriminate E end; reflexivity).
  refine (proj1 (proj2 (marker_exact oc p (eor f afi sf) (mkUpd a a [AMPWithdraws e]) afi sf (eor_bytes f afi sf Hf Ha Hs)) _)).
  exists [], f, [], []. rewrite clean_marker. split; [reflexivity|]. split; [apply stray_nil|]. split; [apply stray_nil|]. split; [apply stray_nil|]. eauto.
Qed.
Lemma plain_read oc p : exists a, no_routes (plain_afi p) 1 (check_addpath_receive p (plain_afi p) 1) = Some a /\
  update_decode oc p update_new eor_plain = Ok (mkUpd a a []).
Proof.
  destruct (plain_list p) as [a Ea]. exists a. split; [exact Ea|].
  assert (B : bytes_ok eor_plain) by (unfold eor_plain; repeat (apply Forall_cons; [reflexivity|]); apply Forall_nil).
  refine (proj1 (proj2 (plain_exact oc p eor_plain (mkUpd a a []) B) _)).
  exists [], []. split; [reflexivity|]. split; [apply stray_nil|]. split; [apply stray_nil|]. eauto.
Qed.
Lemma routes_known oc p afi sf b a n : nlri_reads oc p afi sf b a n -> forall ids, no_routes afi sf ids <> None.
Proof.
  intros H ids. unfold nlri_reads in H.
  repeat match type of H with match ?x with _ => _ end => destruct x; try contradiction end; discriminate.
Qed.
Lemma marker_unknown oc p f afi sf u : f < 256 -> afi < 2 ^ 16 -> sf < 256 -> (forall ids, no_routes afi sf ids = None) ->
  update_decode oc p update_new (eor f afi sf) <> Ok u.
Proof.
  intros Hf Ha Hs E D. assert (Bx := eor_bytes f afi sf Hf Ha Hs). rewrite <- clean_marker, marker_form in * by (exact Ha || (cbn; clear; lia)).
  apply Forall_app in Bx as [_ Bx]. apply Forall_app in Bx as [Bw Bx]. apply Forall_app in Bx as [_ Bx]. apply Forall_app in Bx as [Bs Bx].
  assert (LD : length (be_bytes 2 afi ++ [sf] ++ []) = 3%nat) by (rewrite !app_length, length_be_bytes; reflexivity).
  apply upd_exact in D as (_ & A & _); auto.
  - rewrite <- (app_nil_r (frame f 15 _)) in A. apply area_inv in A as [[X _]|(f' & tc & d & s & a & v & X & L & R & _)]; [discriminate|].
    apply frame_inj in X as (<- & <- & <- & <-); [|rewrite LD; unfold len_max; destruct (fl_extended f); clear; lia|exact L].
    apply reads_code in R as C. inversion R; subst; try discriminate.
    + match goal with H : In _ plain_codes |- _ => cbn in H; clear - H; exfalso; repeat (destruct H as [H|H]; [discriminate H|]); contradiction end.
    + match goal with H : unreach_reads _ _ _ _ |- _ => destruct H as (afi' & sf' & s' & n & X & Ha' & RR) end.
      assert (X2 := f_equal (firstn 2) X). assert (X3 := f_equal (skipn 2) X).
      rewrite !firstn_app, !length_be_bytes, !Nat.sub_diag, !firstn_O, !app_nil_r in X2. rewrite !firstn_all2 in X2 by (rewrite length_be_bytes; constructor).
      rewrite !skipn_app, !length_be_bytes, !Nat.sub_diag in X3. rewrite !skipn_all2 in X3 by (rewrite length_be_bytes; constructor). cbn [app skipn] in X3. injection X3 as <- <-.
      apply (f_equal be_val) in X2. rewrite !be_val_be_bytes in X2 by assumption. subst afi'. exact (routes_known _ _ _ _ _ _ _ RR true (E true)).
    + match goal with H : ~ In _ typed_codes |- _ => apply H; cbn; tauto end.
  - cbn. clear; lia.
  - unfold frame, len_octets. rewrite app_length, app_length, length_be_bytes, LD. cbn [length]. destruct (fl_extended f); clear; lia.
Qed.
Lemma empty_wf a : addrs_is_empty a = true -> a <> ANone -> addrs_wf a /\ addrs_wire a = [].
Proof. intros E NA. destruct a; cbn [addrs_is_empty] in E; try (apply nilb_true in E; subst); try congruence; split; try reflexivity; constructor. Qed.
Lemma empty_session p a : addrs_is_empty a = true -> nlri_wire p a = [] /\ (session_list p a = true -> addrs_wf a).
Proof.
  intros E. unfold nlri_wire. destruct (session_list p a) eqn:S0; [|split; [reflexivity|discriminate]].
  destruct (empty_wf a E) as [W1 W2]; [|auto]. intros ->. unfold session_list in S0. destruct (sp_mode p); discriminate.
Qed.
Lemma plain_sent oc p u buf : says_eor_plain u -> (4 <= length buf)%nat -> update_encode oc p u buf = Ok (4%nat, eor_plain ++ skipn 4 buf).
Proof.
  intros (E1 & E2 & E3) L. destruct u as [up wd l]. cbn [u_updates u_withdraws u_attrs] in *. subst l.
  destruct (empty_session p _ E1) as [W1 F1]. destruct (empty_session p _ E2) as [W2 F2].
  assert (W : update_wire p (mkUpd up wd []) = eor_plain) by (unfold update_wire; cbn [u_updates u_withdraws u_attrs]; rewrite W1, W2; reflexivity).
  change 4%nat with (length eor_plain). rewrite <- W. apply writes_spec; [|now rewrite W].
  apply update_encode_general; cbn [u_updates u_withdraws u_attrs]; auto; [rewrite W2; cbn; clear; lia].
Qed.
Lemma marker_sent oc p u afi sf buf : says_eor u afi sf -> (afi, sf) <> (0, 0) -> (11 <= length buf)%nat ->
  update_encode oc p u buf = Ok (11%nat, eor 144 afi sf ++ skipn 11 buf).
Proof.
  intros (E1 & E2 & e & E3 & E4 & E5) NZ L. destruct u as [up wd l]. cbn [u_updates u_withdraws u_attrs] in *. subst l.
  destruct (empty_session p _ E1) as [W1 F1]. destruct (empty_session p _ E2) as [W2 F2].
  assert (NA : e <> ANone) by (intros ->; injection E5 as <- <-; now apply NZ). destruct (empty_wf e E4 NA) as [WF W3].
  assert (W : update_wire p (mkUpd up wd [AMPWithdraws e]) = eor 144 afi sf).
  { clear - W1 W2 W3 E5 NA. unfold update_wire. cbn [u_updates u_withdraws u_attrs]. rewrite W1, W2. unfold attrs_wire, attr_full. cbn [flat_map attr_wire]. unfold mp_unreach_wire. rewrite W3.
    destruct e; try congruence; injection E5 as <- <-; reflexivity. }
  change 11%nat with (length (eor 144 afi sf)). rewrite <- W. apply writes_spec; [|now rewrite W].
  apply update_encode_general; cbn [u_updates u_withdraws u_attrs]; auto.
  - repeat constructor; [exact WF|]. cbn [attr_wire]. unfold mp_unreach_wire. rewrite W3, !app_length, length_be_bytes. cbn. clear. lia.
  - rewrite W2. cbn. clear. lia.
  - right. cbn. clear. lia.
Qed.
Lemma stray_clean p afi sf s : check_addpath_receive p afi sf = false \/ ~ with_ids afi sf -> stray p afi sf s -> s = [].
Proof. intros H [->|(W & R & _)]; [reflexivity|]. destruct H as [H|H]; [congruence|contradiction]. Qed.
Lemma marker_only oc p b u afi sf : bytes_ok b -> check_addpath_receive p (plain_afi p) 1 = false ->
  check_addpath_receive p afi sf = false \/ ~ with_ids afi sf ->
  update_decode oc p update_new b = Ok u -> says_eor u afi sf -> exists f, b = eor f afi sf.
Proof.
  intros B P F D E. destruct (proj1 (marker_exact oc p b u afi sf B) (conj D E)) as (w & f & s & nl & -> & S1 & S2 & S3 & _).
  apply stray_clean in S1 as ->; [|auto]. apply stray_clean in S2 as ->; [|auto]. apply stray_clean in S3 as ->; [|auto]. exists f. apply clean_marker.
Qed.
Lemma plain_only oc p b u : bytes_ok b -> check_addpath_receive p (plain_afi p) 1 = false ->
  update_decode oc p update_new b = Ok u -> says_eor_plain u -> b = eor_plain.
Proof.
  intros B P D E. destruct (proj1 (plain_exact oc p b u B) (conj D E)) as (w & nl & -> & S1 & S2 & _).
  apply stray_clean in S1 as ->; [|auto]. apply stray_clean in S2 as ->; [|auto]. reflexivity.
Qed.
Lemma plain_cut oc p w nl : check_addpath_receive p (plain_afi p) 1 = true -> bytes_ok w -> bytes_ok nl -> (length w <= 4)%nat -> (length nl <= 4)%nat ->
  update_decode oc p update_new (eor_plain_with w nl) = update_decode oc p update_new eor_plain.
Proof.
  intros P Bw Bn Lw Ln. destruct (plain_read oc p) as (a & Ea & ->).
  assert (ST : forall s, (length s <= 4)%nat -> stray p (plain_afi p) 1 s).
  { intros s L. right. split; [|auto]. unfold with_ids, plain_afi. destruct (sp_mode p); discriminate. }
  assert (B : bytes_ok (eor_plain_with w nl)).
  { unfold eor_plain_with, bytes_ok, len2. rewrite !Forall_app. repeat split; auto; [apply be_bytes_ok|]. repeat constructor. }
  refine (proj1 (proj2 (plain_exact oc p _ _ B) _)). exists w, nl. split; [reflexivity|]. split; [auto|]. split; [auto|]. eauto.
Qed.
