(** Proof of exactly when an UPDATE is answered with [ProtocolError]. *)
From Verif Require Import Base BaseFacts M_Util S_Wire F_Util M_Prefix S_Prefix M_Nlri S_Nlri F_Nlri F_Nlri2 M_Session M_Vpls F_Vpls M_Mvpn S_Mvpn F_Mvpn M_Evpn S_Evpn F_Evpn
  M_Flowspec S_Flowspec F_Flowspec M_Cap M_Addrs S_Addrs M_Attr S_Attr S_Attr2 S_Attr3 F_Attr F_Attr2 F_Attr3 F_Lay F_Attr4 M_Update S_Update F_Update S_Exact S_Exact2 F_Exact F_Exact2 F_Exact3 F_Exact4 F_Exact5 F_Exact6
  S_Panic F_Panic F_Panic2 F_Panic3 F_Panic4 S_Attr2 F_Panic5 S_Kinds F_Kinds.
Ltac Zify.zify_post_hook ::= idtac.

Lemma bind_Err {A B} (e : res A) (f : A -> res B) x : bind e f = Err x <-> e = Err x \/ exists a, e = Ok a /\ f a = Err x.
Proof.
  destruct e as [a|e| |]; cbn [bind]; split.
  - intros H. right. now exists a.
  - intros [H|(a' & E & H)]; [discriminate|]. congruence.
  - intros H. left. congruence.
  - intros [H|(a' & E & H)]; [congruence|discriminate].
  - discriminate.
  - intros [H|(a' & E & H)]; discriminate.
  - discriminate.
  - intros [H|(a' & E & H)]; discriminate.
Qed.
Lemma plain_np {A} (r : res A) : kinds plain r -> r <> Err EProtocol.
Proof. intros H E. destruct (H _ E) as [X|X]; discriminate X. Qed.
Lemma eslice_npe {A} (l : list A) a b : eslice l a b <> Err EProtocol.
Proof. unfold eslice. destruct (_ && _)%bool; discriminate. Qed.
Lemma eslice_short {A} (l : list A) a b : (length l < b)%nat -> eslice l a b = Err EInsufficient.
Proof. intros H. unfold eslice. destruct (Nat.leb_spec b (length l)); [lia|]. now rewrite Bool.andb_false_r. Qed.
Lemma attr_npe oc p tc f n b : attr_decode oc p tc f n b <> Err EProtocol.
Proof. apply plain_np, k_attr; [now right|now left|now left]. Qed.
Lemma nlri_npe oc p b : upd_nlri_decode oc p b <> Err EProtocol.
Proof. apply plain_np, k_plain_nlri. now right. Qed.

Lemma ao_inv oc p nl s : area_overruns oc p nl s -> (overruns s \/ straddles nl s) \/
  exists f tc d r a, s = frame f tc d ++ r /\ N.of_nat (length d) <= len_max f /\ attr_reads oc p tc f (length d) d a /\ area_overruns oc p nl r.
Proof. intros [t H|f tc d r a H X Y]; [auto|right]. exists f, tc, d, r, a. auto. Qed.

Lemma upd_attrs_straddle oc p fuel q s nl : s <> [] -> cut_header s ->
  upd_attrs (S fuel) oc p (q ++ s ++ nl) (length q) (length q + length s) = Err EProtocol <-> ~ cut_header (s ++ nl).
Proof.
  intros NE H. destruct s as [|f s]; [contradiction|]. apply head_len in H. cbn [upd_attrs].
  destruct (Nat.ltb_spec (length q) (length q + length (f :: s))) as [_|X]; [|cbn [length] in X; lia].
  rewrite (idx_peel q _ (length q)), Nat.sub_diag by auto. cbn [app]. rewrite idx_0, bind_ok.
  rewrite (idx_peel q _ (length q)) by (auto; lia). replace (length q + 1 - length q)%nat with 1%nat by lia.
  assert (LEN : length (s ++ nl) = (length s + length nl)%nat) by apply app_length.
  destruct (s ++ nl) as [|tc w] eqn:EW.
  - cbn [idx nth_error bind cut_header]. split; [discriminate|]. intros X. destruct (X I).
  - change (idx (f :: tc :: w) 1) with (Ok tc : res N). rewrite bind_ok, ext_bit. cbn [cut_header]. unfold len_octets in *. cbn [length] in H, LEN. destruct (fl_extended f) eqn:EX.
    + replace (length q + 4 - 2)%nat with (length q + 2)%nat by lia. replace (length q + 4)%nat with (length q + 2 + 2)%nat by lia.
      destruct (Nat.lt_ge_cases (length w) 2) as [Lw|Lw].
      * rewrite eslice_short by (rewrite app_length; cbn [length]; lia). cbn [bind]. split; [discriminate|lia].
      * rewrite eslice_ok by (rewrite ?app_length; cbn [length]; lia). rewrite bind_ok.
        destruct (getn_u16_cases (sub (q ++ f :: tc :: w) (length q + 2) (length q + 2 + 2))) as [(v & E & _)|(_ & X)].
        2: { unfold sub in X. rewrite firstn_length, skipn_length, app_length in X. cbn [length] in X. lia. }
        rewrite E, !bind_ok. split; [lia|]. intros _.
        match goal with |- (if Nat.ltb ?a ?b then _ else _) = _ => destruct (Nat.ltb_spec a b) as [|Y]; [reflexivity|] end. cbn [length] in Y. lia.
    + rewrite (idx_peel q _ (length q)) by (auto; lia). replace (length q + 3 - 1 - length q)%nat with 2%nat by lia.
      destruct w as [|l w].
      * cbn [idx nth_error bind length]. split; [discriminate|lia].
      * change (idx (f :: tc :: l :: w) 2) with (Ok l : res N). rewrite !bind_ok. cbn [length]. split; [lia|]. intros _.
        match goal with |- (if Nat.ltb ?a ?b then _ else _) = _ => destruct (Nat.ltb_spec a b) as [|Y]; [reflexivity|] end. cbn [length] in Y. lia.
Qed.
Lemma upd_attrs_overruns oc p fuel q s nl : overruns s -> upd_attrs (S fuel) oc p (q ++ s ++ nl) (length q) (length q + length s) = Err EProtocol.
Proof.
  intros (f & tc & n & r & -> & Hn & L). cbn [upd_attrs]. rewrite <- !app_assoc.
  assert (LS : length ([f; tc] ++ be_bytes (len_octets f) n ++ r) = (2 + len_octets f + length r)%nat) by (rewrite !app_length, length_be_bytes; reflexivity). rewrite LS. cbn [app].
  match goal with |- (if Nat.ltb ?a ?b then _ else _) = _ => destruct (Nat.ltb_spec a b) as [_|X]; [|lia] end.
  rewrite (idx_peel q _ (length q)), Nat.sub_diag, idx_0, bind_ok by auto.
  rewrite (idx_peel q _ (length q)) by (auto; lia). replace (length q + 1 - length q)%nat with 1%nat by lia. change (idx (f :: tc :: ?l) 1) with (Ok tc : res N). rewrite bind_ok, ext_bit.
  unfold len_max, len_octets in *. destruct (fl_extended f).
  - replace (q ++ f :: tc :: be_bytes 2 n ++ r ++ nl) with ((q ++ [f; tc]) ++ be_bytes 2 n ++ r ++ nl) by (rewrite <- !app_assoc; reflexivity).
    rewrite eslice_app by (rewrite ?app_length, ?length_be_bytes; cbn [length]; lia). rewrite bind_ok.
    rewrite <- (app_nil_r (be_bytes 2 n)) at 1. rewrite getn_u16_be, !bind_ok by (clear - Hn; lia).
    match goal with |- (if Nat.ltb ?a ?b then _ else _) = _ => destruct (Nat.ltb_spec a b) as [|X] end; [reflexivity|]. lia.
  - rewrite (idx_peel q _ (length q)) by (auto; lia). replace (length q + 3 - 1 - length q)%nat with 2%nat by lia.
    replace (idx (f :: tc :: be_bytes 1 n ++ r ++ nl) 2) with (Ok n : res N).
    2: { cbn [be_bytes app]. change (8 * N.of_nat 0) with 0. rewrite N.pow_0_r, N.div_1_r, N.mod_small by (clear - Hn; lia). reflexivity. }
    rewrite !bind_ok. match goal with |- (if Nat.ltb ?a ?b then _ else _) = _ => destruct (Nat.ltb_spec a b) as [|X] end; [reflexivity|]. lia.
Qed.
Lemma upd_area_protocol oc p : forall fuel q s nl, bytes_ok s -> (length s < fuel)%nat ->
  upd_attrs fuel oc p (q ++ s ++ nl) (length q) (length q + length s) = Err EProtocol <-> area_overruns oc p nl s.
Proof.
  induction fuel as [|fuel IH]; intros q s nl B L; [lia|]. destruct s as [|f0 s0] eqn:ES.
  - cbn [upd_attrs length]. rewrite Nat.add_0_r, Nat.ltb_irrefl. split; [discriminate|].
    intros H. exfalso. apply ao_inv in H as [[(f & tc & n & r & E & _)|(X & _)]|(f & tc & d & r & a & E & _)]; [discriminate E|contradiction|unfold frame in E; discriminate E].
  - rewrite <- ES in *. assert (NE : s <> []) by (rewrite ES; discriminate). clear ES f0 s0.
    destruct (head_cases s B NE) as [H|[H|H]].
    + rewrite upd_attrs_straddle by assumption. split; [intros X; apply ao_here; right; exact (conj NE (conj H X))|].
      intros X. apply ao_inv in X as [[X|(_ & _ & X)]|(f & tc & d & r & a & E & _)]; [destruct (overrun_not_cut s X H)|exact X|]. rewrite E in H. now apply cut_not_framed in H.
    + destruct H as (f & tc & d & r & -> & F). assert (Bf : f < 256) by (unfold frame in B; apply Forall_cons_iff in B as [B _]; exact B).
      rewrite <- app_assoc. rewrite frame_step by (try (split; [exact Bf|exact F]); rewrite app_length; lia). apply bytes_app in B as [B1 B2].
      assert (Bd : bytes_ok d) by (unfold frame in B1; now apply bytes_app in B1 as [_ [_ ?]%bytes_app]).
      rewrite app_length, len_frame in L.
      assert (HL := IH (q ++ frame f tc d) r nl B2 ltac:(lia)).
      rewrite app_length, <- app_assoc in HL. rewrite (app_length (frame f tc d) r), Nat.add_assoc.
      rewrite bind_Err. split.
      * intros [H|(a & E & H)]; [now apply attr_npe in H|].
        apply attr_exact in E; [|exact Bd]. apply (ao_next _ _ _ f tc d r a); [exact F|exact E|]. apply HL. apply bind_Err in H as [H|([v c] & _ & H)]; [exact H|discriminate].
      * intros H. apply ao_inv in H as [[H|(_ & H & _)]|(f' & tc' & d' & r' & a & E & F' & H & X)].
        -- now apply overrun_not_framed in H.
        -- now apply cut_not_framed in H.
        -- apply frame_inj in E as (<- & <- & <- & <-); [|exact F|exact F']. right. exists a. split; [now apply attr_exact|]. apply bind_Err. left. now apply HL.
    + split; [intros _; apply ao_here; now left|]. intros _. now apply upd_attrs_overruns.
Qed.

Lemma update_protocol oc p m b : bytes_ok b -> update_decode oc p m b = Err EProtocol <-> update_overruns oc p b.
Proof.
  intros B. split.
  - intros H. unfold update_decode in H.
    apply bind_Err in H as [H|(s0 & E0 & H)]; [now apply eslice_npe in H|]. apply eslice_Ok_inv in E0 as (_ & L0 & ->). destruct (take_be 2 b B L0) as (lw & b1 & Eb & Hw & B1).
    replace (sub b 0 2) with (be_bytes 2 lw ++ []) in H by (rewrite Eb, app_nil_r; symmetry; apply (sub_app_exact [] (be_bytes 2 lw) b1); reflexivity).
    rewrite getn_u16_be, bind_ok in H by exact Hw. cbv zeta in H. destruct (Nat.leb_spec (length b) (2 + N.to_nat lw)) as [|L1]; [discriminate|].
    assert (LB := f_equal (@length N) Eb). rewrite app_length, length_be_bytes in LB. destruct (take_raw (N.to_nat lw) b1 B1 ltac:(lia)) as (w & b2 & -> & Lw & Bw & B2).
    rewrite app_length in LB. assert (EL : lw = N.of_nat (length w)) by lia.
    assert (E1 : eslice b 2 (2 + N.to_nat lw) = Ok w) by (rewrite Eb; apply eslice_app; [apply length_be_bytes|lia]).
    rewrite E1, bind_ok in H. exists w.
    apply bind_Err in H as [H|(wd & E2 & H)]; [now apply nlri_npe in H|]. apply (plain_exact _ _ _ _ Bw) in E2.
    apply bind_Err in H as [H|(s1 & E3 & H)]; [now apply eslice_npe in H|]. apply eslice_Ok_inv in E3 as (_ & L3 & E3).
    destruct (take_be 2 b2 B2 ltac:(lia)) as (la & b3 & -> & Ha & B3). rewrite app_length, length_be_bytes in LB.
    assert (E3' : eslice b (2 + N.to_nat lw) (2 + N.to_nat lw + 2) = Ok (be_bytes 2 la)).
    { rewrite Eb, app_assoc. apply eslice_app; rewrite ?app_length, !length_be_bytes; lia. }
    rewrite eslice_ok in E3' by lia. apply Ok_inj in E3'. rewrite E3' in E3. subst s1.
    rewrite <- (app_nil_r (be_bytes 2 la)), getn_u16_be, bind_ok in H by exact Ha.
    exists wd, la, b3. rewrite <- EL. split; [exact Eb|]. split; [exact Hw|]. split; [exact Ha|]. split; [exact E2|].
    destruct (Nat.ltb_spec (length b) (2 + N.to_nat lw + 2 + N.to_nat la)) as [L4|L4]; [left; lia|right].
    destruct (take_raw (N.to_nat la) b3 B3 ltac:(lia)) as (s & nl & -> & Ls & Bs & Bn). rewrite app_length in LB.
    exists s, nl. split; [reflexivity|]. split; [exact Ls|].
    assert (EB : b = (be_bytes 2 lw ++ w ++ be_bytes 2 la) ++ s ++ nl) by (rewrite Eb; now rewrite <- !app_assoc).
    assert (LQ : length (be_bytes 2 lw ++ w ++ be_bytes 2 la) = (2 + N.to_nat lw + 2)%nat) by (rewrite !app_length, !length_be_bytes; lia).
    apply bind_Err in H as [H|([v c] & E5 & H)].
    + rewrite EB, <- LQ, <- Ls in H. apply upd_area_protocol in H; [exact H|exact Bs|rewrite !app_length; lia].
    + exfalso. apply bind_Err in H as [H|(s2 & E6 & H)]; [now apply eslice_npe in H|]. apply bind_Err in H as [H|(u & _ & H)]; [now apply nlri_npe in H|discriminate].
  - intros (w & wd & la & r & -> & Hw & Ha & RW & H). apply bytes_app in B as [_ B]. apply bytes_app in B as [Bw Br]. apply bytes_app in Br as [_ Br].
    unfold update_decode.
    set (b := be_bytes 2 (N.of_nat (length w)) ++ w ++ be_bytes 2 la ++ r).
    assert (LB : length b = (2 + length w + 2 + length r)%nat) by (unfold b; rewrite !app_length, !length_be_bytes; lia).
    assert (E0 : eslice b 0 2 = Ok (be_bytes 2 (N.of_nat (length w)))) by (apply (eslice_app []); reflexivity).
    rewrite E0, bind_ok, <- (app_nil_r (be_bytes 2 _)), getn_u16_be, bind_ok by exact Hw. cbv zeta. rewrite Nat2N.id.
    destruct (Nat.leb_spec (length b) (2 + length w)) as [|_]; [lia|].
    assert (E1 : eslice b 2 (2 + length w) = Ok w) by (apply eslice_app; [apply length_be_bytes|lia]).
    rewrite E1, bind_ok. apply bind_Err. right.
    exists wd. split; [now apply plain_exact|].
    assert (E3 : eslice b (2 + length w) (2 + length w + 2) = Ok (be_bytes 2 la)).
    { unfold b. rewrite app_assoc. apply eslice_app; rewrite ?app_length, !length_be_bytes; lia. }
    rewrite E3, bind_ok, <- (app_nil_r (be_bytes 2 _)), getn_u16_be, bind_ok by exact Ha.
    destruct (Nat.ltb_spec (length b) (2 + length w + 2 + N.to_nat la)) as [|X]; [reflexivity|].
    destruct H as [H|(s & nl & -> & Ls & H)]; [lia|].
    assert (EB : b = (be_bytes 2 (N.of_nat (length w)) ++ w ++ be_bytes 2 la) ++ s ++ nl) by (unfold b; now rewrite <- !app_assoc).
    assert (LQ : length (be_bytes 2 (N.of_nat (length w)) ++ w ++ be_bytes 2 la) = (2 + length w + 2)%nat) by (rewrite !app_length, !length_be_bytes; lia).
    apply bind_Err. left. rewrite app_length in LB. apply bytes_app in Br as [Bs _]. rewrite EB at 2. rewrite <- LQ, <- Ls. apply upd_area_protocol; [exact Bs|lia|exact H].
Qed.

(** ** An error that stays whatever follows *)
Lemma upd_attrs_stuck oc p f tc d e rest nl : N.of_nat (length d) <= len_max f -> attr_decode oc p tc f (length d) d = Err e ->
  forall fuel s1 v q, bytes_ok (s1 ++ frame f tc d ++ rest) -> area_of (attr_reads oc p) s1 v -> (length (s1 ++ frame f tc d ++ rest) < fuel)%nat ->
  upd_attrs fuel oc p (q ++ (s1 ++ frame f tc d ++ rest) ++ nl) (length q) (length q + length (s1 ++ frame f tc d ++ rest)) = Err e.
Proof.
  intros F E. induction fuel as [|fuel IH]; intros s1 v q B A L; [lia|].
  destruct (area_inv _ _ _ A) as [(-> & _)|(f' & tc' & d' & s' & a & v' & -> & F' & HR & HA & ->)].
  - cbn [app] in *. assert (Bf : f < 256) by (unfold frame in B; apply Forall_cons_iff in B as [B _]; exact B).
    rewrite <- app_assoc. rewrite frame_step by (try (split; [exact Bf|exact F]); rewrite app_length; lia). now rewrite E.
  - rewrite <- !app_assoc in *. assert (Bf : f' < 256) by (unfold frame in B; apply Forall_cons_iff in B as [B _]; exact B).
    replace ((frame f' tc' d' ++ s' ++ frame f tc d ++ rest) ++ nl) with (frame f' tc' d' ++ (s' ++ frame f tc d ++ rest) ++ nl) in * by (now rewrite <- !app_assoc).
    rewrite frame_step by (try (split; [exact Bf|exact F']); rewrite app_length; lia). apply bytes_app in B as [B1 B2].
    assert (Bd : bytes_ok d') by (unfold frame in B1; now apply bytes_app in B1 as [_ [_ ?]%bytes_app]).
    apply attr_exact in HR; [|exact Bd]. rewrite HR, bind_ok. rewrite app_length, len_frame in L.
    assert (HL := IH s' v' (q ++ frame f' tc' d') B2 HA ltac:(lia)). rewrite app_length, <- app_assoc in HL. rewrite (app_length (frame f' tc' d') _), Nat.add_assoc. rewrite <- !app_assoc in *. now rewrite HL.
Qed.
Lemma update_stuck oc p m w wd s1 v f tc d rest e nl : plain_nlri oc p w wd -> area_of (attr_reads oc p) s1 v -> N.of_nat (length d) <= len_max f -> attr_decode oc p tc f (length d) d = Err e ->
  bytes_ok w -> bytes_ok (s1 ++ frame f tc d ++ rest) -> N.of_nat (length w) < 2 ^ 16 -> N.of_nat (length (s1 ++ frame f tc d ++ rest)) < 2 ^ 16 ->
  update_decode oc p m (be_bytes 2 (N.of_nat (length w)) ++ w ++ be_bytes 2 (N.of_nat (length (s1 ++ frame f tc d ++ rest))) ++ (s1 ++ frame f tc d ++ rest) ++ nl) = Err e.
Proof.
  intros RW A F E Bw Bs Hw Ha. set (s := s1 ++ frame f tc d ++ rest) in *. unfold update_decode.
  set (b := be_bytes 2 (N.of_nat (length w)) ++ w ++ be_bytes 2 (N.of_nat (length s)) ++ s ++ nl).
  assert (LB : length b = (2 + length w + 2 + (length s + length nl))%nat) by (unfold b; rewrite !app_length, !length_be_bytes; lia).
  assert (E0 : eslice b 0 2 = Ok (be_bytes 2 (N.of_nat (length w)))) by (apply (eslice_app []); reflexivity).
  rewrite E0, bind_ok, <- (app_nil_r (be_bytes 2 _)), getn_u16_be, bind_ok by exact Hw. cbv zeta. rewrite Nat2N.id.
  destruct (Nat.leb_spec (length b) (2 + length w)) as [|_]; [lia|].
  assert (E1 : eslice b 2 (2 + length w) = Ok w) by (apply eslice_app; [apply length_be_bytes|lia]).
  rewrite E1, bind_ok. rewrite (proj2 (plain_exact oc p w wd Bw) RW), bind_ok.
  assert (E3 : eslice b (2 + length w) (2 + length w + 2) = Ok (be_bytes 2 (N.of_nat (length s)))).
  { unfold b. rewrite app_assoc. apply eslice_app; rewrite ?app_length, !length_be_bytes; lia. }
  rewrite E3, bind_ok, <- (app_nil_r (be_bytes 2 _)), getn_u16_be, bind_ok by exact Ha. rewrite Nat2N.id.
  destruct (Nat.ltb_spec (length b) (2 + length w + 2 + length s)) as [|X]; [lia|].
  assert (EB : b = (be_bytes 2 (N.of_nat (length w)) ++ w ++ be_bytes 2 (N.of_nat (length s))) ++ s ++ nl) by (unfold b; now rewrite <- !app_assoc).
  assert (LQ : length (be_bytes 2 (N.of_nat (length w)) ++ w ++ be_bytes 2 (N.of_nat (length s))) = (2 + length w + 2)%nat) by (rewrite !app_length, !length_be_bytes; lia).
  rewrite EB at 2. rewrite <- LQ. unfold s at 2 3. rewrite (upd_attrs_stuck oc p f tc d e rest nl F E _ s1 v); [reflexivity|exact Bs|exact A|]. fold s. lia.
Qed.
Lemma from_buffer_short l : from_buffer l = Err EInsufficient <-> ((length l < 2)%nat \/ exists t n d, l = t :: n :: d /\ (length d < N.to_nat n)%nat).
Proof.
  destruct l as [|t [|n d]]; [split; [left; cbn; lia|reflexivity]|split; [left; cbn; lia|reflexivity]|].
  unfold from_buffer. cbn [length idx nth_error bind]. change (Nat.ltb (S (S (length d))) 2) with false. cbv iota.
  destruct (Nat.ltb_spec (S (S (length d))) (N.to_nat n + 2)) as [L|L].
  - split; [|reflexivity]. intros _. right. exists t, n, d. split; [reflexivity|lia].
  - split.
    + intros H. exfalso. revert H. match goal with |- ?x = _ -> _ => assert (K : kinds message x) end; [|intros H; discriminate (K _ H)].
      repeat first [progress ks|apply k_cap; reflexivity].
    + intros [X|(t' & n' & d' & E & X)]; [lia|]. injection E as <- <- <-. lia.
Qed.
Lemma vec_fold {T} (o : fsoper T) : (forall x, 1 <= op_byteslen o x)%nat -> forall v k, (k + length v <= fold_left (fun a c => a + op_byteslen o c) v k)%nat.
Proof. intros H. induction v as [|x v IH]; intros k; cbn [fold_left length]; [lia|]. specialize (IH (k + op_byteslen o x)%nat). specialize (H x). lia. Qed.
Lemma fs_never {T} (it : fsitem T) r buf : 4093 <= N.of_nat (fs_tests r) -> fs_encode it r buf = Err EInsufficient.
Proof.
  intros H. assert (V : forall v, (length v <= vec_byteslen fsvalop v)%nat).
  { intros v. apply (vec_fold fsvalop) with (k := 0%nat). intros x. cbn. unfold fsval_byteslen. destruct (_ <? _); [lia|]. destruct (_ <? _); lia. }
  assert (M : forall v, (length v <= vec_byteslen fsmaskop v)%nat).
  { intros v. apply (vec_fold fsmaskop) with (k := 0%nat). intros x. cbn. unfold fsmask_byteslen. repeat (destruct (_ <? _); [lia|]). lia. }
  unfold fs_encode. destruct (Nat.ltb_spec 4094 (fs_nlen it r)) as [|L]; [reflexivity|exfalso].
  assert (L2 : N.of_nat (fs_nlen it r) <= 4094) by lia. clear L. destruct r as [| |v|v|v|v|v|v|v|v|v|v|v]; cbn [fs_tests fs_nlen] in *; [clear - H; lia|clear - H; lia|..];
  try (specialize (V v); clear M; clear - H L2 V; lia); specialize (M v); clear - H L2 M; lia.
Qed.
