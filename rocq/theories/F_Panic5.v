(** Proofs of exactly which octets make attributes and UPDATE panic (C103), continued. *)
From Verif Require Import Base BaseFacts M_Util S_Wire F_Util M_Prefix S_Prefix M_Nlri S_Nlri F_Nlri F_Nlri2 M_Session M_Vpls F_Vpls M_Mvpn S_Mvpn F_Mvpn M_Evpn S_Evpn F_Evpn
  M_Flowspec S_Flowspec F_Flowspec M_Cap M_Addrs S_Addrs M_Attr S_Attr S_Attr2 S_Attr3 F_Attr F_Attr2 F_Attr3 F_Lay F_Attr4 M_Update S_Update F_Update S_Exact S_Exact2 F_Exact F_Exact2 F_Exact3 F_Exact4 F_Exact5 F_Exact6
  S_Panic F_Panic F_Panic2 F_Panic3 F_Panic4 S_Attr2.
Ltac Zify.zify_post_hook ::= idtac.

(** ** What stands at the front of an attribute area *)
Definition overrun (s : list N) : Prop := exists f tc n r, s = [f; tc] ++ be_bytes (len_octets f) n ++ r /\ n <= len_max f /\ (length r < N.to_nat n)%nat.
Definition framed (s : list N) : Prop := exists f tc d r, s = frame f tc d ++ r /\ N.of_nat (length d) <= len_max f.
Lemma head_cases s : bytes_ok s -> s <> [] -> cut_header s \/ framed s \/ overrun s.
Proof.
  intros B NE. destruct s as [|f [|tc l]]; [contradiction|left; exact I|]. cbn [cut_header].
  destruct (Nat.lt_ge_cases (length l) (len_octets f)) as [L|L]; [auto|right].
  apply Forall_cons_iff in B as [_ B]. apply Forall_cons_iff in B as [_ B].
  destruct (take_be (len_octets f) l B L) as (n & r & -> & Hn & Br).
  assert (HM : n <= len_max f) by (unfold len_max, len_octets in *; destruct (fl_extended f); clear - Hn; cbn in *; lia).
  destruct (Nat.lt_ge_cases (length r) (N.to_nat n)) as [Lr|Lr].
  - right. now exists f, tc, n, r.
  - left. destruct (take_raw (N.to_nat n) r Br Lr) as (d & r' & -> & Ld & _). exists f, tc, d, r'. unfold frame. rewrite Ld, N2Nat.id, <- !app_assoc. auto.
Qed.
Lemma cut_not_framed f tc d r : ~ cut_header (frame f tc d ++ r).
Proof. unfold frame. rewrite <- !app_assoc. cbn [app cut_header]. rewrite !app_length, length_be_bytes. lia. Qed.
Lemma overrun_not_framed f tc d r : N.of_nat (length d) <= len_max f -> ~ overrun (frame f tc d ++ r).
Proof.
  intros F (f' & tc' & n & r' & E & Hn & L). unfold frame in E. rewrite <- !app_assoc in E. cbn [app] in E.
  assert (E1 := f_equal (@hd N 0) E). cbn [hd] in E1. subst f'. apply (f_equal (fun l => tl (tl l))) in E. cbn [tl] in E.
  apply app_same_len in E as [E E']; [|now rewrite !length_be_bytes]. subst r'.
  assert (n = N.of_nat (length d)). { apply (f_equal be_val) in E. unfold len_max, len_octets in *. destruct (fl_extended f); rewrite !be_val_be_bytes in E by (clear - F Hn; cbn; lia); auto. }
  subst n. rewrite app_length in L. lia.
Qed.
Lemma overrun_not_cut s : overrun s -> ~ cut_header s.
Proof. intros (f & tc & n & r & -> & _). cbn [app cut_header]. rewrite app_length, length_be_bytes. lia. Qed.
Lemma area_crash_inv R C cut s : area_crash R C cut s -> cut s \/ exists f tc d r, s = frame f tc d ++ r /\ N.of_nat (length d) <= len_max f /\
  (C tc (length d) d \/ exists a, R tc f (length d) d a /\ area_crash R C cut r).
Proof.
  intros [t H|f tc d r H X|f tc d r a H X Y]; [auto|right..].
  - exists f, tc, d, r. auto.
  - exists f, tc, d, r. split; [reflexivity|]. split; [exact H|]. right. now exists a.
Qed.

(** the loop over the attributes of a set *)
Lemma set_loop_cut dec fuel q s : bytes_ok s -> cut_header s -> attrset_loop dec (S fuel) (q ++ s) (length q) = Panic.
Proof.
  intros B H. destruct s as [|f s]; [contradiction|]. cbn [attrset_loop].
  destruct (Nat.ltb_spec (length q) (length (q ++ f :: s))) as [_|X]; [|rewrite app_length in X; cbn [length] in X; lia].
  rewrite (idx_peel q _ (length q)), Nat.sub_diag, idx_0, bind_ok by auto.
  destruct s as [|tc l].
  - replace (idx (q ++ [f]) (length q + 1)) with (@Panic N) by (symmetry; apply idx_Panic; rewrite app_length; cbn; lia). reflexivity.
  - rewrite (idx_peel q _ (length q)) by (auto; lia). replace (length q + 1 - length q)%nat with 1%nat by lia. change (idx (f :: tc :: l) 1) with (Ok tc : res N). rewrite bind_ok, ext_bit.
    cbn [cut_header] in H. unfold len_octets in H. apply bind_Panic. left. destruct (fl_extended f).
    + apply bind_Panic. left. apply rslice_Panic. right. rewrite app_length. cbn [length]. lia.
    + apply bind_Panic. left. apply idx_Panic. rewrite app_length. cbn [length]. lia.
Qed.
Lemma set_loop_overrun dec fuel q s : overrun s -> attrset_loop dec (S fuel) (q ++ s) (length q) <> Panic.
Proof.
  intros (f & tc & n & r & -> & Hn & L). cbn [attrset_loop app].
  destruct (Nat.ltb_spec (length q) (length (q ++ f :: tc :: be_bytes (len_octets f) n ++ r))) as [_|X]; [|rewrite app_length in X; cbn [length] in X; lia].
  rewrite (idx_peel q _ (length q)), Nat.sub_diag, idx_0, bind_ok by auto.
  rewrite (idx_peel q _ (length q)) by (auto; lia). replace (length q + 1 - length q)%nat with 1%nat by lia. change (idx (f :: tc :: ?l) 1) with (Ok tc : res N). rewrite bind_ok, ext_bit.
  unfold len_max, len_octets in *. destruct (fl_extended f).
  - rewrite (rslice_peel q _ (length q)) by (auto; lia). replace (length q + 4 - 2 - length q)%nat with 2%nat by lia. replace (length q + 4 - length q)%nat with 4%nat by lia.
    rewrite (rslice_peel [f; tc] (be_bytes 2 n ++ r) 2) by (auto; lia). rewrite rslice_front, bind_ok by apply length_be_bytes.
    rewrite <- (app_nil_r (be_bytes 2 n)) at 1. rewrite getn_u16_be, !bind_ok by (clear - Hn; lia).
    match goal with |- (if Nat.ltb ?a ?b then _ else _) <> _ => destruct (Nat.ltb_spec a b) as [|X] end; [discriminate|].
    rewrite app_length in X. cbn [length] in X. rewrite app_length, length_be_bytes in X. lia.
  - rewrite (idx_peel q _ (length q)) by (auto; lia). replace (length q + 3 - 1 - length q)%nat with 2%nat by lia.
    replace (idx (f :: tc :: be_bytes 1 n ++ r) 2) with (Ok n : res N).
    2: { cbn [be_bytes app]. change (8 * N.of_nat 0) with 0. rewrite N.pow_0_r, N.div_1_r, N.mod_small by (clear - Hn; lia). reflexivity. }
    rewrite !bind_ok. match goal with |- (if Nat.ltb ?a ?b then _ else _) <> _ => destruct (Nat.ltb_spec a b) as [|X] end; [discriminate|].
    rewrite app_length in X. cbn [length] in X. rewrite app_length, length_be_bytes in X. lia.
Qed.
Section Set_crash.
Variables (dec : N -> N -> nat -> list N -> res attr) (R : N -> N -> nat -> list N -> attr -> Prop) (C : N -> nat -> list N -> Prop).
Lemma set_loop_panic : forall fuel q s, bytes_ok s -> (length s < fuel)%nat ->
  (forall tc f n d a, bytes_ok d -> (length d < length s)%nat -> dec tc f n d = Ok a <-> R tc f n d a) ->
  (forall tc f n d, bytes_ok d -> (length d < length s)%nat -> dec tc f n d = Panic <-> C tc n d) ->
  attrset_loop dec fuel (q ++ s) (length q) = Panic <-> area_crash R C cut_header s.
Proof.
  induction fuel as [|fuel IH]; intros q s B L HD HP; [lia|]. destruct s as [|f0 s0] eqn:ES.
  - rewrite app_nil_r, attrset_loop_end by lia. split; [discriminate|]. intros H. apply area_crash_inv in H as [[]|(f & tc & d & r & E & _)]. unfold frame in E. discriminate E.
  - rewrite <- ES in *. assert (NE : s <> []) by (rewrite ES; discriminate). clear ES f0 s0.
    destruct (head_cases s B NE) as [H|[H|H]].
    + rewrite set_loop_cut by assumption. split; [|auto]. intros _. now apply ac_cut.
    + destruct H as (f & tc & d & r & -> & F). rewrite attrset_loop_frame by exact F. apply bytes_app in B as [B1 B2].
      assert (Bd : bytes_ok d) by (unfold frame in B1; now apply bytes_app in B1 as [_ [_ ?]%bytes_app]).
      rewrite app_length, len_frame in L, HD, HP.
      specialize (IH (q ++ frame f tc d) r B2 ltac:(lia)). rewrite <- app_assoc, app_length in IH.
      assert (IH' := IH ltac:(intros; apply HD; [assumption|lia]) ltac:(intros; apply HP; [assumption|lia])). clear IH.
      rewrite bind_Panic. split.
      * intros [H|(a & E & H)].
        -- apply ac_here; [exact F|]. apply HP in H; [exact H|exact Bd|lia].
        -- apply HD in E; [|exact Bd|lia]. apply (ac_next _ _ _ f tc d r a); [exact F|exact E|]. apply IH'. apply bind_Panic_pure in H. exact H.
      * intros H. apply area_crash_inv in H as [H|(f' & tc' & d' & r' & E & F' & H)]; [now destruct (cut_not_framed f tc d r)|].
        apply frame_inj in E as (<- & <- & <- & <-); [|exact F|exact F']. destruct H as [H|(a & E & H)].
        -- left. apply HP; [exact Bd|lia|exact H].
        -- right. exists a. split; [apply HD; [exact Bd|lia|exact E]|]. apply bind_Panic_pure. now apply IH'.
    + split; [intros X; now apply set_loop_overrun in X|]. intros X. exfalso. apply area_crash_inv in X as [X|(f & tc & d & r & E & F & _)].
      * now apply overrun_not_cut in H.
      * rewrite E in H. now apply overrun_not_framed in H.
Qed.
End Set_crash.

(** ** Every attribute *)
Lemma len_unused oc p tc f n m b : In tc typed_codes -> attr_decode oc p tc f n b = attr_decode oc p tc f m b.
Proof.
  intros H. unfold typed_codes, plain_codes in H. cbn [app In] in H. unfold attr_decode. cbn [attr_decode_n].
  repeat match goal with |- (if tc =? ?k then _ else _) = _ => destruct (N.eqb_spec tc k) as [E|]; [reflexivity|] end.
  exfalso. intuition congruence.
Qed.
Lemma attr_panic_l oc p : forall m tc f n b, bytes_ok b -> (length b <= m)%nat -> attr_decode oc p tc f n b = Panic <-> attr_crash oc p tc n b.
Proof.
  induction m as [m IH] using lt_wf_ind. intros tc f n b B Lm.
  destruct (panics_exact_l oc p tc f n b B) as (P8 & P9 & P22 & P32).
  assert (NT : forall t, In t typed_codes -> ~ In t typed_codes -> False) by (intros; contradiction).
  destruct (N.eq_dec tc 8) as [->|T8]; [|destruct (N.eq_dec tc 9) as [->|T9]; [|destruct (N.eq_dec tc 22) as [->|T22]; [|destruct (N.eq_dec tc 32) as [->|T32]]]].
  1-4: try rewrite (P8 eq_refl); try rewrite (P9 eq_refl); try rewrite (P22 eq_refl); try rewrite (P32 eq_refl); split; [now constructor|];
    intros H; inversion H as [| | | | | | |? ? ? X]; subst; try assumption; exfalso; apply X; cbn; tauto.
  destruct (N.eq_dec tc 14) as [->|T14]; [|destruct (N.eq_dec tc 15) as [->|T15]; [|destruct (N.eq_dec tc 128) as [->|T128]]].
  - change (attr_decode oc p 14 f n b) with ('(nh, a) <- mpupdates_decode oc p b ;; Ok (AMPUpdates nh a)). split.
    + intros H. apply bind_Panic in H as [H|([nh a] & _ & H)]; [|discriminate]. constructor. now apply reach_panic.
    + intros H. inversion H as [| |? ? H'| | | | |? ? ? X]; subst; [|exfalso; apply X; cbn; tauto]. apply bind_Panic. left. now apply reach_panic.
  - change (attr_decode oc p 15 f n b) with (a <- mpwithdraws_decode oc p b ;; Ok (AMPWithdraws a)). rewrite bind_Panic_pure, unreach_panic by exact B. split; [now constructor|].
    intros H. inversion H as [| | |? ? H'| | | |? ? ? X]; subst; [exact H'|exfalso; apply X; cbn; tauto].
  - rewrite attr_decode_set. unfold attrset_decode.
    assert (LOOP : forall asn s, b = be_bytes 4 asn ++ s -> attrset_loop (attr_decode oc p) (S (length b)) b 4 = Panic <-> area_crash (attr_reads oc p) (attr_crash oc p) cut_header s).
    { intros asn s ->. apply bytes_app in B as [_ B]. rewrite app_length, length_be_bytes in Lm |- *.
      apply (set_loop_panic (attr_decode oc p) (attr_reads oc p) (attr_crash oc p) _ (be_bytes 4 asn)); [exact B|lia| |].
      - intros tc f' n' d a' Bd Ld. now apply attr_exact.
      - intros tc f' n' d Bd Ld. apply (IH (length d)); auto; lia. }
    split.
    + intros H. destruct (sp_as32 p) eqn:A32; [|discriminate]. cbn [negb] in H. destruct (Nat.ltb_spec (length b) 4) as [|L]; [discriminate|].
      destruct (take_be 4 b B L) as (asn & s & Eb & Hx & _).
      apply bind_Panic in H as [H|(v & _ & H)].
      * apply (LOOP _ _ Eb) in H. rewrite Eb. now constructor.
      * rewrite Eb, getn_u32_be in H by exact Hx. discriminate.
    + intros H. inversion H as [| | | | | |? asn s A32 HA HS|? ? ? X]; subst; [|exfalso; apply X; cbn; tauto].
      rewrite A32. cbn [negb]. destruct (Nat.ltb_spec (length (be_bytes 4 asn ++ s)) 4) as [L|L]; [rewrite app_length, length_be_bytes in L; lia|].
      apply bind_Panic. left. now apply (LOOP asn s eq_refl).
  - destruct (in_dec N.eq_dec tc typed_codes) as [I|I].
    + rewrite (len_unused oc p tc f n (length b) b I). split.
      * intros H. exfalso. revert H. apply attr_decode_np. unfold panicky. cbn [In]. intuition congruence.
      * intros H. exfalso. inversion H; subst; contradiction.
    + rewrite untyped_codes by exact I. unfold unknown_decode. rewrite bind_Panic_pure, rslice_Panic. split.
      * intros [X|X]; [lia|]. now apply acr_unknown.
      * intros H. inversion H; subst; try congruence. now right.
Qed.
Lemma attr_panic oc p tc f n b : bytes_ok b -> attr_decode oc p tc f n b = Panic <-> attr_crash oc p tc n b.
Proof. intros B. now apply (attr_panic_l oc p (length b)). Qed.

(** ** UPDATE *)
Lemma eslice_np {A} (l : list A) a b : eslice l a b <> Panic.
Proof. unfold eslice. destruct (_ && _)%bool; discriminate. Qed.
Lemma eslice_u16_np l a : (s <- eslice l a (a + 2) ;; n <- getn_u16 s ;; Ok (N.to_nat n, (a + 2)%nat)) <> Panic.
Proof.
  intros H. apply bind_Panic in H as [H|(s & E & H)]; [now apply eslice_np in H|]. apply eslice_Ok_inv in E as (_ & L & ->). apply bind_Panic_pure in H.
  destruct (getn_u16_cases (sub l a (a + 2))) as [(v & E & _)|(_ & X)]; [congruence|]. unfold sub in X. rewrite firstn_length, skipn_length in X. lia.
Qed.
Lemma head_len f s : cut_header (f :: s) -> (length (f :: s) < 2 + len_octets f)%nat.
Proof. unfold len_octets. destruct s as [|tc l]; cbn [cut_header length]; [destruct (fl_extended f); lia|]. unfold len_octets. lia. Qed.
(** the header of an attribute does not fit in the area that is left, but may be read from what follows *)
Lemma upd_attrs_cut oc p fuel q s nl : s <> [] -> cut_header s ->
  upd_attrs (S fuel) oc p (q ++ s ++ nl) (length q) (length q + length s) = Panic <-> message_cut nl s.
Proof.
  intros NE H. destruct s as [|f s]; [contradiction|]. apply head_len in H. unfold message_cut. cbn [upd_attrs].
  destruct (Nat.ltb_spec (length q) (length q + length (f :: s))) as [_|X]; [|cbn [length] in X; lia].
  rewrite (idx_peel q _ (length q)), Nat.sub_diag by auto. cbn [app]. rewrite idx_0, bind_ok.
  rewrite (idx_peel q _ (length q)) by (auto; lia). replace (length q + 1 - length q)%nat with 1%nat by lia.
  assert (LEN : length (s ++ nl) = (length s + length nl)%nat) by apply app_length.
  destruct (s ++ nl) as [|tc w] eqn:EW.
  - split; [|reflexivity]. intros _. split; [discriminate|]. left. exists f. reflexivity.
  - change (idx (f :: tc :: w) 1) with (Ok tc : res N). rewrite bind_ok, ext_bit. unfold len_octets in H. cbn [length] in H, LEN. destruct (fl_extended f) eqn:EX.
    + replace (length q + 4 - 2)%nat with (length q + 2)%nat by lia. replace (length q + 4)%nat with (length q + 2 + 2)%nat by lia. split.
      * intros K. exfalso. apply bind_Panic in K as [K|([n h] & E & K)]; [now apply eslice_u16_np in K|].
        apply bind_Ok_inv in E as (x & _ & E). apply bind_Ok_inv in E as (y & _ & E). apply Ok_inj in E. assert (E2 := f_equal snd E). cbn [snd] in E2. subst h.
        match type of K with (if Nat.ltb ?a ?b then _ else _) = _ => destruct (Nat.ltb_spec a b) as [|Y]; [discriminate|] end. cbn [length] in Y. lia.
      * intros (_ & [(x & E)|(x & y & E & K)]); [discriminate|]. injection E as <- _ _. congruence.
    + rewrite (idx_peel q _ (length q)) by (auto; lia). replace (length q + 3 - 1 - length q)%nat with 2%nat by lia.
      destruct w as [|l w].
      * split; [|reflexivity]. intros _. split; [discriminate|]. right. exists f, tc. auto.
      * change (idx (f :: tc :: l :: w) 2) with (Ok l : res N). rewrite !bind_ok. split.
        -- match goal with |- (if Nat.ltb ?a ?b then _ else _) = _ -> _ => destruct (Nat.ltb_spec a b) as [|Y]; [discriminate|] end. cbn [length] in Y. lia.
        -- intros (_ & [(x & E)|(x & y & E & _)]); discriminate.
Qed.
Lemma upd_attrs_overrun oc p fuel q s nl : overrun s -> upd_attrs (S fuel) oc p (q ++ s ++ nl) (length q) (length q + length s) <> Panic.
Proof.
  intros (f & tc & n & r & -> & Hn & L). cbn [upd_attrs]. rewrite <- !app_assoc.
  assert (LS : length ([f; tc] ++ be_bytes (len_octets f) n ++ r) = (2 + len_octets f + length r)%nat) by (rewrite !app_length, length_be_bytes; reflexivity). rewrite LS. cbn [app].
  match goal with |- (if Nat.ltb ?a ?b then _ else _) <> _ => destruct (Nat.ltb_spec a b) as [_|X]; [|discriminate] end.
  rewrite (idx_peel q _ (length q)), Nat.sub_diag, idx_0, bind_ok by auto.
  rewrite (idx_peel q _ (length q)) by (auto; lia). replace (length q + 1 - length q)%nat with 1%nat by lia. change (idx (f :: tc :: ?l) 1) with (Ok tc : res N). rewrite bind_ok, ext_bit.
  unfold len_max, len_octets in *. destruct (fl_extended f).
  - replace (q ++ f :: tc :: be_bytes 2 n ++ r ++ nl) with ((q ++ [f; tc]) ++ be_bytes 2 n ++ r ++ nl) by (rewrite <- !app_assoc; reflexivity).
    rewrite eslice_app by (rewrite ?app_length, ?length_be_bytes; cbn [length]; lia). rewrite bind_ok.
    rewrite <- (app_nil_r (be_bytes 2 n)) at 1. rewrite getn_u16_be, !bind_ok by (clear - Hn; lia).
    match goal with |- (if Nat.ltb ?a ?b then _ else _) <> _ => destruct (Nat.ltb_spec a b) as [|X] end; [discriminate|]. lia.
  - rewrite (idx_peel q _ (length q)) by (auto; lia). replace (length q + 3 - 1 - length q)%nat with 2%nat by lia.
    replace (idx (f :: tc :: be_bytes 1 n ++ r ++ nl) 2) with (Ok n : res N).
    2: { cbn [be_bytes app]. change (8 * N.of_nat 0) with 0. rewrite N.pow_0_r, N.div_1_r, N.mod_small by (clear - Hn; lia). reflexivity. }
    rewrite !bind_ok. match goal with |- (if Nat.ltb ?a ?b then _ else _) <> _ => destruct (Nat.ltb_spec a b) as [|X] end; [discriminate|]. lia.
Qed.
Lemma message_cut_len nl s : message_cut nl s -> (length s <= 2)%nat.
Proof. intros (_ & [(f & E)|(f & tc & E & _)]); apply (f_equal (@length N)) in E; rewrite app_length in E; cbn in E; lia. Qed.
Lemma upd_area_panic oc p : forall fuel q s nl, bytes_ok s -> (length s < fuel)%nat ->
  upd_attrs fuel oc p (q ++ s ++ nl) (length q) (length q + length s) = Panic <-> area_crash (attr_reads oc p) (attr_crash oc p) (message_cut nl) s.
Proof.
  induction fuel as [|fuel IH]; intros q s nl B L; [lia|]. destruct s as [|f0 s0] eqn:ES.
  - cbn [upd_attrs length]. rewrite Nat.add_0_r, Nat.ltb_irrefl. split; [discriminate|].
    intros H. apply area_crash_inv in H as [(X & _)|(f & tc & d & r & E & _)]; [contradiction|]. unfold frame in E. discriminate E.
  - rewrite <- ES in *. assert (NE : s <> []) by (rewrite ES; discriminate). clear ES f0 s0.
    destruct (head_cases s B NE) as [H|[H|H]].
    + rewrite upd_attrs_cut by assumption. split; [now apply ac_cut|].
      intros X. apply area_crash_inv in X as [X|(f & tc & d & r & E & _)]; [exact X|]. rewrite E in H. now apply cut_not_framed in H.
    + destruct H as (f & tc & d & r & -> & F). assert (Bf : f < 256) by (unfold frame in B; apply Forall_cons_iff in B as [B _]; exact B).
      rewrite <- app_assoc. rewrite frame_step by (try (split; [exact Bf|exact F]); rewrite app_length; lia). apply bytes_app in B as [B1 B2].
      assert (Bd : bytes_ok d) by (unfold frame in B1; now apply bytes_app in B1 as [_ [_ ?]%bytes_app]).
      rewrite app_length, len_frame in L.
      assert (HL := IH (q ++ frame f tc d) r nl B2 ltac:(lia)).
      rewrite app_length, <- app_assoc in HL. rewrite (app_length (frame f tc d) r), Nat.add_assoc.
      rewrite bind_Panic. split.
      * intros [H|(a & E & H)].
        -- apply ac_here; [exact F|]. now apply attr_panic in H.
        -- apply attr_exact in E; [|exact Bd]. apply (ac_next _ _ _ f tc d r a); [exact F|exact E|]. apply HL. apply bind_Panic in H as [H|([v c] & _ & H)]; [exact H|discriminate].
      * intros H. apply area_crash_inv in H as [H|(f' & tc' & d' & r' & E & F' & H)].
        -- apply message_cut_len in H. rewrite app_length, len_frame in H. unfold len_octets in H. destruct (fl_extended f); lia.
        -- apply frame_inj in E as (<- & <- & <- & <-); [|exact F|exact F']. destruct H as [H|(a & E & H)].
           ++ left. now apply attr_panic.
           ++ right. exists a. split; [now apply attr_exact|]. apply bind_Panic. left. now apply HL.
    + split; [intros X; now apply upd_attrs_overrun in X|]. intros X. exfalso. apply area_crash_inv in X as [X|(f & tc & d & r & E & F & _)].
      * destruct H as (f & tc & n & r & -> & _). apply message_cut_len in X. rewrite !app_length, length_be_bytes in X. unfold len_octets in X. cbn [length] in X. destruct (fl_extended f); lia.
      * rewrite E in H. now apply overrun_not_framed in H.
Qed.
Lemma plain_panic oc p b : bytes_ok b -> upd_nlri_decode oc p b = Panic <-> plain_crash oc p b.
Proof.
  intros B. unfold upd_nlri_decode, plain_crash. destruct (sp_mode p).
  - rewrite <- (nlri_panic_l oc p 1 1 b B). change (addrs_decode oc p 1 1 b) with (dec_fam oc v4_from_bits IPV4U IPV4UP p 1 1 b). rewrite bind_Panic.
    split; [intros [H|([a n] & _ & H)]; [exact H|discriminate]|auto].
  - rewrite <- (nlri_panic_l oc p 2 1 b B). change (addrs_decode oc p 2 1 b) with (dec_fam oc v6_from_bits IPV6U IPV6UP p 2 1 b). rewrite bind_Panic.
    split; [intros [H|([a n] & _ & H)]; [exact H|discriminate]|auto].
Qed.
Lemma update_panic oc p m b : bytes_ok b -> update_decode oc p m b = Panic <-> update_crash oc p b.
Proof.
  intros B. split.
  - intros H. unfold update_decode in H.
    apply bind_Panic in H as [H|(s0 & E0 & H)]; [now apply eslice_np in H|]. apply eslice_Ok_inv in E0 as (_ & L0 & ->). destruct (take_be 2 b B L0) as (lw & b1 & Eb & Hw & B1).
    replace (sub b 0 2) with (be_bytes 2 lw ++ []) in H by (rewrite Eb, app_nil_r; symmetry; apply (sub_app_exact [] (be_bytes 2 lw) b1); reflexivity).
    rewrite getn_u16_be, bind_ok in H by exact Hw. cbv zeta in H. destruct (Nat.leb_spec (length b) (2 + N.to_nat lw)) as [|L1]; [discriminate|].
    assert (LB := f_equal (@length N) Eb). rewrite app_length, length_be_bytes in LB. destruct (take_raw (N.to_nat lw) b1 B1 ltac:(lia)) as (w & b2 & -> & Lw & Bw & B2).
    rewrite app_length in LB. assert (EL : lw = N.of_nat (length w)) by lia.
    assert (E1 : eslice b 2 (2 + N.to_nat lw) = Ok w) by (rewrite Eb; apply eslice_app; [apply length_be_bytes|lia]).
    rewrite E1, bind_ok in H. exists w, b2. rewrite <- EL. split; [exact Eb|]. split; [exact Hw|]. split; [destruct b2; [cbn in LB; lia|discriminate]|].
    apply bind_Panic in H as [H|(wd & E2 & H)]; [left; now apply plain_panic in H|right]. apply (plain_exact _ _ _ _ Bw) in E2.
    apply bind_Panic in H as [H|(s1 & E3 & H)]; [now apply eslice_np in H|]. apply eslice_Ok_inv in E3 as (_ & L3 & E3).
    destruct (take_be 2 b2 B2 ltac:(lia)) as (la & b3 & -> & Ha & B3). rewrite app_length, length_be_bytes in LB.
    assert (E3' : eslice b (2 + N.to_nat lw) (2 + N.to_nat lw + 2) = Ok (be_bytes 2 la)).
    { rewrite Eb, app_assoc. apply eslice_app; rewrite ?app_length, !length_be_bytes; lia. }
    rewrite eslice_ok in E3' by lia. apply Ok_inj in E3'. rewrite E3' in E3. subst s1.
    rewrite <- (app_nil_r (be_bytes 2 la)), getn_u16_be, bind_ok in H by exact Ha.
    destruct (Nat.ltb_spec (length b) (2 + N.to_nat lw + 2 + N.to_nat la)) as [|L4]; [discriminate|].
    destruct (take_raw (N.to_nat la) b3 B3 ltac:(lia)) as (s & nl & -> & Ls & Bs & Bn). rewrite app_length in LB.
    exists wd, s, nl. replace (N.of_nat (length s)) with la by lia. split; [exact E2|]. split; [reflexivity|]. split; [exact Ha|].
    assert (EB : b = (be_bytes 2 lw ++ w ++ be_bytes 2 la) ++ s ++ nl) by (rewrite Eb; now rewrite <- !app_assoc).
    assert (LQ : length (be_bytes 2 lw ++ w ++ be_bytes 2 la) = (2 + N.to_nat lw + 2)%nat) by (rewrite !app_length, !length_be_bytes; lia).
    apply bind_Panic in H as [H|([v c] & E5 & H)].
    + left. rewrite EB, <- LQ, <- Ls in H. apply upd_area_panic in H; [exact H|exact Bs|rewrite !app_length; lia].
    + right. rewrite EB, <- LQ, <- Ls in E5. apply upd_area_exact in E5 as [E5 ->]; [|exact Bs|rewrite !app_length; lia]. exists v. split; [exact E5|].
      apply bind_Panic in H as [H|(s2 & E6 & H)]; [now apply eslice_np in H|].
      assert (E6' : eslice b (length (be_bytes 2 lw ++ w ++ be_bytes 2 la) + length s) (length b) = Ok nl).
      { rewrite EB at 1. rewrite app_assoc. rewrite <- (app_nil_r nl) at 1. apply eslice_app; rewrite !app_length in *; lia. }
      rewrite E6' in E6. apply Ok_inj in E6. subst s2. apply bind_Panic_pure in H. now apply plain_panic in H.
  - intros (w & r & -> & Hw & NE & H). apply bytes_app in B as [_ B]. apply bytes_app in B as [Bw Br].
    unfold update_decode.
    set (b := be_bytes 2 (N.of_nat (length w)) ++ w ++ r).
    assert (LB : length b = (2 + length w + length r)%nat) by (unfold b; rewrite !app_length, !length_be_bytes; lia).
    assert (E0 : eslice b 0 2 = Ok (be_bytes 2 (N.of_nat (length w)))) by (apply (eslice_app []); reflexivity).
    rewrite E0, bind_ok, <- (app_nil_r (be_bytes 2 _)), getn_u16_be, bind_ok by exact Hw. cbv zeta. rewrite Nat2N.id.
    assert (LR : (0 < length r)%nat) by (destruct r; [contradiction|cbn; lia]).
    destruct (Nat.leb_spec (length b) (2 + length w)) as [|_]; [lia|].
    assert (E1 : eslice b 2 (2 + length w) = Ok w) by (apply eslice_app; [apply length_be_bytes|lia]).
    rewrite E1, bind_ok. apply bind_Panic. destruct H as [H|(wd & s & nl & RW & Er & Ha & H)]; [left; now apply plain_panic|right].
    exists wd. split; [now apply plain_exact|]. rewrite Er in Br. apply bytes_app in Br as [_ Br]. apply bytes_app in Br as [Bs Bn].
    assert (Eb : b = be_bytes 2 (N.of_nat (length w)) ++ w ++ be_bytes 2 (N.of_nat (length s)) ++ s ++ nl) by (unfold b; now rewrite Er). clearbody b.
    rewrite Er, !app_length, length_be_bytes in LB.
    assert (E3 : eslice b (2 + length w) (2 + length w + 2) = Ok (be_bytes 2 (N.of_nat (length s)))).
    { rewrite Eb, app_assoc. apply eslice_app; rewrite ?app_length, !length_be_bytes; lia. }
    rewrite E3, bind_ok, <- (app_nil_r (be_bytes 2 _)), getn_u16_be, bind_ok by exact Ha. rewrite Nat2N.id.
    destruct (Nat.ltb_spec (length b) (2 + length w + 2 + length s)) as [|_]; [lia|].
    assert (EB : b = (be_bytes 2 (N.of_nat (length w)) ++ w ++ be_bytes 2 (N.of_nat (length s))) ++ s ++ nl) by (rewrite Eb; now rewrite <- !app_assoc).
    assert (LQ : length (be_bytes 2 (N.of_nat (length w)) ++ w ++ be_bytes 2 (N.of_nat (length s))) = (2 + length w + 2)%nat) by (rewrite !app_length, !length_be_bytes; lia).
    apply bind_Panic. destruct H as [H|(v & RA & H)].
    + left. rewrite EB at 2. rewrite <- LQ. apply upd_area_panic; [exact Bs|lia|exact H].
    + right. exists (v, (2 + length w + 2 + length s)%nat). split.
      { rewrite EB at 2. rewrite <- LQ. apply upd_area_exact; [exact Bs|lia|auto]. }
      assert (E6 : eslice b (2 + length w + 2 + length s) (length b) = Ok nl).
      { rewrite EB at 1. rewrite app_assoc. rewrite <- (app_nil_r nl) at 1. apply eslice_app; rewrite !app_length in *; rewrite ?length_be_bytes in *; lia. }
      rewrite E6, bind_ok. apply bind_Panic_pure. now apply plain_panic.
Qed.
