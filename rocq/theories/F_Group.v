(** Proofs about the grouping of capabilities in OPEN. *)
From Verif Require Import Base BaseFacts M_Util S_Wire F_Util M_Cap M_Open F_Open S_Group.
Ltac Zify.zify_post_hook ::= idtac.

Lemma tlv_read c d rest : (length d < 256)%nat ->
  from_buffer (tlv_wire (c, d) ++ rest) =
  (o <- from_type_and_data c d ;; Ok (match o with Some x => inl x | None => inr (c, d) end, (2 + length d)%nat)).
Proof.
  intros H. unfold from_buffer, tlv_wire. cbn [fst snd app].
  set (buf := c :: N.of_nat (length d) :: d ++ rest). assert (L : length buf = (2 + length d + length rest)%nat) by (unfold buf; cbn [length]; rewrite app_length; lia).
  destruct (Nat.ltb_spec (length buf) 2) as [X|_]; [lia|].
  change (idx buf 0) with (Ok c). change (idx buf 1) with (Ok (N.of_nat (length d))). rewrite !bind_ok, Nat2N.id.
  destruct (Nat.ltb_spec (length buf) (length d + 2)) as [X|_]; [lia|].
  rewrite rslice_ok by lia. rewrite bind_ok.
  replace (sub buf 2 (2 + length d)) with d
    by (unfold sub, buf; cbn [skipn]; rewrite firstn_app_exact by lia; reflexivity).
  destruct (from_type_and_data c d) as [[x|]| | |]; reflexivity.
Qed.
Lemma caps_group g : (length (tlvs_wire g) < 256)%nat -> forall fuel pre post, (length g <= fuel)%nat ->
  open_caps_loop fuel (pre ++ tlvs_wire g ++ post) (length pre) (length (tlvs_wire g)) =
  (v <- known g ;; Ok (v, (length pre + length (tlvs_wire g))%nat)).
Proof.
  induction g as [|[c d] g IH]; intros Hg fuel pre post Hf.
  - cbn [tlvs_wire flat_map length known]. rewrite Nat.add_0_r. destruct fuel; reflexivity.
  - unfold tlvs_wire in *. cbn [flat_map] in *. fold (tlvs_wire g) in *. rewrite app_length in *.
    assert (LT : length (tlv_wire (c, d)) = (2 + length d)%nat) by reflexivity.
    destruct fuel as [|fuel]; [cbn [length] in Hf; lia|]. rewrite LT in *.
    cbn [open_caps_loop]. change (2 + length d + length (tlvs_wire g))%nat with (S (1 + length d + length (tlvs_wire g))).
    set (ol := S (1 + length d + length (tlvs_wire g))). cbv iota.
    assert (ES : eslice (pre ++ (tlv_wire (c, d) ++ tlvs_wire g) ++ post) (length pre) (length pre + ol) = Ok (tlv_wire (c, d) ++ tlvs_wire g)).
    { unfold eslice. rewrite !app_length, LT.
      match goal with |- context[if ?x then _ else _] => replace x with true by (symmetry; apply andb_true_intro; split; apply Nat.leb_le; unfold ol; lia) end.
      f_equal. apply sub_app_exact; [reflexivity|]. rewrite app_length, LT. unfold ol. lia. }
    rewrite ES, bind_ok, tlv_read by lia. cbn [known].
    destruct (from_type_and_data c d) as [o| | |]; try reflexivity. rewrite !bind_ok.
    match goal with |- context[if Nat.ltb ?x ?y then _ else _] => destruct (Nat.ltb_spec x y) as [L|_]; [unfold ol in L; lia|] end.
    rewrite <- app_assoc, app_assoc. replace (length pre + (2 + length d))%nat with (length (pre ++ tlv_wire (c, d))) by (rewrite app_length, LT; lia).
    replace (ol - (2 + length d))%nat with (length (tlvs_wire g)) by (unfold ol; lia).
    assert (Lf : (length g <= fuel)%nat) by (cbn [length] in Hf; clear - Hf; lia). assert (Lg : (length (tlvs_wire g) < 256)%nat) by (clear - Hg; lia).
    rewrite (IH Lg fuel _ post Lf), app_length, LT.
    destruct (known g) as [v| | |]; try reflexivity. rewrite !bind_ok.
    replace (length pre + (2 + length d) + length (tlvs_wire g))%nat with (length pre + ol)%nat by (unfold ol; lia). destruct o; reflexivity.
Qed.
Lemma length_group g : (length g <= length (tlvs_wire g))%nat.
Proof. induction g as [|t g IH]; [cbn; lia|]. unfold tlvs_wire in *. cbn [flat_map length]. rewrite app_length. destruct t. cbn [tlv_wire length]. lia. Qed.
Lemma known_app g h : known (g ++ h) = (v <- known g ;; w <- known h ;; Ok (v ++ w)).
Proof.
  induction g as [|[c d] g IH]; cbn [app known]; [rewrite bind_ok; destruct (known h); reflexivity|].
  destruct (from_type_and_data c d) as [o| | |]; try reflexivity. rewrite !bind_ok, IH.
  destruct (known g) as [v| | |]; try reflexivity. rewrite !bind_ok. destruct (known h); try reflexivity. rewrite !bind_ok. destruct o; reflexivity.
Qed.
Lemma params_groups gs t w : groups_ok gs -> (forall fuel pre, (length t <= fuel)%nat -> open_params_loop fuel (pre ++ t) (length pre) = w) ->
  forall fuel pre, (length gs + length t <= fuel)%nat -> open_params_loop fuel (pre ++ params_wire gs ++ t) (length pre) =
  (v <- known (concat gs) ;; v' <- w ;; Ok (v ++ v')).
Proof.
  intros Hg Ht. induction gs as [|g gs IH]; intros fuel pre Hf.
  - cbn [params_wire flat_map app concat known]. rewrite bind_ok, Ht by exact Hf. destruct w; reflexivity.
  - inversion Hg as [|? ? G1 G2]; subst. cbn [length] in Hf. destruct fuel as [|fuel]; [lia|].
    unfold params_wire. cbn [flat_map]. fold (params_wire gs). cbn [app].
    assert (E : pre ++ (2 :: N.of_nat (length (tlvs_wire g)) :: tlvs_wire g ++ params_wire gs) ++ t =
                (pre ++ [2; N.of_nat (length (tlvs_wire g))]) ++ tlvs_wire g ++ params_wire gs ++ t) by (rewrite <- !app_assoc; cbn [app]; rewrite <- !app_assoc; reflexivity).
    cbn [app] in E. rewrite E. set (buf := (pre ++ [2; N.of_nat (length (tlvs_wire g))]) ++ tlvs_wire g ++ params_wire gs ++ t).
    assert (LP : length (pre ++ [2; N.of_nat (length (tlvs_wire g))]) = (length pre + 2)%nat) by (rewrite app_length; reflexivity).
    assert (LB : (length pre + 2 + length (tlvs_wire g) <= length buf)%nat) by (unfold buf; rewrite app_length, LP, app_length; lia).
    cbn [open_params_loop]. destruct (Nat.ltb_spec (length pre + 1) (length buf)) as [_|L]; [|lia].
    assert (I0 : idx buf (length pre) = Ok 2). { unfold buf, idx. rewrite <- app_assoc. rewrite nth_error_app2 by lia. now rewrite Nat.sub_diag. }
    assert (I1 : idx buf (length pre + 1) = Ok (N.of_nat (length (tlvs_wire g)))).
    { unfold buf, idx. rewrite <- app_assoc, nth_error_app2 by lia. replace (length pre + 1 - length pre)%nat with 1%nat by lia. reflexivity. }
    rewrite I0, bind_ok. cbn [N.eqb Pos.eqb negb]. rewrite I1, bind_ok, Nat2N.id.
    unfold buf at 2. rewrite <- LP. rewrite caps_group by (try exact G1; pose proof (length_group g); lia).
    cbn [concat]. rewrite known_app. destruct (known g) as [v| | |]; try reflexivity. rewrite !bind_ok.
    unfold buf. rewrite app_assoc. rewrite <- (app_length (pre ++ [2; N.of_nat (length (tlvs_wire g))]) (tlvs_wire g)).
    rewrite IH by (try exact G2; lia). destruct (known (concat gs)) as [v2| | |]; try reflexivity. rewrite !bind_ok.
    destruct w as [v3| | |]; try reflexivity. rewrite !bind_ok, app_assoc. reflexivity.
Qed.
Lemma params_len gs : (2 * length gs <= length (params_wire gs))%nat.
Proof. induction gs as [|g gs IH]; [cbn; lia|]. unfold params_wire in *. cbn [flat_map length app]. rewrite app_length. lia. Qed.
Lemma open_params self asn hold rid ol ps : asn < 2 ^ 16 -> hold < 2 ^ 16 -> rid < 2 ^ 32 ->
  open_decode self (open_octets asn hold rid ol ps) =
  (v <- open_params_loop (length (open_octets asn hold rid ol ps)) (open_octets asn hold rid ol ps) 10 ;; Ok (mkOpen asn hold rid v)).
Proof.
  intros H1 H2 H3. unfold open_decode.
  assert (L : length (open_octets asn hold rid ol ps) = (10 + length ps)%nat) by (unfold open_octets; rewrite !app_length, !length_be_bytes; reflexivity).
  destruct (Nat.ltb_spec (length (open_octets asn hold rid ol ps)) 10) as [X|_]; [lia|].
  change (idx (open_octets asn hold rid ol ps) 0) with (Ok 4). rewrite bind_ok. cbn [N.eqb Pos.eqb negb].
  set (buf := open_octets asn hold rid ol ps) in *.
  assert (ES : eslice buf 1 (length buf) = Ok (skipn 1 buf)).
  { unfold eslice. match goal with |- context[if ?x then _ else _] => replace x with true by (symmetry; apply andb_true_intro; split; apply Nat.leb_le; lia) end.
    f_equal. unfold sub. rewrite firstn_all2; [reflexivity|]. rewrite skipn_length. lia. }
  rewrite ES, bind_ok.
  set (pl := open_params_loop (length buf) buf 10).
  assert (HD : exists a0 a1 h0 h1 r0 r1 r2 r3, skipn 1 buf = a0 :: a1 :: h0 :: h1 :: r0 :: r1 :: r2 :: r3 :: ol :: ps /\
    be_bytes 2 asn = [a0; a1] /\ be_bytes 2 hold = [h0; h1] /\ be_bytes 4 rid = [r0; r1; r2; r3]) by (repeat eexists).
  destruct HD as (a0 & a1 & h0 & h1 & r0 & r1 & r2 & r3 & -> & Ea & Eh & Er). clearbody pl.
  pose proof (be_bytes_ok 2 asn) as Ba. pose proof (be_bytes_ok 2 hold) as Bh. rewrite Ea in Ba. rewrite Eh in Bh.
  inversion Ba as [|? ? A0 Ba']; subst. inversion Ba' as [|? ? A1 _]; subst. inversion Bh as [|? ? B0 Bh']; subst. inversion Bh' as [|? ? B1 _]; subst.
  cbn [idx nth_error bind op_as op_hold op_rid op_caps app]. rewrite !ntoh16_read by assumption.
  change (ip4_new r0 r1 r2 r3) with (be_val [r0; r1; r2; r3]). rewrite <- Ea, <- Eh, <- Er, !be_val_be_bytes by assumption. reflexivity.
Qed.

(** ** the message *)
Lemma groups_decode self asn hold rid ol gs : asn < 2 ^ 16 -> hold < 2 ^ 16 -> rid < 2 ^ 32 -> groups_ok gs ->
  open_decode self (open_octets asn hold rid ol (params_wire gs)) = (v <- known (concat gs) ;; Ok (mkOpen asn hold rid v)).
Proof.
  intros H1 H2 H3 Hg. rewrite open_params by assumption.
  assert (E : open_octets asn hold rid ol (params_wire gs) = ([4] ++ be_bytes 2 asn ++ be_bytes 2 hold ++ be_bytes 4 rid ++ [ol]) ++ params_wire gs ++ [])
    by (rewrite app_nil_r; unfold open_octets; rewrite <- !app_assoc; reflexivity).
  pose proof (params_len gs) as PL. rewrite E.
  set (pre := [4] ++ be_bytes 2 asn ++ be_bytes 2 hold ++ be_bytes 4 rid ++ [ol]). change 10%nat with (length pre).
  rewrite (params_groups gs [] (Ok []) Hg).
  - destruct (known (concat gs)) as [v| | |]; try reflexivity. rewrite !bind_ok, app_nil_r. reflexivity.
  - intros fuel q _. rewrite app_nil_r. destruct fuel; cbn [open_params_loop]; (destruct (Nat.ltb_spec (length q + 1) (length q)); [lia|reflexivity]).
  - rewrite !app_length. cbn [length]. lia.
Qed.
Lemma regroup self self' asn hold rid ol ol' gs gs' : asn < 2 ^ 16 -> hold < 2 ^ 16 -> rid < 2 ^ 32 -> groups_ok gs -> groups_ok gs' ->
  concat gs = concat gs' ->
  open_decode self (open_octets asn hold rid ol (params_wire gs)) = open_decode self' (open_octets asn hold rid ol' (params_wire gs')).
Proof. intros H1 H2 H3 G G' E. rewrite !groups_decode by assumption. now rewrite E. Qed.
Lemma other_param self asn hold rid ol gs t n rest : asn < 2 ^ 16 -> hold < 2 ^ 16 -> rid < 2 ^ 32 -> groups_ok gs -> t <> 2 ->
  open_decode self (open_octets asn hold rid ol (params_wire gs ++ t :: n :: rest)) = (v <- known (concat gs) ;; Err EOther).
Proof.
  intros H1 H2 H3 Hg Ht. rewrite open_params by assumption.
  assert (E : open_octets asn hold rid ol (params_wire gs ++ t :: n :: rest) = ([4] ++ be_bytes 2 asn ++ be_bytes 2 hold ++ be_bytes 4 rid ++ [ol]) ++ params_wire gs ++ t :: n :: rest)
    by (unfold open_octets; rewrite <- !app_assoc; reflexivity).
  pose proof (params_len gs) as PL. rewrite E.
  set (pre := [4] ++ be_bytes 2 asn ++ be_bytes 2 hold ++ be_bytes 4 rid ++ [ol]). change 10%nat with (length pre).
  rewrite (params_groups gs (t :: n :: rest) (Err EOther) Hg).
  - destruct (known (concat gs)) as [v| | |]; reflexivity.
  - intros fuel q Hf. destruct fuel as [|fuel]; [cbn [length] in Hf; lia|]. cbn [open_params_loop].
    destruct (Nat.ltb_spec (length q + 1) (length (q ++ t :: n :: rest))) as [_|L]; [|rewrite app_length in L; cbn [length] in L; lia].
    assert (I : idx (q ++ t :: n :: rest) (length q) = Ok t) by (unfold idx; rewrite nth_error_app2, Nat.sub_diag by lia; reflexivity).
    rewrite I, bind_ok. destruct (N.eqb_spec t 2) as [->|_]; [congruence|reflexivity].
  - rewrite !app_length. cbn [length]. lia.
Qed.
Lemma stray_octet self asn hold rid ol gs x : asn < 2 ^ 16 -> hold < 2 ^ 16 -> rid < 2 ^ 32 -> groups_ok gs ->
  open_decode self (open_octets asn hold rid ol (params_wire gs ++ [x])) = (v <- known (concat gs) ;; Ok (mkOpen asn hold rid v)).
Proof.
  intros H1 H2 H3 Hg. rewrite open_params by assumption.
  assert (E : open_octets asn hold rid ol (params_wire gs ++ [x]) = ([4] ++ be_bytes 2 asn ++ be_bytes 2 hold ++ be_bytes 4 rid ++ [ol]) ++ params_wire gs ++ [x])
    by (unfold open_octets; rewrite <- !app_assoc; reflexivity).
  pose proof (params_len gs) as PL. rewrite E.
  set (pre := [4] ++ be_bytes 2 asn ++ be_bytes 2 hold ++ be_bytes 4 rid ++ [ol]). change 10%nat with (length pre).
  rewrite (params_groups gs [x] (Ok []) Hg).
  - destruct (known (concat gs)) as [v| | |]; try reflexivity. rewrite !bind_ok, app_nil_r. reflexivity.
  - intros fuel q _. destruct fuel; cbn [open_params_loop]; (destruct (Nat.ltb_spec (length q + 1) (length (q ++ [x]))) as [L|_]; [rewrite app_length in L; cbn [length] in L; lia|reflexivity]).
  - rewrite !app_length. cbn [length]. lia.
Qed.
Lemma known_concat g v : known g = Ok v <-> exists vs, Forall2 (fun t w => known [t] = Ok w) g vs /\ v = concat vs.
Proof.
  revert v. induction g as [|t g IH]; intros v.
  - split; [intros E; exists []; cbn in E; injection E as <-; split; [constructor|reflexivity]|].
    intros (vs & F & ->). inversion F; subst. reflexivity.
  - change (t :: g) with ([t] ++ g). rewrite known_app. split.
    + destruct (known [t]) as [w| | |] eqn:Et; try discriminate. rewrite bind_ok. destruct (known g) as [u| | |] eqn:Eg; try discriminate.
      rewrite bind_ok. intros E. injection E as <-. destruct (proj1 (IH u) eq_refl) as (vs & F & ->).
      exists (w :: vs). split; [constructor; assumption|reflexivity].
    + intros (vs & F & ->). cbn [app] in F. inversion F as [|? w ? vs' Et F' E1 E2]; subst. rewrite Et, bind_ok.
      rewrite (proj2 (IH (concat vs'))) by (exists vs'; split; [exact F'|reflexivity]). rewrite bind_ok. reflexivity.
Qed.
Lemma tlv_in_groups gs t : groups_ok gs -> In t (concat gs) -> groups_ok [[t]].
Proof.
  intros Hg Hi. apply in_concat in Hi. destruct Hi as (g & G & T). pose proof (proj1 (Forall_forall _ _) Hg g G) as L. cbn beta in L.
  constructor; [|constructor]. apply in_split in T. destruct T as (a & b & ->). revert L. unfold tlvs_wire. rewrite !flat_map_app. cbn [flat_map].
  rewrite !app_length. cbn [length]. lia.
Qed.
Lemma decode_known self asn hold rid ol gs v : asn < 2 ^ 16 -> hold < 2 ^ 16 -> rid < 2 ^ 32 -> groups_ok gs ->
  open_decode self (open_octets asn hold rid ol (params_wire gs)) = Ok (mkOpen asn hold rid v) <-> known (concat gs) = Ok v.
Proof.
  intros H1 H2 H3 G. rewrite groups_decode by assumption. destruct (known (concat gs)) as [u| | |]; rewrite ?bind_ok; split; intros E; try discriminate; congruence.
Qed.
Lemma one_by_one self asn hold rid ol gs v : asn < 2 ^ 16 -> hold < 2 ^ 16 -> rid < 2 ^ 32 -> groups_ok gs ->
  open_decode self (open_octets asn hold rid ol (params_wire gs)) = Ok (mkOpen asn hold rid v) <->
  exists vs, Forall2 (fun t w => open_decode self (open_octets asn hold rid ol (params_wire [[t]])) = Ok (mkOpen asn hold rid w)) (concat gs) vs /\ v = concat vs.
Proof.
  intros H1 H2 H3 G. rewrite decode_known by assumption. rewrite known_concat.
  assert (A : forall t, In t (concat gs) -> groups_ok [[t]]) by (intros t; apply tlv_in_groups; exact G).
  revert A. generalize (concat gs). intros l A.
  assert (B : forall vs, Forall2 (fun t w => known [t] = Ok w) l vs <-> Forall2 (fun t w => open_decode self (open_octets asn hold rid ol (params_wire [[t]])) = Ok (mkOpen asn hold rid w)) l vs).
  { induction l as [|t l IH]; intros vs; [split; intros F; inversion F; constructor|].
    split; intros F; inversion F as [|? w ? vs' E F' X Y]; subst; constructor;
      try (apply IH; [intros u Hu; apply A; right; exact Hu|exact F']).
    - apply decode_known; try assumption. apply A; left; reflexivity.
    - apply decode_known in E; try assumption. apply A; left; reflexivity. }
  split; intros (vs & F & E); exists vs; (split; [apply B; exact F|exact E]).
Qed.
Lemma other_refused self asn hold rid ol gs t n rest m : asn < 2 ^ 16 -> hold < 2 ^ 16 -> rid < 2 ^ 32 -> groups_ok gs -> t <> 2 ->
  open_decode self (open_octets asn hold rid ol (params_wire gs)) = Ok m ->
  open_decode self (open_octets asn hold rid ol (params_wire gs ++ t :: n :: rest)) = Err EOther.
Proof.
  intros H1 H2 H3 G T E. rewrite other_param by assumption. rewrite groups_decode in E by assumption.
  destruct (known (concat gs)); try discriminate. reflexivity.
Qed.
Lemma extended_refused self asn hold rid ol n rest : asn < 2 ^ 16 -> hold < 2 ^ 16 -> rid < 2 ^ 32 ->
  open_decode self (open_octets asn hold rid ol (255 :: n :: rest)) = Err EOther.
Proof.
  intros H1 H2 H3. change (255 :: n :: rest) with (params_wire [] ++ 255 :: n :: rest). rewrite other_param; try assumption; [reflexivity|constructor|discriminate].
Qed.
Lemma stray_accepted self asn hold rid ol gs x : asn < 2 ^ 16 -> hold < 2 ^ 16 -> rid < 2 ^ 32 -> groups_ok gs ->
  open_decode self (open_octets asn hold rid ol (params_wire gs ++ [x])) = open_decode self (open_octets asn hold rid ol (params_wire gs)).
Proof. intros H1 H2 H3 G. now rewrite stray_octet, groups_decode by assumption. Qed.
