(** Proofs about UPDATE messages. *)
From Verif Require Import Base BaseFacts M_Util S_Wire F_Util M_Prefix S_Prefix M_Nlri S_Nlri F_Nlri M_Vpls M_Mvpn S_Mvpn M_Evpn M_Flowspec
  M_Cap M_Open M_Session F_Cap F_Lay F_Mvpn M_Addrs S_Addrs F_Fuel F_Addrs M_Attr S_Attr F_Attr F_Attr2 M_Update S_Update.
Ltac Zify.zify_post_hook ::= idtac.

(** ** Encoding *)
Lemma on_tail_from {A} n (e : Enc A) buf : (n <= length buf)%nat -> on_tail n e buf = on_from n e buf.
Proof.
  intros H. unfold on_tail, ebind, elen, on_eslice, on_from.
  replace (Nat.leb n (length buf)) with true by (symmetry; now apply Nat.leb_le). rewrite Nat.leb_refl. cbn [andb].
  replace (sub buf n (length buf)) with (skipn n buf) by (unfold sub; symmetry; apply firstn_all2; rewrite skipn_length; lia).
  rewrite skipn_all. destruct (e (skipn n buf)) as [[? ?]| | |]; try reflexivity. now rewrite app_nil_r.
Qed.
Lemma writes_on_tail {A} n (e : Enc A) bs a : writes e bs a -> writes_at n (on_tail n e) bs a.
Proof. intros H buf L. rewrite on_tail_from by lia. now apply writes_on_from. Qed.
Lemma upd_nlri_encode_eq oc p a : upd_nlri_encode oc p a = if session_list p a then Some (addrs_encode oc a) else None.
Proof. unfold upd_nlri_encode, session_list. destruct (sp_mode p), a; reflexivity. Qed.
Lemma none_wire p : nlri_wire p ANone = [].
Proof. unfold nlri_wire, session_list. now destruct (sp_mode p). Qed.
Lemma cast16_small n : N.of_nat n <= 65535 -> cast 16 (N.of_nat n) = N.of_nat n.
Proof. intros H. unfold cast. apply N.mod_small. change (2 ^ 16) with 65536. lia. Qed.
Lemma upd_withdraws_writes oc p a : (session_list p a = true -> addrs_wf a) -> N.of_nat (length (nlri_wire p a)) <= 65535 ->
  writes (upd_withdraws oc p a) (be_bytes 2 (N.of_nat (length (nlri_wire p a))) ++ nlri_wire p a) (2 + length (nlri_wire p a))%nat.
Proof.
  intros H L. unfold upd_withdraws. rewrite upd_nlri_encode_eq. unfold nlri_wire in *. destruct (session_list p a).
  - eapply (writes_at_bind_rev 0 _ _ (be_bytes 2 (N.of_nat (length (addrs_wire a)))) (addrs_wire a)).
    + rewrite length_be_bytes. apply writes_on_tail. now apply addrs_encode_wire, H.
    + replace (65535 <? N.of_nat (length (addrs_wire a))) with false by (symmetry; now apply N.ltb_ge).
      rewrite cast16_small by exact L.
      rewrite <- (app_nil_r (be_bytes 2 _)). eapply writes_next; [apply (writes_on_tail 0), writes_setn_u16|reflexivity|apply writes_at_ret].
  - cbn [length N.of_nat app]. rewrite app_nil_r. rewrite <- (app_nil_r (be_bytes 2 0)). eapply writes_next; [apply writes_setn_u16|reflexivity|apply writes_at_ret].
Qed.
Lemma attr_full_len p a : (3 <= length (attr_full p a))%nat.
Proof. unfold attr_full. rewrite length_frame. unfold len_octets. destruct (fl_extended _); lia. Qed.
Lemma upd_attrs_writes oc p v : forall pos cur, Forall (fun a => attr_wf p a /\ N.of_nat (length (attr_wire p a)) <= len_max (attr_flags a)) v ->
  (v = [] \/ N.of_nat (cur - pos + length (attrs_wire p (removelast v))) <= 65535) -> (pos <= cur)%nat ->
  writes_at cur (upd_attrs_encode oc p v pos cur) (attrs_wire p v) (cur + length (attrs_wire p v))%nat.
Proof.
  induction v as [|a v IH]; intros pos cur H L P; cbn [upd_attrs_encode attrs_wire flat_map].
  - apply writes_ret_nil. cbn [length]. lia.
  - inversion H as [|? ? [Ha Hl] Hv]; subst. destruct L as [L|L]; [discriminate|].
    replace (65535 <? N.of_nat (cur - pos)) with false by (symmetry; apply N.ltb_ge; lia).
    eapply writes_next; [apply writes_on_tail, attr_encode_writes; assumption|reflexivity|].
    eapply writes_at_eq; [apply IH|reflexivity|reflexivity|].
    + exact Hv.
    + destruct v as [|b v]; [now left|right]. change (removelast (a :: b :: v)) with (a :: removelast (b :: v)) in L.
      unfold attrs_wire in *. cbn [flat_map] in L. rewrite app_length in L. clear - L P. lia.
    + lia.
    + rewrite app_length. unfold attrs_wire. lia.
Qed.
Lemma attrs_fit p v : N.of_nat (length (attrs_wire p v)) <= 65535 -> v = [] \/ N.of_nat (2 + length (attrs_wire p (removelast v))) <= 65535.
Proof.
  destruct v as [|a v]; [now left|right]. assert (NE : a :: v <> []) by discriminate. pose proof (app_removelast_last a NE) as E.
  set (r := removelast (a :: v)) in *. set (l := last (a :: v) a) in *. rewrite E in H. unfold attrs_wire in *. rewrite flat_map_app, app_length in H.
  cbn [flat_map] in H. rewrite app_length in H. pose proof (attr_full_len p l). clear - H H0. lia.
Qed.
(** the attribute length field holds the low 16 bits of the length *)
Lemma update_encode_general oc p m :
  (session_list p (u_withdraws m) = true -> addrs_wf (u_withdraws m)) -> (session_list p (u_updates m) = true -> addrs_wf (u_updates m)) ->
  Forall (fun a => attr_wf p a /\ N.of_nat (length (attr_wire p a)) <= len_max (attr_flags a)) (u_attrs m) ->
  N.of_nat (length (nlri_wire p (u_withdraws m))) <= 65535 ->
  (u_attrs m = [] \/ N.of_nat (2 + length (attrs_wire p (removelast (u_attrs m)))) <= 65535) ->
  writes (update_encode oc p m) (update_wire p m) (length (update_wire p m)).
Proof.
  intros H1 H2 H3 H4 H5. unfold update_encode, update_wire. set (w := nlri_wire p (u_withdraws m)) in *. set (A := attrs_wire p (u_attrs m)) in *.
  rewrite app_assoc. eapply writes_next; [apply upd_withdraws_writes; assumption|reflexivity|]. fold w.
  rewrite app_length, length_be_bytes. cbn [Nat.add].
  assert (E : S (S (length w)) = (2 + length w)%nat) by reflexivity. 
  intros buf Hb. rewrite !app_length, length_be_bytes in Hb.
  set (pos := S (S (length w))) in *.
  (* attributes are written after the hole for their length *)
  unfold ebind at 1. assert (WA : writes_at (pos + 2) (upd_attrs_encode oc p (u_attrs m) pos (pos + 2)) A (pos + 2 + length A)%nat).
  { apply upd_attrs_writes; [exact H3| |lia]. replace (pos + 2 - pos)%nat with 2%nat by lia. exact H5. }
  rewrite WA by lia. clear WA.
  set (b1 := splice (pos + 2) A buf).
  assert (L1 : length b1 = length buf) by (unfold b1; rewrite length_splice; lia).
  unfold ebind at 1.
  assert (WL : writes_at pos (on_eslice pos (pos + 2) (setn_u16 (cast 16 (N.of_nat (pos + 2 + length A - pos - 2))))) (be_bytes 2 (N.of_nat (length A))) tt).
  { replace (pos + 2 + length A - pos - 2)%nat with (length A) by lia. apply writes_on_eslice; [rewrite length_be_bytes; lia|lia|].
    unfold cast. rewrite <- (be_bytes_mod 2 (N.of_nat (length A)) 16) by (cbn; lia). apply writes_setn_u16. }
  rewrite WL by (rewrite length_be_bytes, L1; lia). clear WL.
  set (b2 := splice pos (be_bytes 2 (N.of_nat (length A))) b1).
  assert (L2 : length b2 = length buf) by (unfold b2; rewrite length_splice; rewrite ?length_be_bytes; lia).
  assert (B2 : b2 = splice pos (be_bytes 2 (N.of_nat (length A)) ++ A) buf).
  { unfold b2, b1. rewrite <- splice_splice_adj_rev by (rewrite length_be_bytes; lia). now rewrite length_be_bytes. }
  rewrite upd_nlri_encode_eq. unfold nlri_wire in Hb |- *. destruct (session_list p (u_updates m)).
  - unfold ebind. rewrite (writes_on_tail _ _ _ _ (addrs_encode_wire oc _ (H2 eq_refl))) by lia.
    unfold eret. do 2 f_equal.
    + rewrite !app_length, !length_be_bytes. unfold pos. lia.
    + rewrite B2. rewrite (app_assoc (be_bytes 2 _) A). rewrite <- (splice_splice_adj pos (be_bytes 2 (N.of_nat (length A)) ++ A) (addrs_wire (u_updates m)) buf) by (rewrite app_length, length_be_bytes; lia).
      rewrite app_length, length_be_bytes. f_equal. lia.
  - unfold eret. do 2 f_equal.
    + rewrite !app_length, !length_be_bytes. cbn [length]. unfold pos. lia.
    + rewrite B2. now rewrite app_nil_r.
Qed.

(** ** Decoding *)
Lemma eslice_app {A} (pre mid post : list A) a b : length pre = a -> (a + length mid)%nat = b -> eslice (pre ++ mid ++ post) a b = Ok mid.
Proof. intros Ha Hb. rewrite eslice_ok by (rewrite ?app_length; lia). f_equal. apply sub_app_exact; lia. Qed.
Lemma idx_app_exact {A} (pre post : list A) x a : length pre = a -> idx (pre ++ x :: post) a = Ok x.
Proof. intros <-. unfold idx. rewrite nth_error_app2 by lia. now rewrite Nat.sub_diag. Qed.

Fixpoint dec_frames (oc : bool) (p : params) (fs : list (N * N * list N)) : res (list attr) :=
  match fs with
  | [] => Ok []
  | (f, tc, body) :: fs' => a <- attr_decode oc p tc f (length body) body ;; v <- dec_frames oc p fs' ;; Ok (a :: v)
  end.
Lemma frame_step oc p fuel pre f tc body rest e : frame_ok (f, tc, body) ->
  (length pre + length (frame f tc body) <= e)%nat ->
  upd_attrs (S fuel) oc p (pre ++ frame f tc body ++ rest) (length pre) e =
  (a <- attr_decode oc p tc f (length body) body ;;
   '(v, c) <- upd_attrs fuel oc p (pre ++ frame f tc body ++ rest) (length pre + length (frame f tc body)) e ;; Ok (a :: v, c)).
Proof.
  intros (Hf & Hl) He. rewrite length_frame in *. unfold len_max in Hl. cbn [upd_attrs].
  replace (Nat.ltb (length pre) e) with true by (symmetry; apply Nat.ltb_lt; lia).
  set (B := pre ++ frame f tc body ++ rest).
  assert (EB : B = pre ++ ([f; tc] ++ be_bytes (len_octets f) (N.of_nat (length body)) ++ body) ++ rest) by reflexivity. clearbody B.
  assert (I0 : idx B (length pre) = Ok f) by (rewrite EB; now apply idx_app_exact).
  assert (I1 : idx B (length pre + 1) = Ok tc).
  { replace B with ((pre ++ [f]) ++ tc :: (be_bytes (len_octets f) (N.of_nat (length body)) ++ body ++ rest)) by (rewrite EB; rewrite <- !app_assoc; reflexivity).
    apply idx_app_exact. rewrite app_length. reflexivity. }
  rewrite I0, bind_ok, I1, bind_ok, ext_bit.
  unfold len_octets in *. destruct (fl_extended f).
  - assert (E : eslice B (length pre + 4 - 2) (length pre + 4) = Ok (be_bytes 2 (N.of_nat (length body)))).
    { replace B with ((pre ++ [f; tc]) ++ be_bytes 2 (N.of_nat (length body)) ++ (body ++ rest)) by (rewrite EB; rewrite <- !app_assoc; reflexivity).
      apply eslice_app; rewrite ?app_length, ?length_be_bytes; cbn [length]; lia. }
    rewrite E, bind_ok, getn_u16_exact by lia. rewrite !bind_ok, Nnat.Nat2N.id.
    destruct (Nat.ltb_spec e (length pre + 4 + length body)); [lia|].
    assert (E2 : eslice B (length pre + 4) (length pre + 4 + length body) = Ok body).
    { replace B with ((pre ++ [f; tc] ++ be_bytes 2 (N.of_nat (length body))) ++ body ++ rest) by (rewrite EB; rewrite <- !app_assoc; reflexivity).
      apply eslice_app; rewrite ?app_length, ?length_be_bytes; cbn [length]; lia. }
    rewrite E2, bind_ok. now replace (length pre + 4 + length body)%nat with (length pre + (2 + 2 + length body))%nat by lia.
  - assert (E : idx B (length pre + 3 - 1) = Ok (N.of_nat (length body))).
    { replace B with ((pre ++ [f; tc]) ++ N.of_nat (length body) :: (body ++ rest)).
      - apply idx_app_exact. rewrite app_length. cbn [length]. lia.
      - rewrite EB. cbn [be_bytes]. rewrite <- !app_assoc. cbn [app]. change (8 * N.of_nat 0) with 0. rewrite N.pow_0_r, N.div_1_r, N.mod_small by lia. reflexivity. }
    rewrite E, !bind_ok, Nnat.Nat2N.id.
    destruct (Nat.ltb_spec e (length pre + 3 + length body)); [lia|].
    assert (E2 : eslice B (length pre + 3) (length pre + 3 + length body) = Ok body).
    { replace B with ((pre ++ [f; tc] ++ be_bytes 1 (N.of_nat (length body))) ++ body ++ rest) by (rewrite EB; rewrite <- !app_assoc; reflexivity).
      apply eslice_app; rewrite ?app_length, ?length_be_bytes; cbn [length]; lia. }
    rewrite E2, bind_ok. now replace (length pre + 3 + length body)%nat with (length pre + (2 + 1 + length body))%nat by lia.
Qed.
(** complete attributes, then the rest of the area *)
Lemma upd_attrs_frames oc p fs : forall fuel pre rest e, Forall frame_ok fs ->
  (length pre + length (frames_wire fs) <= e)%nat ->
  upd_attrs (length fs + fuel) oc p (pre ++ frames_wire fs ++ rest) (length pre) e =
  (v <- dec_frames oc p fs ;;
   '(w, c) <- upd_attrs fuel oc p (pre ++ frames_wire fs ++ rest) (length pre + length (frames_wire fs)) e ;; Ok (v ++ w, c)).
Proof.
  induction fs as [|[[f tc] body] fs IH]; intros fuel pre rest e H He.
  - cbn [length frames_wire flat_map app Nat.add dec_frames]. rewrite Nat.add_0_r, bind_ok.
    destruct (upd_attrs fuel oc p (pre ++ rest) (length pre) e) as [[? ?]| | |]; reflexivity.
  - inversion H as [|? ? H1 H2]; subst. unfold frames_wire in *. cbn [flat_map] in *. rewrite app_length in He.
    cbn [length Nat.add]. rewrite <- (app_assoc (frame f tc body)). rewrite frame_step by (auto; lia).
    cbn [dec_frames]. rewrite bind_assoc. destruct (attr_decode oc p tc f (length body) body); cbn [bind]; try reflexivity.
    rewrite (app_assoc pre). rewrite <- (app_length pre (frame f tc body)). rewrite IH by (auto; rewrite ?app_length; lia).
    rewrite !bind_assoc. destruct (dec_frames oc p fs); cbn [bind]; try reflexivity.
    rewrite app_length. rewrite (app_length (frame f tc body)). rewrite Nat.add_assoc.
    destruct (upd_attrs fuel _ _ _ _ _) as [[? ?]| | |]; reflexivity.
Qed.
Lemma frames_count fs : (length fs <= length (frames_wire fs))%nat.
Proof.
  induction fs as [|[[f tc] body] fs IH]; [reflexivity|]. unfold frames_wire in *. cbn [flat_map length]. rewrite app_length, length_frame. lia.
Qed.
(** an UPDATE whose attribute area begins with complete attributes *)
Lemma update_decode_shape oc p m w fs t n : N.of_nat (length w) <= 65535 -> N.of_nat (length (frames_wire fs ++ t)) <= 65535 -> Forall frame_ok fs ->
  let buf := be_bytes 2 (N.of_nat (length w)) ++ w ++ be_bytes 2 (N.of_nat (length (frames_wire fs ++ t))) ++ (frames_wire fs ++ t) ++ n in
  let e := (4 + length w + length (frames_wire fs ++ t))%nat in
  exists fuel, (length t <= fuel)%nat /\ update_decode oc p m buf =
  (wd <- upd_nlri_decode oc p w ;; v <- dec_frames oc p fs ;;
   '(v', c) <- upd_attrs (S fuel) oc p buf (e - length t) e ;;
   s <- eslice buf c (length buf) ;; up <- upd_nlri_decode oc p s ;; Ok (mkUpd up wd (u_attrs m ++ (v ++ v')))).
Proof.
  intros Hw Ht Hf buf e. set (A := frames_wire fs) in *.
  assert (LB : length buf = (4 + length w + (length A + length t) + length n)%nat) by (unfold buf; rewrite !app_length, !length_be_bytes; lia).
  pose proof (frames_count fs) as FC. fold A in FC.
  exists (length buf - length fs)%nat. split; [lia|].
  unfold update_decode.
  assert (E1 : eslice buf 0 2 = Ok (be_bytes 2 (N.of_nat (length w)))) by (apply (eslice_app []); [reflexivity|rewrite length_be_bytes; reflexivity]).
  rewrite E1, bind_ok, getn_u16_exact, bind_ok by lia. rewrite Nnat.Nat2N.id. cbv zeta.
  destruct (Nat.leb_spec (length buf) (2 + length w)); [lia|].
  assert (E2 : eslice buf 2 (2 + length w) = Ok w) by (apply eslice_app; [apply length_be_bytes|reflexivity]).
  rewrite E2, bind_ok. destruct (upd_nlri_decode oc p w) as [wd| | |]; cbn [bind]; try reflexivity.
  assert (E3 : eslice buf (2 + length w) (2 + length w + 2) = Ok (be_bytes 2 (N.of_nat (length (A ++ t))))).
  { unfold buf. rewrite (app_assoc (be_bytes 2 _) w). apply eslice_app; rewrite ?app_length, length_be_bytes; lia. }
  rewrite E3, bind_ok, getn_u16_exact, bind_ok by lia. rewrite Nnat.Nat2N.id.
  destruct (Nat.ltb_spec (length buf) (2 + length w + 2 + length (A ++ t))); [rewrite app_length in *; lia|].
  replace (S (length buf)) with (length fs + S (length buf - length fs))%nat by lia.
  set (pre := be_bytes 2 (N.of_nat (length w)) ++ w ++ be_bytes 2 (N.of_nat (length (A ++ t)))).
  assert (LP : length pre = (2 + length w + 2)%nat) by (unfold pre; rewrite !app_length, !length_be_bytes; lia).
  assert (EB : buf = pre ++ A ++ (t ++ n)) by (unfold buf, pre; rewrite <- !app_assoc; reflexivity).
  rewrite <- LP.
  assert (UF : upd_attrs (length fs + S (length buf - length fs)) oc p buf (length pre) (length pre + length (A ++ t)) =
    (v <- dec_frames oc p fs ;; '(w, c) <- upd_attrs (S (length buf - length fs)) oc p buf (length pre + length A) (length pre + length (A ++ t)) ;; Ok (v ++ w, c))).
  { rewrite EB. apply upd_attrs_frames; [exact Hf|]. fold A. rewrite app_length. lia. }
  rewrite UF. clear UF.
  replace (length pre + length (A ++ t))%nat with e by (unfold e; rewrite LP; lia).
  replace (length pre + length A)%nat with (e - length t)%nat by (unfold e; rewrite LP, app_length; lia).
  rewrite bind_assoc. destruct (dec_frames oc p fs) as [v| | |]; cbn [bind]; try reflexivity.
  rewrite bind_assoc. destruct (upd_attrs _ oc p buf (e - length t) e) as [[v' c]| | |]; reflexivity.
Qed.
Lemma update_decode_frames oc p m w fs n : N.of_nat (length w) <= 65535 -> N.of_nat (length (frames_wire fs)) <= 65535 -> Forall frame_ok fs ->
  update_decode oc p m (be_bytes 2 (N.of_nat (length w)) ++ w ++ be_bytes 2 (N.of_nat (length (frames_wire fs))) ++ frames_wire fs ++ n) =
  (wd <- upd_nlri_decode oc p w ;; v <- dec_frames oc p fs ;; up <- upd_nlri_decode oc p n ;; Ok (mkUpd up wd (u_attrs m ++ v))).
Proof.
  intros Hw Hf H. destruct (update_decode_shape oc p m w fs [] n Hw) as (fuel & _ & E); [now rewrite app_nil_r|exact H|]. cbv zeta in E. rewrite app_nil_r in E.
  rewrite E. clear E. destruct (upd_nlri_decode oc p w) as [wd| | |]; cbn [bind]; try reflexivity.
  destruct (dec_frames oc p fs) as [v| | |]; cbn [bind]; try reflexivity. cbn [upd_attrs length]. rewrite Nat.sub_0_r, Nat.ltb_irrefl, bind_ok.
  match goal with |- context [eslice ?b ?x ?y] => assert (E : eslice b x y = Ok n) end.
  { rewrite <- (app_nil_r n) at 1. rewrite !app_assoc. rewrite <- (app_assoc _ n []). apply eslice_app; rewrite ?app_nil_r, !app_length, !length_be_bytes; lia. }
  rewrite E, bind_ok, app_nil_r. reflexivity.
Qed.

(** ** Round trip *)
Lemma nlri_decode_list oc p a : session_list p a = true -> addrs_wf a -> session_form p a -> upd_nlri_decode oc p (addrs_wire a) = Ok (addrs_trunc a).
Proof.
  intros S W F. pose proof (addrs_decode_wire oc p a W F) as D. unfold upd_nlri_decode. unfold session_list in S.
  destruct (sp_mode p), a; try discriminate; cbn [get_afi_safi fst snd] in D; unfold addrs_decode in D; cbn [N.eqb Pos.eqb] in D; now rewrite D.
Qed.
Lemma nlri_decode_nil oc p : upd_nlri_decode oc p [] = Ok (empty_list p).
Proof.
  unfold upd_nlri_decode, empty_list, dec_fam, use_pathid. cbn [is_addpath_nlri length Nat.ltb Nat.leb].
  rewrite Bool.andb_false_r, Bool.orb_false_r. destruct (sp_mode p), (check_addpath_receive p _ 1); reflexivity.
Qed.
Lemma nlri_decode_ok oc p a : list_ok p a -> upd_nlri_decode oc p (nlri_wire p a) = Ok (nlri_norm p a).
Proof.
  intros [->|(S & W & F)].
  - rewrite none_wire, nlri_decode_nil. unfold nlri_norm, session_list. now destruct (sp_mode p).
  - unfold nlri_wire, nlri_norm. rewrite S. now apply nlri_decode_list.
Qed.
Definition as_frame (p : params) (a : attr) : N * N * list N := (attr_flags a, attr_code a, attr_wire p a).
Lemma attrs_frames p v : attrs_wire p v = frames_wire (map (as_frame p) v).
Proof. unfold attrs_wire, frames_wire. induction v as [|a v IH]; [reflexivity|]. cbn [flat_map map]. now rewrite IH. Qed.
Lemma attr_flags_byte p a : attr_wf p a -> attr_flags a < 256.
Proof. destruct a; try reflexivity. cbn [attr_wf]. unfold attr_flags. cbn [attr_params snd]. intuition. Qed.
Lemma frames_ok p v : Forall (attr_ok p) v -> Forall frame_ok (map (as_frame p) v).
Proof.
  intros H. apply Forall_map. eapply Forall_impl; [|exact H]. intros a (H1 & H2 & H3). split; [now apply (attr_flags_byte p)|exact H3].
Qed.
Lemma dec_frames_wire oc p v : Forall (attr_ok p) v -> dec_frames oc p (map (as_frame p) v) = Ok (map attr_trunc v).
Proof.
  induction 1 as [|a v (H1 & H2 & H3) H IH]; [reflexivity|]. cbn [map as_frame dec_frames]. rewrite attr_decode_wire, bind_ok by assumption. now rewrite IH, bind_ok.
Qed.
Lemma update_decode_wire oc p m m0 : update_ok p m -> update_decode oc p m0 (update_wire p m) =
  Ok (mkUpd (nlri_norm p (u_updates m)) (nlri_norm p (u_withdraws m)) (u_attrs m0 ++ map attr_trunc (u_attrs m))).
Proof.
  intros (H1 & H2 & H3 & H4 & H5). unfold update_wire. rewrite attrs_frames in *. rewrite update_decode_frames by (auto; now apply frames_ok).
  rewrite !nlri_decode_ok, bind_ok by assumption. rewrite dec_frames_wire, !bind_ok by assumption. reflexivity.
Qed.
Lemma list_ok_wf p a : list_ok p a -> session_list p a = true -> addrs_wf a.
Proof. intros [->|(S & W & F)] H; [|exact W]. exfalso. unfold session_list in H. destruct (sp_mode p); discriminate. Qed.
Lemma update_roundtrip oc p m buf : update_ok p m -> (length (update_wire p m) <= length buf)%nat ->
  update_encode oc p m buf = Ok (length (update_wire p m), update_wire p m ++ skipn (length (update_wire p m)) buf) /\
  update_decode oc p update_new (update_wire p m) = Ok (update_norm p m).
Proof.
  intros H L. split; [|exact (update_decode_wire oc p m update_new H)].
  destruct H as (H1 & H2 & H3 & H4 & H5).
  apply writes_spec; [|exact L]. apply update_encode_general; [exact (list_ok_wf p _ H2)|exact (list_ok_wf p _ H1)| |exact H4|now apply attrs_fit].
  eapply Forall_impl; [|exact H3]. intros a (A1 & A2 & A3). now split.
Qed.
(** attributes that exceed the length field by the last of them are sent under a wrong length *)
Lemma update_attrs_overflow oc p m : 
  (session_list p (u_withdraws m) = true -> addrs_wf (u_withdraws m)) -> (session_list p (u_updates m) = true -> addrs_wf (u_updates m)) ->
  Forall (attr_ok p) (u_attrs m) -> N.of_nat (length (nlri_wire p (u_withdraws m))) <= 65535 ->
  N.of_nat (2 + length (attrs_wire p (removelast (u_attrs m)))) <= 65535 -> 65535 < N.of_nat (length (attrs_wire p (u_attrs m))) ->
  forall buf, (length (update_wire p m) <= length buf)%nat -> exists b l,
  update_encode oc p m buf = Ok (length (update_wire p m), b) /\
  eslice b (2 + length (nlri_wire p (u_withdraws m))) (4 + length (nlri_wire p (u_withdraws m))) = Ok (be_bytes 2 l) /\
  l < 65536 /\ l <> N.of_nat (length (attrs_wire p (u_attrs m))).
Proof.
  intros H1 H2 H3 H4 H5 H6 buf L.
  assert (W : update_encode oc p m buf = Ok (length (update_wire p m), update_wire p m ++ skipn (length (update_wire p m)) buf)).
  { apply writes_spec; [|exact L]. apply update_encode_general; [exact H1|exact H2| |exact H4|now right].
    eapply Forall_impl; [|exact H3]. intros a (A1 & A2 & A3). now split. }
  eexists. exists (N.of_nat (length (attrs_wire p (u_attrs m))) mod 65536). split; [exact W|].
  assert (M : N.of_nat (length (attrs_wire p (u_attrs m))) mod 65536 < 65536) by (apply N.mod_lt; discriminate).
  split; [|split; [exact M|clear - M H6; lia]].
  change 65536 with (2 ^ 16) at 1. rewrite be_bytes_mod by (cbn; lia). unfold update_wire. rewrite <- !app_assoc.
  rewrite (app_assoc (be_bytes 2 _) (nlri_wire p (u_withdraws m))). apply eslice_app; rewrite ?app_length, !length_be_bytes; lia.
Qed.
(** lists of another family are dropped *)
Lemma update_other_family oc p u w v buf : (session_list p u = false -> update_encode oc p (mkUpd u w v) buf = update_encode oc p (mkUpd ANone w v) buf) /\
  (session_list p w = false -> update_encode oc p (mkUpd u w v) buf = update_encode oc p (mkUpd u ANone v) buf).
Proof.
  assert (N0 : session_list p ANone = false) by (unfold session_list; now destruct (sp_mode p)).
  split; intros H; unfold update_encode, upd_withdraws; cbn [u_updates u_withdraws u_attrs]; rewrite !upd_nlri_encode_eq, H, N0; reflexivity.
Qed.

(** ** Reuse *)
Lemma update_reuse oc p m buf : update_decode oc p m buf =
  match update_decode oc p update_new buf with
  | Ok r => Ok (mkUpd (u_updates r) (u_withdraws r) (u_attrs m ++ u_attrs r))
  | e => e
  end.
Proof.
  unfold update_decode. destruct (eslice buf 0 2); cbn [bind]; try reflexivity. destruct (getn_u16 a) as [k| | |]; cbn [bind]; try reflexivity.
  destruct (Nat.leb _ _); [reflexivity|]. destruct (eslice buf 2 _); cbn [bind]; try reflexivity. destruct (upd_nlri_decode oc p a0); cbn [bind]; try reflexivity.
  destruct (eslice buf _ _); cbn [bind]; try reflexivity. destruct (getn_u16 a2); cbn [bind]; try reflexivity. destruct (Nat.ltb _ _); [reflexivity|].
  destruct (upd_attrs _ _ _ _ _ _) as [[v c]| | |]; cbn [bind]; try reflexivity. destruct (eslice buf c _); cbn [bind]; try reflexivity.
  destruct (upd_nlri_decode oc p a4); reflexivity.
Qed.
Lemma update_reuse_differs oc p m buf r : u_attrs m <> [] -> update_decode oc p update_new buf = Ok r -> update_decode oc p m buf <> Ok r.
Proof.
  intros H E. rewrite update_reuse, E. intros G. assert (J : forall (A : Type) (x y : A), Ok x = Ok y -> x = y) by congruence. apply J in G.
  apply (f_equal (fun r => length (u_attrs r))) in G. cbn [u_attrs] in G. rewrite app_length in G. destruct (u_attrs m); [congruence|cbn [length] in G; lia].
Qed.

(** ** Termination and panics *)
Lemma nf_nlri oc p buf : nf (upd_nlri_decode oc p buf).
Proof.
  unfold upd_nlri_decode. apply nf_bind; [|intros [? ?]; nf1]. destruct (sp_mode p); apply dec_fam_nf; [intros ? ?; apply nf_v4b|intros ? ?; apply nf_v6b].
Qed.
Lemma nf_upd_attrs oc p buf e : forall fuel cur, (e - cur < fuel)%nat -> nf (upd_attrs fuel oc p buf cur e).
Proof.
  induction fuel as [|fuel IH]; intros cur H; [lia|]. cbn [upd_attrs]. destruct (Nat.ltb_spec cur e); [|nf1].
  apply nf_bind; [nf1|intros f]. apply nf_bind; [nf1|intros tc].
  apply nf_bind_ok.
  - destruct (0 <? _); [|apply nf_bind; [nf1|intros; nf1]]. apply nf_bind; [nf1|intros]. apply nf_bind; [nf1|intros; nf1].
  - intros [k c] E. assert (Hc : (cur < c)%nat).
    { destruct (0 <? _); [do 2 binv E|binv E]; injection E as <- <-; lia. }
    destruct (Nat.ltb_spec e (c + k)); [nf1|]. apply nf_bind; [nf1|intros s]. apply nf_bind; [apply attr_decode_nf|intros a].
    apply nf_bind; [apply IH; lia|]. intros [? ?]. nf1.
Qed.
Lemma update_decode_nf oc p m buf : update_decode oc p m buf <> OutOfFuel.
Proof.
  change (nf (update_decode oc p m buf)). unfold update_decode. apply nf_bind; [nf1|intros s]. apply nf_bind; [nf1|intros k].
  destruct (Nat.leb _ _); [nf1|]. apply nf_bind; [nf1|intros s1]. apply nf_bind; [apply nf_nlri|intros wd]. apply nf_bind; [nf1|intros s2].
  apply nf_bind; [nf1|intros k2]. cbv zeta. destruct (Nat.ltb_spec (length buf) (2 + N.to_nat k + 2 + N.to_nat k2)); [nf1|].
  apply nf_bind; [apply nf_upd_attrs; lia|intros [v c]]. apply nf_bind; [nf1|intros s3]. apply nf_bind; [apply nf_nlri|intros; nf1].
Qed.
(** an attribute area ending in a lone octet, or in the first two octets of a short attribute *)
Lemma update_panics oc p m w fs wd v t : N.of_nat (length w) <= 65535 -> N.of_nat (length (frames_wire fs ++ t)) <= 65535 -> Forall frame_ok fs ->
  upd_nlri_decode oc p w = Ok wd -> dec_frames oc p fs = Ok v ->
  (exists f, t = [f]) \/ (exists f tc, t = [f; tc] /\ fl_extended f = false) ->
  update_decode oc p m (be_bytes 2 (N.of_nat (length w)) ++ w ++ be_bytes 2 (N.of_nat (length (frames_wire fs ++ t))) ++ frames_wire fs ++ t) = Panic.
Proof.
  intros Hw Ht Hf Ew Ef Hc. destruct (update_decode_shape oc p m w fs t [] Hw Ht Hf) as (fuel & _ & E). cbv zeta in E. rewrite app_nil_r in E. rewrite E. clear E.
  rewrite Ew, Ef, !bind_ok. set (A := frames_wire fs) in *.
  set (buf := be_bytes 2 (N.of_nat (length w)) ++ w ++ be_bytes 2 (N.of_nat (length (A ++ t))) ++ A ++ t).
  set (pre := be_bytes 2 (N.of_nat (length w)) ++ w ++ be_bytes 2 (N.of_nat (length (A ++ t))) ++ A).
  assert (EB : buf = pre ++ t) by (unfold buf, pre; rewrite <- !app_assoc; reflexivity).
  assert (LP : length pre = (4 + length w + length A)%nat) by (unfold pre; rewrite !app_length, !length_be_bytes; lia).
  replace (4 + length w + length (A ++ t) - length t)%nat with (length pre) by (rewrite app_length; lia).
  assert (HP : upd_attrs (S fuel) oc p buf (length pre) (4 + length w + length (A ++ t)) = Panic); [|now rewrite HP].
  cbn [upd_attrs]. rewrite EB. destruct Hc as [(f & ->)|(f & tc & -> & Hx)].
  - rewrite app_length. cbn [length]. destruct (Nat.ltb_spec (length pre) (4 + length w + (length A + 1))); [|lia].
    rewrite idx_app_exact by reflexivity. rewrite bind_ok. rewrite idx_panic by (rewrite app_length; cbn [length]; lia). reflexivity.
  - rewrite app_length. cbn [length]. destruct (Nat.ltb_spec (length pre) (4 + length w + (length A + 2))); [|lia].
    rewrite idx_app_exact by reflexivity. rewrite bind_ok. rewrite (app_assoc pre [f] [tc] : pre ++ [f; tc] = _).
    rewrite idx_app_exact by (rewrite app_length; reflexivity). rewrite bind_ok, ext_bit, Hx.
    rewrite idx_panic by (rewrite !app_length; cbn [length]; lia). reflexivity.
Qed.
(** in release builds nothing else panics *)
Lemma np_nlri p buf : bytes_ok buf -> np (upd_nlri_decode false p buf).
Proof.
  intros H. unfold upd_nlri_decode. apply np_bind; [|intros [? ?] _; discriminate].
  destruct (C55_pid_l buf H) as (P4 & P6).
  assert (Q4 : is_panic (decode_bgpitems_from false v4_from_bits buf) = false).
  { destruct (is_panic (decode_bgpitems_from false v4_from_bits buf)) eqn:E; [|reflexivity]. apply (C55_v4_l false buf H) in E as (E & _). discriminate. }
  assert (Q6 : is_panic (decode_bgpitems_from false v6_from_bits buf) = false).
  { destruct (is_panic (decode_bgpitems_from false v6_from_bits buf)) eqn:E; [|reflexivity]. apply (C55_v6_l false buf H) in E as (E & _). discriminate. }
  destruct (sp_mode p); unfold dec_fam; destruct (use_pathid _ _ _ _); apply np_bind; try (intros [? ?] _; discriminate); intros E; rewrite E in *; discriminate.
Qed.
Lemma np_frames p fs : Forall (fun x => ~ In (snd (fst x)) panicky) fs -> forall oc, np (dec_frames oc p fs).
Proof.
  induction 1 as [|[[f tc] body] fs H1 H IH]; intros oc; [discriminate|]. cbn [dec_frames]. apply np_bind; [now apply attr_decode_np|intros a _].
  apply np_bind; [apply IH|intros; discriminate].
Qed.
Lemma update_no_panic p m w fs n : N.of_nat (length w) <= 65535 -> N.of_nat (length (frames_wire fs)) <= 65535 -> Forall frame_ok fs ->
  bytes_ok w -> bytes_ok n -> Forall (fun x => ~ In (snd (fst x)) panicky) fs ->
  update_decode false p m (be_bytes 2 (N.of_nat (length w)) ++ w ++ be_bytes 2 (N.of_nat (length (frames_wire fs))) ++ frames_wire fs ++ n) <> Panic.
Proof.
  intros H1 H2 H3 H4 H5 H6. rewrite update_decode_frames by assumption.
  change (np (wd <- upd_nlri_decode false p w ;; v <- dec_frames false p fs ;; up <- upd_nlri_decode false p n ;; Ok (mkUpd up wd (u_attrs m ++ v)))).
  apply np_bind; [now apply np_nlri|intros wd _]. apply np_bind; [now apply np_frames|intros v _]. apply np_bind; [now apply np_nlri|discriminate].
Qed.

(** ** Getters *)
Lemma first_attr_spec {T} (f : attr -> option T) l : 
  match first_attr f l with
  | Some x => exists l1 a l2, l = l1 ++ a :: l2 /\ f a = Some x /\ Forall (fun b => f b = None) l1
  | None => Forall (fun b => f b = None) l
  end.
Proof.
  induction l as [|a l IH]; cbn [first_attr]; [constructor|]. destruct (f a) as [x|] eqn:E.
  - exists [], a, l. split; [reflexivity|]. split; [exact E|constructor].
  - destruct (first_attr f l); [|now constructor]. destruct IH as (l1 & b & l2 & -> & E2 & F). exists (a :: l1), b, l2. split; [reflexivity|]. split; [exact E2|now constructor].
Qed.
Lemma first_attr_of {T} (f : attr -> option T) mk l : (forall a x, f a = Some x <-> a = mk x) -> first_of mk l (first_attr f l).
Proof.
  intros H. pose proof (first_attr_spec f l) as S. destruct (first_attr f l); cbn [first_of].
  - destruct S as (l1 & a & l2 & -> & E & F). apply H in E as ->. exists l1, l2. split; [reflexivity|]. eapply Forall_impl; [|exact F].
    intros b Hb y ->. rewrite (proj2 (H _ y) eq_refl) in Hb. discriminate.
  - eapply Forall_impl; [|exact S]. intros b Hb y ->. rewrite (proj2 (H _ y) eq_refl) in Hb. discriminate.
Qed.
Lemma getters m : first_of AOrigin (u_attrs m) (get_attr_origin m) /\ first_of AASPath (u_attrs m) (get_attr_aspath m) /\
  first_of ACommunityList (u_attrs m) (get_attr_communitylist m) /\ first_of ALargeCommunityList (u_attrs m) (get_attr_largecommunitylist m) /\
  first_of AExtCommunityList (u_attrs m) (get_attr_extcommunitylist m) /\ first_of ANextHop (u_attrs m) (get_attr_nexthop m) /\
  first_of (fun x => AMPUpdates (fst x) (snd x)) (u_attrs m) (get_mpupdates m) /\ first_of AMPWithdraws (u_attrs m) (get_mpwithdraws m).
Proof.
  repeat split; apply first_attr_of; intros a x; (split; [destruct a; intros H; try discriminate; injection H as <-; reflexivity|intros ->; try reflexivity]).
  now destruct x.
Qed.
Lemma update_panics_wire oc p m m0 t : update_ok p m -> N.of_nat (length (attrs_wire p (u_attrs m) ++ t)) <= 65535 -> cut_header t ->
  update_decode oc p m0 (be_bytes 2 (N.of_nat (length (nlri_wire p (u_withdraws m)))) ++ nlri_wire p (u_withdraws m) ++
    be_bytes 2 (N.of_nat (length (attrs_wire p (u_attrs m) ++ t))) ++ attrs_wire p (u_attrs m) ++ t) = Panic.
Proof.
  intros (H1 & H2 & H3 & H4 & H5) Ht C. rewrite attrs_frames in *.
  eapply update_panics; [exact H4|exact Ht|now apply frames_ok|now apply nlri_decode_ok|now apply dec_frames_wire|exact C].
Qed.
