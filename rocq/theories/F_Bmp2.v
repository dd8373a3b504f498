(** Proofs about BMP: Route Monitoring, whole messages, panics, sessions, order. *)
From Verif Require Import Base BaseFacts M_Util S_Wire F_Util M_Nlri S_Nlri F_Nlri M_Vpls F_Lay F_Mvpn M_Cap S_Cap M_Open M_Session S_Open F_Open F_Session
  M_Addrs M_Attr M_Update S_Update F_Fuel F_Addrs F_Attr F_Attr2 F_Update M_Order S_Order F_Order M_Bmp S_Bmp F_Bmp.
Ltac Zify.zify_post_hook ::= idtac.

(** ** Route Monitoring *)
Lemma writes_update oc p m : update_ok p m -> writes (update_encode oc p m) (update_wire p m) (length (update_wire p m)).
Proof.
  intros H buf L. destruct (update_roundtrip oc p m buf H L) as [-> _]. reflexivity.
Qed.
Lemma length_update p m : (4 <= length (update_wire p m))%nat.
Proof. unfold update_wire. rewrite !app_length, !length_be_bytes. lia. Qed.
Lemma wz_rmon oc m : let p := params_of_peer (rm_peer m) in rmon_wf p m ->
  wz (is_v4 (ph_addr (rm_peer m))) 0 (rmon_encode oc m) (rmon_wire p m) (length (rmon_wire p m)).
Proof.
  cbv zeta. set (p := params_of_peer (rm_peer m)). intros (Hp & Hu & Hl). unfold rmon_encode, rmon_wire. fold p. clearbody p. apply wz_guard.
  { rewrite app_length, length_peer, length_frame'. pose proof (length_update p (rm_update m)) as LU. clear - LU. lia. }
  eapply wz_next with (q := 42%nat); [apply wz_peer|now rewrite length_peer| |symmetry; apply Bool.orb_false_r].
  cbn beta. apply wz_writes. eapply writes_at_eq; [apply writes_put; [apply writes_update; exact Hu|exact Hl]|reflexivity|reflexivity|].
  rewrite app_length, length_peer, length_frame'. lia.
Qed.
Lemma rmon_decode_wire oc pars m rest : let p := pars (rm_peer m) in rmon_wf p m -> ~ v4_like (ph_addr (rm_peer m)) ->
  rmon_decode_with oc pars (rmon_wire p m ++ rest) = Ok (rmon_seen p m, length (rmon_wire p m)).
Proof.
  intros p (Hp & Hu & Hl) V. unfold rmon_decode_with, rmon_wire. rewrite <- app_assoc.
  replace (Nat.ltb _ _) with false.
  2:{ symmetry. apply Nat.ltb_ge. rewrite !app_length, length_peer, length_frame'. pose proof (length_update p (rm_update m)) as LU. clearbody p. clear - LU. lia. }
  rewrite peer_decode_wire, bind_ok by assumption. rewrite body_frame, bind_ok by (rewrite ?length_peer; auto).
  fold p. rewrite update_decode_wire, bind_ok by exact Hu. rewrite app_length, length_peer, length_frame'. reflexivity.
Qed.

(** ** Common header *)
Lemma bmphdr_writes h : writes (bmphdr_encode h) (bmphdr_wire h) 5%nat.
Proof.
  unfold bmphdr_encode. apply writes_elen_guard; [cbn; lia|]. unfold bmphdr_wire.
  assert (E : be_bytes 4 (bh_length h) = be_bytes 4 (cast 32 (bh_length h)) ++ []).
  { rewrite app_nil_r. unfold cast. symmetry. apply be_bytes_mod. cbv. discriminate. }
  rewrite E. change (bh_version h :: be_bytes 4 (cast 32 (bh_length h)) ++ []) with ([bh_version h] ++ be_bytes 4 (cast 32 (bh_length h)) ++ []).
  eapply writes_next with (q := 1%nat); [apply writes_at_set_idx|reflexivity|].
  eapply writes_next with (q := 5%nat); [apply writes_on_from, writes_setn_u32|reflexivity|]. apply writes_ret_nil. reflexivity.
Qed.
Lemma bmphdr_dec v n rest : n < 2 ^ 32 -> bmphdr_decode (v :: be_bytes 4 n ++ rest) = if v =? 3 then Ok (mkBmpHdr v n, 5%nat) else Err EOther.
Proof.
  intros H. unfold bmphdr_decode.
  replace (Nat.ltb _ _) with false by (symmetry; apply Nat.ltb_ge; cbn [length]; rewrite app_length, length_be_bytes; lia).
  change (idx (v :: be_bytes 4 n ++ rest) 0) with (Ok v). rewrite bind_ok. destruct (v =? 3); cbn [negb]; [|reflexivity].
  rewrite rslice_ok by (cbn [length]; rewrite ?app_length, ?length_be_bytes; lia).
  change (sub (v :: be_bytes 4 n ++ rest) 1 5) with (sub ([v] ++ be_bytes 4 n ++ rest) 1 5).
  rewrite sub_app_exact by (rewrite ?length_be_bytes; reflexivity). rewrite <- (app_nil_r (be_bytes 4 n)). now rewrite bind_ok, getn_u32_be, bind_ok.
Qed.
Lemma bmphdr_total buf : bytes_ok buf ->
  match bmphdr_decode buf with
  | Ok (h, k) => k = 5%nat /\ bh_version h = 3 /\ bh_length h < 2 ^ 32 /\ exists rest, buf = bmphdr_wire h ++ rest
  | Err EInsufficient => (length buf < 5)%nat
  | Err _ => exists v rest, buf = v :: rest /\ v <> 3
  | _ => False
  end.
Proof.
  intros B. destruct (Nat.ltb_spec (length buf) 5) as [L|L].
  { unfold bmphdr_decode. rewrite (proj2 (Nat.ltb_lt _ _) L). exact L. }
  destruct buf as [|v buf]; [cbn in L; lia|]. cbn [length] in L. inversion B as [|? ? Bv B']; subst.
  destruct (split_at 4 buf ltac:(lia)) as (x & r & -> & Lx). apply Forall_app in B' as [Bx Br].
  destruct (seg_val x 4 Lx Bx) as [Ex Hv]. remember (be_val x) as n. subst x. rewrite bmphdr_dec by exact Hv. destruct (N.eqb_spec v 3) as [->|Hn].
  - split; [reflexivity|]. split; [reflexivity|]. split; [exact Hv|]. exists r. reflexivity.
  - exists v. eexists. split; [reflexivity|exact Hn].
Qed.

(** ** Whole messages *)
Lemma wz_tail {A} z code (e : Enc A) bs a : wz z 0 e bs a ->
  wz z 0 (set_idx 0 code ;;; on_from 1 e) (code :: bs) a.
Proof.
  intros H. change (code :: bs) with ([code] ++ bs). eapply wz_next with (q := 1%nat); [apply wz_writes, writes_at_set_idx|reflexivity|apply wz_on_from, H|reflexivity].
Qed.
Lemma wz_put z code (e : Enc nat) bs n : wz z 0 e bs n -> wz z 0 (set_idx 0 code ;;; n <~ on_from 1 e ;; eret (1 + n)%nat) (code :: bs) (S n).
Proof.
  intros H. change (code :: bs) with ([code] ++ bs). eapply wz_next with (q := 1%nat); [apply wz_writes, writes_at_set_idx|reflexivity| |reflexivity].
  rewrite <- (app_nil_r bs). eapply wz_next; [apply wz_on_from, H|reflexivity|apply wz_ret; reflexivity|symmetry; apply Bool.orb_false_r].
Qed.
Lemma msg_nonempty m : (1 <= length (msg_wire m))%nat.
Proof. destruct m; cbn [msg_wire length]; lia. Qed.
Lemma bmp_encode_wire oc m : msg_wf m -> msg_sendable m -> wz (msg_zeroes m) 0 (bmp_encode oc m) (msg_wire m) (length (msg_wire m)).
Proof.
  intros W S buf L. unfold bmp_encode, ebind at 1, elen. pose proof (msg_nonempty m).
  replace (Nat.eqb (length buf) 0) with false by (symmetry; apply Nat.eqb_neq; lia). cbv beta iota zeta.
  destruct m as [m| |m|m|m|m|]; try contradiction; cbn [msg_zeroes msg_wire].
  - destruct W as [W V]. exact (wz_put _ 0 _ _ _ (wz_rmon oc m W) buf L).
  - destruct W as [W V]. exact (wz_put _ 2 _ _ _ (wz_down oc m W) buf L).
  - destruct W as (W & V). exact (wz_put _ 3 _ _ _ (wz_up oc m W) buf L).
  - destruct S as [S1 S2]. assert (E : init_wire m = init_sent m) by (unfold init_wire, init_sent; now rewrite S1, S2).
    cbn [msg_wire] in L. rewrite E in *. exact (wz_put _ 4 _ _ _ (wz_writes _ _ _ _ (writes_init m)) buf L).
  - exact (wz_put _ 5 _ _ _ (wz_writes _ _ _ _ (writes_term m)) buf L).
Qed.
Lemma bmp_decode_wire oc m : msg_wf m -> bmp_decode oc (msg_wire m) = Ok (msg_seen m).
Proof.
  intros W. unfold bmp_decode. destruct m as [m| |m|m|m|m|]; cbn [msg_wire]; change (idx (?a :: ?b) 0) with (Ok a); rewrite ?bind_ok; cbn [N.eqb Pos.eqb];
    try reflexivity; change (rfrom (?a :: ?b) 1) with (Ok b); rewrite bind_ok.
  - destruct W as [W V]. unfold rmon_decode. pose proof (rmon_decode_wire oc params_of_peer m [] W V) as E. rewrite app_nil_r in E. change (params_of_peer (rm_peer m)) with (default_session (rm_peer m)) in E. rewrite E. reflexivity.
  - destruct W as [W V]. pose proof (down_decode_wire oc m [] W V) as E. rewrite app_nil_r in E. rewrite E. reflexivity.
  - destruct W as (W & V1 & V2). pose proof (up_decode_wire oc m [] W V1 V2) as E. rewrite app_nil_r in E. rewrite E. reflexivity.
  - rewrite init_decode_wire by exact W. reflexivity.
  - rewrite term_decode_wire by exact W. reflexivity.
Qed.
Lemma unimplemented_kinds oc b buf : bmp_encode oc StatisticsReport (b :: buf) = Panic /\ bmp_encode oc RouteMirroring (b :: buf) = Panic.
Proof. split; reflexivity. Qed.

(** ** Panics *)
Lemma body_panic_iff oc want buf pos : bytes_ok buf -> (pos <= length buf)%nat -> bgp_body oc want buf pos = Panic <-> body_outside oc want buf pos.
Proof.
  intros B L. pose proof (body_spec oc want buf pos B L) as S. destruct (bgp_body oc want buf pos) as [[b q]|e| |]; split; try discriminate; try tauto; auto.
Qed.
Lemma header_unique buf t t' len len' : is_header buf t len -> is_header buf t' len' -> t = t' /\ len = len'.
Proof.
  intros (_ & _ & E1 & C1) (_ & _ & E2 & C2). rewrite C1 in C2. split; [|congruence]. apply code_inj. change (msg_code t = msg_code t'). congruence.
Qed.
Lemma body_ok_iff oc want buf pos b q : bytes_ok buf -> (pos <= length buf)%nat -> bgp_body oc want buf pos = Ok (b, q) <-> body_at oc want buf pos b q.
Proof.
  intros B L. pose proof (body_spec oc want buf pos B L) as S. split.
  - intros E. rewrite E in S. apply S.
  - intros (len & Hh & Ho & Hq & Hl & ->). assert (NO : ~ body_outside oc want buf pos).
    { intros (t & len' & Hh' & D). destruct (header_unique _ _ _ _ _ Hh Hh') as [<- <-]. destruct D as [[D1 D2]|[_ D]]; [rewrite Ho in D2 by exact D1; discriminate|lia]. }
    pose proof (head_spec oc (skipn pos buf) (Forall_skipn _ _ _ B)) as H.
    destruct (bgp_body oc want buf pos) as [[b' q']|e| |] eqn:E; [| |tauto|tauto].
    + destruct S as ((len' & Hh' & _ & Hq' & _ & ->) & _). destruct (header_unique _ _ _ _ _ Hh Hh') as [_ <-]. assert (q = q') by lia. now subst.
    + exfalso. unfold bgp_body in E. rewrite rfrom_ok, bind_ok in E by exact L. destruct (decode_message_head oc (skipn pos buf)) as [[t n]|e'| |]; cbn [bind] in E.
      * destruct H as (len' & Hh' & Hn). destruct (header_unique _ _ _ _ _ Hh Hh') as [<- <-]. rewrite N.eqb_refl in E. cbn [negb] in E.
        unfold rslice in E. destruct (_ && _)%bool in E; discriminate.
      * exact (H _ _ Hh).
      * discriminate.
      * exact H.
Qed.
Lemma outside_len oc want buf pos : body_outside oc want buf pos -> (pos + 19 <= length buf)%nat.
Proof. intros (t & len & (H & _) & _). rewrite skipn_length in H. lia. Qed.
Lemma peer_ok buf : bytes_ok buf -> (42 <= length buf)%nat -> exists h rest, buf = peer_wire h ++ rest /\ peer_wf h /\ ~ v4_like (ph_addr h) /\ peerhdr_decode buf = Ok (h, 42%nat).
Proof.
  intros B L. destruct (peer_parse buf B L) as (h & rest & -> & W & V). exists h, rest. repeat split; auto; try apply W. now apply peer_decode_wire.
Qed.
Lemma down_panic_iff oc buf : bytes_ok buf -> peerdown_decode oc buf = Panic <-> down_panics oc buf.
Proof.
  intros B. unfold peerdown_decode, down_panics. destruct (Nat.ltb_spec (length buf) 43) as [L|L].
  { split; [discriminate|]. intros (_ & H). apply outside_len in H. lia. }
  destruct (peer_ok buf B ltac:(lia)) as (h & rest & _ & _ & _ & ->). rewrite bind_ok.
  destruct (nth_error buf 42) as [c|] eqn:E; [|apply nth_error_None in E; lia]. unfold idx. rewrite E, bind_ok. cbv zeta.
  assert (G : forall mk : notifMsg -> downreason, ('(b, pos) <- bgp_body oc MNotification buf (42 + 1) ;; m <- notif_decode notif_new b ;; Ok (mkDown h (mk m), pos)) = Panic <-> body_outside oc MNotification buf 43).
  { intros mk. change (42 + 1)%nat with 43%nat. rewrite <- (body_panic_iff oc MNotification buf 43 B L). destruct (bgp_body _ _ _ _) as [[b q]|e| |]; cbn [bind]; split; try discriminate; auto.
    pose proof (notif_total notif_new b) as T. destruct (notif_decode _ _); cbn [bind]; (discriminate || contradiction). }
  destruct (N.eqb_spec c 1) as [->|]; [rewrite G; tauto|]. destruct (N.eqb_spec c 2) as [->|].
  { split; [|intros ([H|H] & _); discriminate]. destruct (Nat.ltb_spec (length buf - (42 + 1)) 2); [discriminate|]. rewrite rslice_ok by lia. discriminate. }
  destruct (N.eqb_spec c 3) as [->|]; [rewrite G; tauto|]. split; [|intros ([H|H] & _); congruence].
  destruct (c =? 4); [discriminate|]. destruct (c =? 5); discriminate.
Qed.
Lemma up_front buf : bytes_ok buf -> (62 <= length buf)%nat -> exists h la lp rp, forall oc,
  peerup_decode oc buf = ('(b, pos) <- bgp_body oc MOpen buf 62 ;;
  msg1 <- open_decode open_new b ;;
  '(b, pos) <- bgp_body oc MOpen buf pos ;;
  msg2 <- open_decode open_new b ;;
  Ok (mkUp h la lp rp msg1 msg2, pos)).
Proof.
  intros B L. destruct (peer_ok buf B ltac:(lia)) as (h & rest & _ & _ & _ & E).
  assert (BA : bytes_ok (firstn 16 (skipn 42 buf))) by (apply Forall_firstn, Forall_skipn, B).
  pose proof (addr_decode_total (skipn 42 buf) BA) as A. destruct (bmp_addr_decode (skipn 42 buf)) as [la|e| |] eqn:Ea; [|exfalso..].
  2:{ destruct e; try contradiction; rewrite skipn_length in A; lia. }
  2,3: contradiction.
  destruct (getn_u16_cases (skipn 58 buf)) as [(lp & El & _)|(_ & H)]; [|rewrite skipn_length in H; lia].
  destruct (getn_u16_cases (skipn 60 buf)) as [(rp & Er & _)|(_ & H)]; [|rewrite skipn_length in H; lia].
  exists h, la, lp, rp. intros oc. unfold peerup_decode. replace (Nat.ltb _ _) with false by (symmetry; apply Nat.ltb_ge; lia).
  rewrite E, bind_ok. cbn [Nat.add]. rewrite (rfrom_ok buf 42), (rfrom_ok buf 58), (rfrom_ok buf 60) by lia.
  rewrite bind_ok, Ea, !bind_ok, El, !bind_ok, Er, !bind_ok. reflexivity.
Qed.
Lemma up_panic_iff oc buf : bytes_ok buf -> peerup_decode oc buf = Panic <-> up_panics oc buf.
Proof.
  intros B. destruct (Nat.ltb_spec (length buf) 62) as [L|L].
  { unfold peerup_decode. rewrite (proj2 (Nat.ltb_lt _ _) L). split; [discriminate|]. intros [H|(o & q & m & H & _)]; [apply outside_len in H; lia|].
    destruct H as (len & (H & _) & _). rewrite skipn_length in H. lia. }
  destruct (up_front buf B L) as (h & la & lp & rp & E). rewrite E. clear E. unfold up_panics.
  pose proof (body_spec oc MOpen buf 62 B L) as S. destruct (bgp_body oc MOpen buf 62) as [[o q]|e| |] eqn:E; cbn [bind].
  - destruct S as (A & Lq & NO). pose proof (open_decode_total open_new o) as T. destruct (open_decode open_new o) as [m|e| |] eqn:Eo; cbn [bind]; try contradiction.
    + rewrite <- body_ok_iff in A by assumption. transitivity (body_outside oc MOpen buf q).
      * rewrite <- (body_panic_iff oc MOpen buf q B) by lia. destruct (bgp_body oc MOpen buf q) as [[o2 q2]|e| |]; cbn [bind]; split; try discriminate; auto.
        pose proof (open_decode_total open_new o2) as T2. destruct (open_decode open_new o2); cbn [bind]; (discriminate || contradiction).
      * split; [intros H; right; exists o, q, m; split; [|auto]; now apply body_ok_iff|].
        intros [H|(o' & q' & m' & H1 & H2 & H3)]; [contradiction|]. apply body_ok_iff in H1; [|assumption..]. rewrite E in H1. injection H1 as <- <-. exact H3.
    + split; [discriminate|]. intros [H|(o' & q' & m' & H1 & H2 & H3)]; [contradiction|]. apply body_ok_iff in H1; [|assumption..]. rewrite E in H1. injection H1 as <- <-. congruence.
  - split; [discriminate|]. intros [H|(o' & q' & m' & H1 & H2 & H3)]; [contradiction|]. apply body_ok_iff in H1; [|assumption..]. congruence.
  - split; auto.
  - contradiction.
Qed.
Lemma peer_wire_inj h h' r r' : peer_wf h -> peer_wf h' -> ~ v4_like (ph_addr h) -> ~ v4_like (ph_addr h') -> peer_wire h ++ r = peer_wire h' ++ r' -> h = h'.
Proof.
  intros W W' V V' E. pose proof (peer_decode_wire h r W V) as D. rewrite E, peer_decode_wire in D by assumption. congruence.
Qed.
Lemma rmon_panic_iff oc pars buf : bytes_ok buf -> (exists e, rmon_decode_with oc pars buf = e /\ e = Panic) <-> rmon_panics oc pars buf.
Proof.
  intros B. unfold rmon_decode_with, rmon_panics. destruct (Nat.ltb_spec (length buf) 62) as [L|L].
  { split; [intros (e & <- & H); discriminate|]. intros (H & _). lia. }
  destruct (peer_ok buf B ltac:(lia)) as (h & rest & Eb & W & V & ->). rewrite bind_ok. pose proof (body_spec oc MUpdate buf 42 B ltac:(lia)) as S.
  destruct (bgp_body oc MUpdate buf 42) as [[u q]|e| |] eqn:E; cbn [bind].
  - destruct S as (A & Lq & NO). split.
    + intros (e & <- & H). split; [exact L|right]. exists h, rest, u, q. repeat split; auto; try apply W. destruct (update_decode _ _ _ _); cbn [bind] in H; (discriminate || reflexivity).
    + intros (_ & [H|(h' & rest' & u' & q' & Eb' & W' & V' & H1 & H2)]); [contradiction|]. rewrite Eb in Eb'. apply peer_wire_inj in Eb' as <-; try assumption.
      apply body_ok_iff in H1; [|assumption|lia]. rewrite E in H1. injection H1 as <- <-. rewrite H2. eexists. split; reflexivity.
  - split; [intros (e' & <- & H); discriminate|]. intros (_ & [H|(h' & rest' & u' & q' & Eb' & W' & V' & H1 & H2)]); [contradiction|].
    apply body_ok_iff in H1; [|assumption|lia]. congruence.
  - split; [intros _; split; [exact L|now left]|]. intros _. eexists. split; reflexivity.
  - contradiction.
Qed.
Lemma init_no_panic buf : bytes_ok buf -> init_decode buf <> Panic /\ init_decode buf <> OutOfFuel.
Proof. intros B. pose proof (init_total buf B) as T. destruct (init_decode buf); split; (discriminate || contradiction). Qed.
Lemma bmp_panic_iff oc buf : bytes_ok buf -> bmp_decode oc buf = Panic <-> bmp_panics oc params_of_peer buf.
Proof.
  intros B. destruct buf as [|t b]; [split; [intros _; exact I|reflexivity]|]. inversion B as [|? ? Bt Bb]; subst.
  assert (G : forall A (x : res (A * nat)) (mk : A -> bmpmsg), ('(m, _) <- x ;; Ok (mk m)) = Panic <-> x = Panic).
  { intros A x mk. destruct x as [[? ?]|?| |]; cbn [bind]; split; (discriminate || reflexivity). }
  unfold bmp_decode. change (idx (t :: b) 0) with (Ok t). change (rfrom (t :: b) 1) with (Ok b). rewrite !bind_ok.
  destruct (N.eqb_spec t 0) as [->|H0]; [rewrite G; cbn [bmp_panics]; rewrite <- rmon_panic_iff by exact Bb; unfold rmon_decode; split; [intros H; eexists; split; [reflexivity|exact H]|intros (e & <- & H); exact H]|].
  destruct (N.eqb_spec t 1) as [->|H1]; [split; [discriminate|intros []]|].
  destruct (N.eqb_spec t 2) as [->|H2]; [rewrite G; cbn [bmp_panics]; now apply down_panic_iff|].
  destruct (N.eqb_spec t 3) as [->|H3]; [rewrite G; cbn [bmp_panics]; now apply up_panic_iff|].
  destruct (N.eqb_spec t 4) as [->|H4]; [rewrite G; split; [intros H; now apply init_no_panic in H|intros []]|].
  destruct (N.eqb_spec t 5) as [->|H5]; [rewrite G; cbn [bmp_panics]; now apply term_panic_iff|].
  assert (E : bmp_panics oc params_of_peer (t :: b) = False).
  { destruct t as [|p]; [congruence|]. do 3 (destruct p as [p|p|]; try reflexivity; try congruence). }
  rewrite E. destruct (t =? 6); split; (discriminate || contradiction).
Qed.

(** messages cut inside an embedded BGP message *)
Lemma cut_outside oc t body pre k p : N.of_nat (length body) <= 65516 -> (19 <= k < 19 + length body)%nat -> p = length pre ->
  body_outside oc t (pre ++ firstn k (S_Open.frame (t, body))) p.
Proof.
  intros Hb [K1 K2] ->. exists t, (N.of_nat (length body + 19)). assert (Lf : length (firstn k (S_Open.frame (t, body))) = k) by (rewrite firstn_length, length_frame'; lia).
  assert (E : firstn k (S_Open.frame (t, body)) = header t (length body) ++ firstn (k - 19) body).
  { unfold S_Open.frame. cbn [fst snd]. rewrite firstn_app, length_header. rewrite firstn_all2 by (rewrite length_header; lia). reflexivity. }
  rewrite skipn_app_exact by reflexivity. split.
  - split; [lia|]. rewrite E. split; [reflexivity|]. split; [|reflexivity].
    change (sub (header t (length body) ++ firstn (k - 19) body) 16 18) with (be_bytes 2 (N.of_nat (length body + 19))).
    apply be_val_be_bytes. change (2 ^ (8 * N.of_nat 2)) with 65536. lia.
  - right. split; [reflexivity|]. rewrite app_length, Lf. unfold wrapped. replace (_ <? 19) with false by (symmetry; apply N.ltb_ge; lia). lia.
Qed.
Lemma peer_bytes h : peer_wf h -> bytes_ok (peer_wire h).
Proof.
  intros (H1 & H2 & H3 & H4 & _). unfold peer_wire, rd_wire. apply Forall_app. split; [constructor; [exact H1|constructor; [exact H2|constructor]]|].
  repeat (apply Forall_app; split); try apply be_bytes_ok. destruct (ph_addr h); cbn [addr_field]; [apply Forall_app; split; [|apply be_bytes_ok]|apply be_bytes_ok].
  cbn. repeat (apply Forall_cons; [reflexivity|]). apply Forall_nil.
Qed.
Lemma header_bytes t n : bytes_ok (header t n).
Proof.
  unfold header. apply Forall_app. split; [cbn; repeat (apply Forall_cons; [reflexivity|]); apply Forall_nil|]. apply Forall_app. split; [apply be_bytes_ok|].
  apply Forall_cons; [destruct t; reflexivity|apply Forall_nil].
Qed.
Lemma frame_bytes t b : bytes_ok b -> bytes_ok (S_Open.frame (t, b)).
Proof. intros H. apply Forall_app. split; [apply header_bytes|exact H]. Qed.
Lemma cut_down oc h body code k : peer_wf h -> (code = 1 \/ code = 3) -> bytes_ok body -> N.of_nat (length body) <= 65516 -> (19 <= k < 19 + length body)%nat ->
  bmp_decode oc (2 :: peer_wire h ++ [code] ++ firstn k (S_Open.frame (MNotification, body))) = Panic.
Proof.
  intros W C Bb Hb K. apply bmp_panic_iff.
  - constructor; [reflexivity|]. apply Forall_app. split; [now apply peer_bytes|]. apply Forall_app. split; [constructor; [destruct C as [-> | ->]; reflexivity|constructor]|].
    apply Forall_firstn. now apply frame_bytes.
  - cbn [bmp_panics]. split.
    + rewrite nth_error_app2 by (rewrite length_peer; lia). rewrite length_peer, Nat.sub_diag. destruct C as [-> | ->]; auto.
    + rewrite app_assoc. apply cut_outside; [assumption..|now rewrite app_length, length_peer].
Qed.
Lemma cut_rmon oc h body k : peer_wf h -> bytes_ok body -> N.of_nat (length body) <= 65516 -> (20 <= k < 19 + length body)%nat ->
  bmp_decode oc (0 :: peer_wire h ++ firstn k (S_Open.frame (MUpdate, body))) = Panic.
Proof.
  intros W Bb Hb K. apply bmp_panic_iff.
  - constructor; [reflexivity|]. apply Forall_app. split; [now apply peer_bytes|]. apply Forall_firstn. now apply frame_bytes.
  - cbn [bmp_panics]. split; [rewrite app_length, length_peer, firstn_length, length_frame'; lia|]. left.
    apply cut_outside; [exact Hb|lia|now rewrite length_peer].
Qed.
Lemma cut_up1 oc m body k : up_wf m -> bytes_ok body -> N.of_nat (length body) <= 65516 -> (19 <= k < 19 + length body)%nat ->
  bmp_decode oc (3 :: up_head m ++ firstn k (S_Open.frame (MOpen, body))) = Panic.
Proof.
  intros (W & Wl & _) Bb Hb K. apply bmp_panic_iff.
  - constructor; [reflexivity|]. apply Forall_app. split; [|apply Forall_firstn; now apply frame_bytes]. unfold up_head.
    apply Forall_app; split; [now apply peer_bytes|]. apply Forall_app; split; [|apply Forall_app; split; apply be_bytes_ok]. destruct (pu_local m); cbn [addr_field]; [apply Forall_app; split; [|apply be_bytes_ok]|apply be_bytes_ok].
    cbn. repeat (apply Forall_cons; [reflexivity|]). apply Forall_nil.
  - cbn [bmp_panics]. left. apply cut_outside; [assumption..|now rewrite length_head].
Qed.
Lemma empty_panics oc : bmp_decode oc [] = Panic. Proof. reflexivity. Qed.

(** ** Fuel *)
Lemma nf_u64 l : nf (getn_u64 l).
Proof. unfold getn_u64. repeat (apply nf_bind; [first [nf1|apply nf_rslice|apply nf_idx]|intros ?]); nfs. Qed.
Lemma nf_addr16 buf : nf (bmp_addr_decode buf).
Proof. unfold bmp_addr_decode. nfs. Qed.
Lemma nf_peer buf : nf (peerhdr_decode buf).
Proof. unfold peerhdr_decode. repeat first [progress nfs|apply nf_addr16|apply nf_u64]. Qed.
Lemma nf_body oc want buf pos : nf (bgp_body oc want buf pos).
Proof. unfold bgp_body, decode_message_head, msgtype_decode. nfs. Qed.
Lemma nf_open self b : nf (open_decode self b).
Proof. intros E. pose proof (open_decode_total self b) as T. now rewrite E in T. Qed.
Lemma nf_notif self b : nf (notif_decode self b).
Proof. intros E. pose proof (notif_total self b) as T. now rewrite E in T. Qed.
Lemma nf_up oc buf : nf (peerup_decode oc buf).
Proof. unfold peerup_decode. repeat first [progress nfs|apply nf_addr16|apply nf_peer|apply nf_body|apply nf_open]. Qed.
Lemma nf_down oc buf : nf (peerdown_decode oc buf).
Proof. unfold peerdown_decode. repeat first [progress nfs|apply nf_peer|apply nf_body|apply nf_notif]. Qed.
Lemma nf_rmon oc pars buf : nf (rmon_decode_with oc pars buf).
Proof. unfold rmon_decode_with. repeat first [progress nfs|apply nf_peer|apply nf_body|apply update_decode_nf]. Qed.
Lemma bmp_nf oc buf : bytes_ok buf -> bmp_decode oc buf <> OutOfFuel.
Proof.
  intros B. change (nf (bmp_decode oc buf)). unfold bmp_decode. apply nf_bind; [nf1|intros t].
  assert (F : forall x, rfrom buf 1 = Ok x -> bytes_ok x) by (intros x E; apply rfrom_Ok_inv in E as [_ ->]; now apply Forall_skipn).
  repeat match goal with |- nf (if ?c then _ else _) => destruct c end; try nf1; (apply nf_bind_ok; [nf1|intros s Es]); apply nf_bind; try (intros [? ?]; nf1).
  - apply nf_rmon.
  - apply nf_down.
  - apply nf_up.
  - apply init_no_panic. auto.
  - apply term_decode_nf. auto.
Qed.

(** ** Sessions *)
Lemma laws_skey : ord_laws oskey (fun k => k).
Proof. eapply laws_ext; [eapply laws_fields; [eapply laws_rd|eapply laws_ip]|]. intros [] []; cbn; split; congruence. Qed.
Lemma key_eq a b : ocmp oskey a b = Eq <-> a = b.
Proof. apply (law_cmp_eq _ _ laws_skey). Qed.
Lemma key_gt a b : ocmp oskey a b = Gt <-> ocmp oskey b a = Lt.
Proof. rewrite (law_cmp_opp _ _ laws_skey a b). destruct (ocmp oskey a b); cbn; split; congruence. Qed.
Lemma key_trans a b c : ocmp oskey a b = Lt -> ocmp oskey b c = Lt -> ocmp oskey a c = Lt.
Proof. apply (law_cmp_trans _ _ laws_skey). Qed.
Lemma key_irr a : ocmp oskey a a <> Lt.
Proof. rewrite (proj2 (key_eq a a) eq_refl). discriminate. Qed.
Lemma key_dec (a b : skey) : {a = b} + {a <> b}.
Proof. destruct (ocmp oskey a b) eqn:E; [left; now apply key_eq|right; intros ->; rewrite (proj2 (key_eq b b) eq_refl) in E; discriminate..]. Qed.
Lemma tab_get_low k t : Forall (fun e => ocmp oskey k (fst e) = Lt) t -> tab_get k t = None.
Proof. destruct t as [|[k' v] t]; [reflexivity|]. intros H. inversion H as [|? ? H1 H2]; subst. cbn [tab_get]. cbn [fst] in H1. now rewrite H1. Qed.
Lemma forall_low k k' (t : table) : ocmp oskey k k' = Lt -> Forall (fun e => ocmp oskey k' (fst e) = Lt) t -> Forall (fun e => ocmp oskey k (fst e) = Lt) t.
Proof. intros H. apply Forall_impl. intros e. now apply key_trans. Qed.
Lemma tab_insert_forall k v t (P : skey -> Prop) : P k -> Forall (fun e : skey * peerup => P (fst e)) t -> Forall (fun e => P (fst e)) (tab_insert k v t).
Proof.
  intros Hk. induction t as [|[k' v'] t IH]; intros H; cbn [tab_insert]; [constructor; auto|]. inversion H as [|? ? H1 H2]; subst.
  destruct (ocmp oskey k k'); constructor; auto.
Qed.
Lemma tab_remove_forall k t (P : skey -> Prop) : Forall (fun e : skey * peerup => P (fst e)) t -> Forall (fun e => P (fst e)) (tab_remove k t).
Proof.
  induction t as [|[k' v'] t IH]; intros H; cbn [tab_remove]; [constructor|]. inversion H as [|? ? H1 H2]; subst. destruct (ocmp oskey k k'); auto.
Qed.
Lemma tab_insert_asc k v t : ascending t -> ascending (tab_insert k v t).
Proof.
  induction t as [|[k' v'] t IH]; cbn [tab_insert ascending]; [intros _; split; constructor|]. intros [H1 H2]. destruct (ocmp oskey k k') eqn:E; cbn [ascending].
  - auto.
  - split; [|split; auto]. constructor; [exact E|]. now apply (forall_low k k').
  - split; [|auto]. apply key_gt in E. apply (tab_insert_forall k v t (fun x => ocmp oskey k' x = Lt)); assumption.
Qed.
Lemma tab_remove_asc k t : ascending t -> ascending (tab_remove k t).
Proof.
  induction t as [|[k' v'] t IH]; cbn [tab_remove ascending]; [auto|]. intros [H1 H2]. destruct (ocmp oskey k k') eqn:E; cbn [ascending]; auto.
  split; [|auto]. apply (tab_remove_forall k t (fun x => ocmp oskey k' x = Lt)); assumption.
Qed.
Lemma tab_get_insert k v t q : ascending t -> tab_get q (tab_insert k v t) = if key_dec q k then Some v else tab_get q t.
Proof.
  induction t as [|[k' v'] t IH]; cbn [tab_insert ascending].
  - intros _. cbn [tab_get]. destruct (ocmp oskey q k) eqn:E; destruct (key_dec q k) as [D|D]; try reflexivity.
    + apply key_eq in E. contradiction.
    + subst. now rewrite (proj2 (key_eq k k) eq_refl) in E.
    + subst. now rewrite (proj2 (key_eq k k) eq_refl) in E.
  - intros [H1 H2]. destruct (ocmp oskey k k') eqn:E; cbn [tab_get].
    + apply key_eq in E as ->. destruct (ocmp oskey q k') eqn:Q; destruct (key_dec q k') as [D|D]; try reflexivity.
      * apply key_eq in Q. contradiction.
      * subst. now rewrite (proj2 (key_eq k' k') eq_refl) in Q.
      * subst. now rewrite (proj2 (key_eq k' k') eq_refl) in Q.
    + destruct (ocmp oskey q k) eqn:Q; destruct (key_dec q k) as [D|D]; try reflexivity.
      * apply key_eq in Q. contradiction.
      * subst. now rewrite (proj2 (key_eq k k) eq_refl) in Q.
      * now rewrite (key_trans _ _ _ Q E).
      * subst. now rewrite (proj2 (key_eq k k) eq_refl) in Q.
    + destruct (ocmp oskey q k') eqn:Q.
      * apply key_eq in Q as ->. destruct (key_dec k' k) as [->|D]; [|reflexivity]. now rewrite (proj2 (key_eq k k) eq_refl) in E.
      * destruct (key_dec q k) as [->|D]; [|reflexivity]. congruence.
      * apply IH. exact H2.
Qed.
Lemma tab_get_remove k t q : ascending t -> tab_get q (tab_remove k t) = if key_dec q k then None else tab_get q t.
Proof.
  induction t as [|[k' v'] t IH]; cbn [tab_remove ascending].
  - intros _. cbn [tab_get]. now destruct (key_dec q k).
  - intros [H1 H2]. destruct (ocmp oskey k k') eqn:E; cbn [tab_get].
    + apply key_eq in E as ->. destruct (key_dec q k') as [->|D]; [now apply tab_get_low|]. destruct (ocmp oskey q k') eqn:Q; [apply key_eq in Q; contradiction| |reflexivity].
      apply tab_get_low. now apply (forall_low q k').
    + destruct (ocmp oskey q k') eqn:Q; destruct (key_dec q k) as [D|D]; try reflexivity; subst; congruence.
    + destruct (ocmp oskey q k') eqn:Q.
      * apply key_eq in Q as ->. destruct (key_dec k' k) as [->|D]; [|reflexivity]. now rewrite (proj2 (key_eq k k) eq_refl) in E.
      * destruct (key_dec q k) as [->|D]; [|reflexivity]. reflexivity.
      * apply IH. exact H2.
Qed.

Lemma session_run_snoc oc t bufs b : session_run oc t (bufs ++ [b]) = snd (session_decode oc (session_run oc t bufs) b).
Proof. revert t. induction bufs as [|x bufs IH]; intros t; [reflexivity|]. cbn [app session_run]. apply IH. Qed.
Definition apply_event (e : event) (t : table) : table :=
  match e with EvNone => t | EvUp m => tab_insert (key_of (pu_peer m)) m t | EvDown m => tab_remove (key_of (pd_peer m)) t end.
Lemma session_event oc t b : snd (session_decode oc t b) = apply_event (event_of oc b) t.
Proof.
  destruct b as [|ty b]; [reflexivity|]. unfold session_decode. change (idx (ty :: b) 0) with (Ok ty). change (rfrom (ty :: b) 1) with (Ok b). rewrite !bind_ok.
  destruct (N.eqb_spec ty 0) as [->|H0]; [reflexivity|]. destruct (N.eqb_spec ty 1) as [->|H1]; [reflexivity|].
  destruct (N.eqb_spec ty 2) as [->|H2]; [cbn [event_of]; destruct (peerdown_decode oc b) as [[m n]|e| |]; reflexivity|].
  destruct (N.eqb_spec ty 3) as [->|H3]; [cbn [event_of]; destruct (peerup_decode oc b) as [[m n]|e| |]; reflexivity|].
  assert (E : event_of oc (ty :: b) = EvNone).
  { destruct ty as [|p]; [congruence|]. destruct p as [p|p|]; try congruence; destruct p as [p|p|]; try reflexivity; congruence. }
  rewrite E. repeat match goal with |- snd (if ?c then _ else _) = _ => destruct c end; reflexivity.
Qed.
Lemma run_asc oc t bufs : ascending t -> ascending (session_run oc t bufs).
Proof.
  revert t. induction bufs as [|b bufs IH]; intros t H; [exact H|]. cbn [session_run]. apply IH. rewrite session_event.
  destruct (event_of oc b); cbn [apply_event]; [exact H|now apply tab_insert_asc|now apply tab_remove_asc].
Qed.
Lemma session_history oc t0 bufs k : ascending t0 ->
  up_after k (tab_get k t0) (map (event_of oc) bufs) (tab_get k (session_run oc t0 bufs)).
Proof.
  intros H. induction bufs as [|b bufs IH] using rev_ind; [apply up_start|]. rewrite map_app, session_run_snoc, session_event. cbn [map].
  pose proof (run_asc oc t0 bufs H) as A. destruct (event_of oc b) as [|m|m]; cbn [apply_event].
  - now apply up_none.
  - rewrite tab_get_insert by exact A. destruct (key_dec k _) as [D|D]; [eapply up_up; [exact IH|auto]|apply up_other; [exact IH|auto]].
  - rewrite tab_get_remove by exact A. destruct (key_dec k _) as [D|D]; [eapply up_down; [exact IH|auto]|apply up_other; [exact IH|auto]].
Qed.
(** the specification determines the answer *)
Lemma up_after_snoc k s evs e r : up_after k s (evs ++ [e]) r -> exists r0, up_after k s evs r0 /\
  match e with EvNone => r = r0 | EvUp m => (key_of (pu_peer m) = k /\ r = Some m) \/ (key_of (pu_peer m) <> k /\ r = r0)
  | EvDown m => (key_of (pd_peer m) = k /\ r = None) \/ (key_of (pd_peer m) <> k /\ r = r0) end.
Proof.
  intros H. remember (evs ++ [e]) as l eqn:E. destruct H as [|evs' r H|evs' r e' H C|evs' r m H C|evs' r m H C].
  - now destruct evs.
  - apply app_inj_tail in E as [<- <-]. eauto.
  - apply app_inj_tail in E as [<- <-]. exists r. split; [exact H|]. destruct e'; [contradiction|auto..].
  - apply app_inj_tail in E as [<- <-]. eauto.
  - apply app_inj_tail in E as [<- <-]. eauto.
Qed.
Lemma up_after_det k s evs r1 r2 : up_after k s evs r1 -> up_after k s evs r2 -> r1 = r2.
Proof.
  revert r1 r2. induction evs as [|e evs IH] using rev_ind; intros r1 r2 H1 H2.
  - assert (G : forall r, up_after k s [] r -> r = s) by (intros r H; remember [] as l eqn:E; destruct H; try reflexivity; now destruct evs).
    rewrite (G r1 H1), (G r2 H2). reflexivity.
  - apply up_after_snoc in H1 as (a & Ha & C1). apply up_after_snoc in H2 as (b & Hb & C2). pose proof (IH a b Ha Hb) as ->. destruct e; [congruence|intuition congruence..].
Qed.
Lemma session_result oc t ty b : ty <> 0 -> fst (session_decode oc t (ty :: b)) = bmp_decode oc (ty :: b).
Proof.
  intros H0. unfold session_decode, bmp_decode. change (idx (ty :: b) 0) with (Ok ty). change (rfrom (ty :: b) 1) with (Ok b). rewrite !bind_ok.
  rewrite (proj2 (N.eqb_neq ty 0) H0). destruct (ty =? 1); [reflexivity|].
  destruct (ty =? 2); [destruct (peerdown_decode oc b) as [[m n]|e| |]; reflexivity|].
  destruct (ty =? 3); [destruct (peerup_decode oc b) as [[m n]|e| |]; reflexivity|].
  destruct (ty =? 4); [reflexivity|]. destruct (ty =? 5); [reflexivity|]. destruct (ty =? 6); reflexivity.
Qed.
Lemma session_rmon oc t b : session_decode oc t (0 :: b) = ('(m, _) <- rmon_decode_with oc (session_params t) b ;; Ok (RouteMonitoring m), t).
Proof. unfold session_decode. change (idx (0 :: b) 0) with (Ok 0). change (rfrom (0 :: b) 1) with (Ok b). now rewrite !bind_ok. Qed.
Lemma session_panic_iff oc t buf : bytes_ok buf -> fst (session_decode oc t buf) = Panic <-> bmp_panics oc (session_params t) buf.
Proof.
  intros B. destruct buf as [|ty b]; [split; [intros _; exact I|reflexivity]|]. destruct (N.eqb_spec ty 0) as [->|H].
  - inversion B as [|? ? _ Bb]; subst. rewrite session_rmon. cbn [fst bmp_panics]. rewrite <- rmon_panic_iff by exact Bb.
    destruct (rmon_decode_with oc (session_params t) b) as [[m n]|e| |]; cbn [bind]; split; try discriminate; eauto; intros (e' & <- & E); discriminate.
  - rewrite session_result by exact H. rewrite bmp_panic_iff by exact B. destruct ty as [|p]; [congruence|]. do 3 (destruct p as [p|p|]; try reflexivity).
Qed.
Lemma session_nf oc t buf : bytes_ok buf -> fst (session_decode oc t buf) <> OutOfFuel.
Proof.
  intros B. destruct buf as [|ty b]; [discriminate|]. destruct (N.eqb_spec ty 0) as [->|H].
  - rewrite session_rmon. cbn [fst]. apply nf_bind; [apply nf_rmon|intros [? ?]; nf1].
  - rewrite session_result by exact H. now apply bmp_nf.
Qed.
Lemma session_params_down t h : tab_get (key_of h) t = None -> session_params t h = params_of_peer h.
Proof. intros H. unfold session_params. now rewrite H. Qed.
Lemma session_params_up t h m : tab_get (key_of h) t = Some m -> op_rid (pu_msg2 m) = ph_rid (pu_peer m) -> op_rid (pu_msg1 m) <> ph_rid (pu_peer m) ->
  session_params t h = params_of_open (pu_msg2 m).
Proof. intros H E NE. unfold session_params. rewrite H. rewrite (proj2 (N.eqb_neq _ _)) by congruence. reflexivity. Qed.
Lemma session_rmon_rt oc t m : let p := session_params t (rm_peer m) in rmon_wf p m -> ~ v4_like (ph_addr (rm_peer m)) ->
  session_decode oc t (0 :: rmon_wire p m) = (Ok (RouteMonitoring (rmon_seen p m)), t).
Proof.
  intros p W V. rewrite session_rmon. pose proof (rmon_decode_wire oc (session_params t) m [] W V) as E. rewrite app_nil_r in E. unfold p. rewrite E. reflexivity.
Qed.
Lemma params_open_spec m : let p := params_of_open m in
  sp_mode p = ModeV4 /\ sp_caps p = op_caps m /\ (sp_as32 p = true <-> has_asn32 (op_caps m)).
Proof.
  cbv zeta. unfold params_of_open. destruct (check_caps_spec (mkParams (op_as m) (op_hold m) ModeV4 true (op_rid m) (op_caps m) false)) as (H1 & H2 & H3 & H4 & H5 & H6 & _).
  cbn [sp_caps sp_mode] in *. auto.
Qed.

(** ** Order of per-peer headers *)
Definition opeer' : ord peerhdr := oview (fun h => (ph_type h, (ph_flags h, (ph_rd h, (ph_addr h, (ph_as h, ph_rid h))))))
  (ofields onum (ofields onum (ofields ord_rd (ofields oip (ofields onum onum))))).
Lemma peer_cmp_eq x y : ocmp opeerhdr x y = ocmp opeer' x y.
Proof.
  reflexivity.
Qed.
Lemma peer_eq_eq x y : oeq opeerhdr x y = oeq opeer' x y.
Proof. cbn -[ord_rd oip]. unfold peerhdr_eq. rewrite <- !Bool.andb_assoc. reflexivity. Qed.
Lemma peer_pcmp_eq x y : opcmp opeerhdr x y = Some (ocmp opeerhdr x y).
Proof.
  cbn -[ord_rd oip onum]. unfold peerhdr_pcmp, peerhdr_cmp. cbv zeta. rewrite !pa_num, pa_rd, pa_ip. cbn -[ord_rd oip].
  destruct (ph_type x ?= ph_type y); try reflexivity. destruct (ph_flags x ?= ph_flags y); try reflexivity.
  destruct (ocmp ord_rd (ph_rd x) (ph_rd y)); try reflexivity. destruct (ocmp oip (ph_addr x) (ph_addr y)); try reflexivity. destruct (ph_as x ?= ph_as y); try reflexivity.
Qed.
Lemma laws_peer : ord_laws opeerhdr peer_ident.
Proof.
  assert (L : ord_laws opeer' peer_ident).
  { eapply laws_ext; [eapply laws_view; repeat first [eapply laws_ip|laws_tac]|].
    intros [] []; unfold peer_ident; cbn; split; congruence. }
  destruct L as [L1 L2 L3 L4 L5]. constructor; intros.
  - rewrite peer_eq_eq. apply L1.
  - rewrite peer_cmp_eq. apply L2.
  - rewrite !peer_cmp_eq. apply L3.
  - rewrite peer_cmp_eq in *. eapply L4; eassumption.
  - reflexivity.
Qed.

(** ** Statements for P_Bmp *)
Lemma addr_rt a buf : ip_wf a -> ~ v4_like a -> (16 <= length buf)%nat ->
  bmp_addr_encode a buf = Ok (16%nat, addr_field a ++ behind (is_v4 a) 16 buf) /\ forall rest, bmp_addr_decode (addr_field a ++ rest) = Ok a.
Proof.
  intros W V L. split; [|intros rest; now apply addr_decode_field]. pose proof (wz_addr a buf) as E. rewrite length_field in E. exact (E L).
Qed.
Lemma addr_like_l a buf : a < 2 ^ 32 -> (16 <= length buf)%nat -> exists out, bmp_addr_encode (IPv6 a) buf = Ok (16%nat, out) /\ bmp_addr_decode out = Ok (IPv4 a).
Proof.
  intros H L. eexists. split; [pose proof (wz_addr (IPv6 a) buf) as E; rewrite length_field in E; exact (E L)|]. cbn [firstn app]. now apply addr_decode_like.
Qed.
Lemma addr_frame_l a buf : (16 <= length buf)%nat -> skipn 16 buf <> repeat 0 (length buf - 16) -> exists out, bmp_addr_encode (IPv4 a) buf = Ok (16%nat, out) /\ skipn 16 out <> skipn 16 buf.
Proof.
  intros L H. eexists. split; [pose proof (wz_addr (IPv4 a) buf) as E; rewrite length_field in E; exact (E L)|]. cbn [firstn app behind is_v4].
  rewrite skipn_app_exact by apply length_field. change (repeat 0 (length buf - 16) <> skipn 16 buf). congruence.
Qed.
Lemma peer_rt h buf : peer_wf h -> ~ v4_like (ph_addr h) -> (42 <= length buf)%nat ->
  peerhdr_encode h buf = Ok (42%nat, peer_wire h ++ behind (is_v4 (ph_addr h)) 42 buf) /\ forall rest, peerhdr_decode (peer_wire h ++ rest) = Ok (h, 42%nat).
Proof.
  intros W V L. split; [|intros rest; now apply peer_decode_wire]. pose proof (wz_peer h buf) as E. rewrite length_peer in E. exact (E L).
Qed.
Lemma peer_like_l h a buf : peer_wf h -> ph_addr h = IPv6 a -> a < 2 ^ 32 -> (42 <= length buf)%nat ->
  exists out, peerhdr_encode h buf = Ok (42%nat, out) /\ peerhdr_decode out = Ok (with_addr h (IPv4 a), 42%nat) /\ with_addr h (IPv4 a) <> h.
Proof.
  intros W E H L. eexists. split; [pose proof (wz_peer h buf) as G; rewrite length_peer in G; exact (G L)|]. cbn [firstn app]. split.
  - apply peer_decode_gen; [exact W|]. intros r. rewrite E. now apply addr_decode_like.
  - intros G. apply (f_equal ph_addr) in G. cbn in G. congruence.
Qed.
Lemma peer_reencode_l buf h n : bytes_ok buf -> peerhdr_decode buf = Ok (h, n) -> n = 42%nat /\ peer_wf h /\ ~ v4_like (ph_addr h) /\
  forall out, (42 <= length out)%nat -> exists out', peerhdr_encode h out = Ok (42%nat, out') /\ firstn 42 out' = firstn 42 buf.
Proof.
  intros B E. pose proof (peer_decode_total buf B) as T. rewrite E in T. destruct T as (-> & W & V & rest & ->). repeat (split; [auto; try apply W|]).
  intros out L. destruct (peer_rt h out W V L) as [G _]. eexists. split; [exact G|].
  rewrite !firstn_app_exact by apply length_peer. reflexivity.
Qed.
Lemma peer_accepts_l buf : bytes_ok buf -> (exists h n, peerhdr_decode buf = Ok (h, n)) <-> (42 <= length buf)%nat.
Proof.
  intros B. split.
  - intros (h & n & E). pose proof (peer_decode_total buf B) as T. rewrite E in T. destruct T as (_ & _ & _ & rest & ->). rewrite app_length, length_peer. lia.
  - intros L. destruct (peer_ok buf B L) as (h & rest & _ & _ & _ & E). eauto.
Qed.
Lemma init_sent_l m buf : init_ok m -> (length (init_sent m) <= length buf)%nat ->
  init_encode m buf = Ok (length (init_sent m), init_sent m ++ skipn (length (init_sent m)) buf) /\
  init_decode (init_sent m) = Ok (mkInit (later (later (in_str m) (in_descr m)) (in_name m)) None None, length (init_sent m)).
Proof. intros H L. split; [exact (writes_init m buf L)|now apply init_decode_sent]. Qed.
Lemma init_rt_l m buf : init_ok m -> in_descr m = None -> in_name m = None -> (length (init_wire m) <= length buf)%nat ->
  init_encode m buf = Ok (length (init_wire m), init_wire m ++ skipn (length (init_wire m)) buf) /\ init_decode (init_wire m) = Ok (m, length (init_wire m)).
Proof.
  intros H E1 E2 L. assert (E : init_wire m = init_sent m) by (unfold init_wire, init_sent; now rewrite E1, E2). split; [|now apply init_decode_wire].
  rewrite E in *. exact (writes_init m buf L).
Qed.
Lemma init_refuted_l m buf : init_ok m -> in_descr m <> None \/ in_name m <> None -> (length (init_sent m) <= length buf)%nat ->
  exists n out, init_encode m buf = Ok (n, out) /\ forall k, init_decode (firstn n out) <> Ok (m, k).
Proof.
  intros H D L. destruct (init_sent_l m buf H L) as [E1 E2]. eexists _, _. split; [exact E1|]. rewrite firstn_app_exact by reflexivity. rewrite E2. intros k G.
  assert (J : forall (A : Type) (x y : A), Ok x = Ok y -> x = y) by congruence. apply J in G. apply (f_equal fst) in G. cbn [fst] in G.
  pose proof (f_equal in_descr G) as G1. pose proof (f_equal in_name G) as G2. cbn in G1, G2. destruct D; congruence.
Qed.
Lemma init_short_l m s buf : in_str m = Some s -> (4 <= length buf < 4 + length s)%nat -> init_encode m buf = Panic.
Proof.
  intros E L. unfold init_encode, init_field, ebind. rewrite E. unfold on_from at 1. cbn [Nat.leb skipn]. now rewrite init_field_panics.
Qed.
Lemma term_rt_l m buf : term_ok m -> (length (term_wire m) <= length buf)%nat ->
  term_encode m buf = Ok (length (term_wire m), term_wire m ++ skipn (length (term_wire m)) buf) /\ term_decode (term_wire m) = Ok (m, length (term_wire m)).
Proof. intros H L. split; [exact (writes_term m buf L)|now apply term_decode_wire]. Qed.
Definition short_str (s : option (list N)) : Prop := match s with Some s => N.of_nat (length s) < 65536 | None => True end.
Lemma term_loop_len fuel : forall pre s ret, bytes_ok s -> short_str (tm_str ret) ->
  match term_loop fuel (pre ++ s) (length pre) ret with Ok (m, _) => short_str (tm_str m) | _ => True end.
Proof.
  induction fuel as [|fuel IH]; intros pre s ret B G; [exact I|]. destruct (Nat.ltb_spec (length s) 4) as [H|H]; [now rewrite term_short|].
  destruct (tlv_parse s B H) as (t & n & rest & -> & Ht & Hn & Br). destruct (Nat.ltb_spec (length rest) (N.to_nat n)) as [C|C]; [now rewrite term_cut|].
  destruct (split_at (N.to_nat n) rest C) as (v & r & -> & Lv). apply Forall_app in Br as [Bv Br].
  assert (En : n = N.of_nat (length v)) by lia. rewrite En in *. clear En n Lv C.
  assert (F : tlv_fits (t, v)) by (split; assumption).
  replace (be_bytes 2 t ++ be_bytes 2 (N.of_nat (length v)) ++ v ++ r) with (tlv t v ++ r) by (unfold tlv; now rewrite <- !app_assoc).
  rewrite term_tlv by exact F.
  match goal with |- match bind ?x _ with _ => _ end => destruct x as [r'|e| |] eqn:E end; cbn [bind]; try exact I.
  rewrite app_assoc. apply IH; [exact Br|]. destruct (t =? 0); [unfold from_utf8 in E; destruct (utf8_ok v); [|discriminate]; injection E as <-; exact Hn|].
  destruct (t =? 1); [|now injection E as <-]. apply bind_Ok_inv in E as (y & _ & E). injection E as <-. exact G.
Qed.
Lemma term_long_l m s : tm_str m = Some s -> 65536 <= N.of_nat (length s) -> forall buf k, bytes_ok buf -> term_decode buf <> Ok (m, k).
Proof.
  intros E L buf k B D. pose proof (term_loop_len (S (length buf)) [] buf (mkTerm None None) B I) as T. cbn [app length] in T. unfold term_decode in D. rewrite D, E in T. cbn in T. lia.
Qed.
Lemma up_rt_l oc m buf : up_wf m -> ~ v4_like (ph_addr (pu_peer m)) -> ~ v4_like (pu_local m) -> (length (up_wire m) <= length buf)%nat ->
  peerup_encode oc m buf = Ok (length (up_wire m), up_wire m ++ behind (is_v4 (ph_addr (pu_peer m)) || is_v4 (pu_local m)) (length (up_wire m)) buf) /\
  forall rest, peerup_decode oc (up_wire m ++ rest) = Ok (up_seen m, length (up_wire m)).
Proof. intros W V1 V2 L. split; [exact (wz_up oc m W buf L)|intros; now apply up_decode_wire]. Qed.
Lemma up_like_l oc m a : up_wf m -> ph_addr (pu_peer m) = IPv6 a -> a < 2 ^ 32 -> ~ v4_like (pu_local m) ->
  peerup_decode oc (up_wire m) = Ok (up_seen (mkUp (with_addr (pu_peer m) (IPv4 a)) (pu_local m) (pu_lport m) (pu_rport m) (pu_msg1 m) (pu_msg2 m)), length (up_wire m)).
Proof.
  intros W E H V. pose proof (up_decode_gen oc m [] (with_addr (pu_peer m) (IPv4 a)) (pu_local m) W) as G. rewrite app_nil_r in G. apply G.
  - intros r. apply peer_decode_gen; [apply W|]. intros r'. rewrite E. now apply addr_decode_like.
  - intros r. apply addr_decode_field; [apply W|exact V].
Qed.
Lemma down_rt_l oc m buf : down_wf m -> ~ v4_like (ph_addr (pd_peer m)) -> (length (down_wire m) <= length buf)%nat ->
  peerdown_encode oc m buf = Ok (length (down_wire m), down_wire m ++ behind (is_v4 (ph_addr (pd_peer m))) (length (down_wire m)) buf) /\
  forall rest, peerdown_decode oc (down_wire m ++ rest) = Ok (m, length (down_wire m)).
Proof. intros W V L. split; [exact (wz_down oc m W buf L)|intros; now apply down_decode_wire]. Qed.
Lemma down_like_l oc m a : down_wf m -> ph_addr (pd_peer m) = IPv6 a -> a < 2 ^ 32 ->
  peerdown_decode oc (down_wire m) = Ok (mkDown (with_addr (pd_peer m) (IPv4 a)) (pd_reason m), length (down_wire m)).
Proof.
  intros W E H. pose proof (down_decode_gen oc m [] (with_addr (pd_peer m) (IPv4 a)) W) as G. rewrite app_nil_r in G. apply G.
  intros r. apply peer_decode_gen; [apply W|]. intros r'. rewrite E. now apply addr_decode_like.
Qed.
Lemma msg_rt_l oc m buf : msg_wf m -> msg_sendable m -> (length (msg_wire m) <= length buf)%nat ->
  bmp_encode oc m buf = Ok (length (msg_wire m), msg_wire m ++ behind (msg_zeroes m) (length (msg_wire m)) buf) /\ bmp_decode oc (msg_wire m) = Ok (msg_seen m).
Proof. intros W S L. split; [exact (bmp_encode_wire oc m W S buf L)|now apply bmp_decode_wire]. Qed.
Lemma bmphdr_rt_l h buf : bh_version h = 3 -> bh_length h < 2 ^ 32 -> (5 <= length buf)%nat ->
  bmphdr_encode h buf = Ok (5%nat, bmphdr_wire h ++ skipn 5 buf) /\ forall rest, bmphdr_decode (bmphdr_wire h ++ rest) = Ok (h, 5%nat).
Proof.
  intros V H L. split; [exact (bmphdr_writes h buf L)|]. intros rest. unfold bmphdr_wire. cbn [app]. rewrite bmphdr_dec by exact H. rewrite V. cbn. now destruct h; cbn in *; subst.
Qed.
(** a Route Monitoring message of a peer whose PeerUp came before is read with the parameters of the peer's own OPEN *)
Lemma caps_fold caps : forall p, fold_left (fun p cap => match cap with CapASN32 n => mkParams n (sp_hold p) (sp_mode p) true (sp_rid p) (sp_caps p) (sp_fuzzy p) | _ => p end) caps p =
  mkParams (offered_as (sp_as p) caps) (sp_hold p) (sp_mode p) (sp_as32 p || existsb (fun c => match c with CapASN32 _ => true | _ => false end) caps) (sp_rid p) (sp_caps p) (sp_fuzzy p).
Proof.
  induction caps as [|c caps IH]; intros [a h md w r cs f]; cbn [fold_left existsb offered_as sp_as sp_hold sp_mode sp_as32 sp_rid sp_caps sp_fuzzy].
  - now rewrite Bool.orb_false_r.
  - rewrite IH. destruct c; cbn [sp_as sp_hold sp_mode sp_as32 sp_rid sp_caps sp_fuzzy orb]; try reflexivity. now rewrite !Bool.orb_true_r.
Qed.
Lemma open_session_is m : params_of_open m = open_session m.
Proof. unfold params_of_open, check_caps. cbn [sp_as sp_hold sp_mode sp_as32 sp_rid sp_caps sp_fuzzy]. now rewrite caps_fold. Qed.
Lemma session_after_up_l oc t0 up m : ascending t0 -> key_of (rm_peer m) = key_of (pu_peer up) -> up_wf up ->
  ~ v4_like (ph_addr (pu_peer up)) -> ~ v4_like (pu_local up) ->
  op_rid (pu_msg2 up) = ph_rid (pu_peer up) -> op_rid (pu_msg1 up) <> ph_rid (pu_peer up) ->
  let p := open_session (open_seen (pu_msg2 up)) in rmon_wf p m ->
  let t1 := snd (session_decode oc t0 (3 :: up_wire up)) in
  session_decode oc t1 (0 :: rmon_wire p m) = (Ok (RouteMonitoring (rmon_seen p m)), t1).
Proof.
  intros A K W V1 V2 R2 R1 p Wm t1. assert (E : event_of oc (3 :: up_wire up) = EvUp (up_seen up)).
  { cbn [event_of]. pose proof (up_decode_wire oc up [] W V1 V2) as D. rewrite app_nil_r in D. now rewrite D. }
  assert (G : tab_get (key_of (rm_peer m)) t1 = Some (up_seen up)).
  { unfold t1. rewrite session_event, E. cbn [apply_event]. rewrite tab_get_insert by exact A. change (key_of (pu_peer (up_seen up))) with (key_of (pu_peer up)).
    destruct (key_dec _ _) as [_|D]; [reflexivity|contradiction]. }
  assert (P : session_params t1 (rm_peer m) = p).
  { rewrite (session_params_up t1 (rm_peer m) (up_seen up) G); [apply open_session_is|exact R2|exact R1]. }
  rewrite <- P. apply session_rmon_rt; [rewrite P; exact Wm|]. assert (EA : ph_addr (rm_peer m) = ph_addr (pu_peer up)) by exact (f_equal snd K). rewrite EA. exact V1.
Qed.
Lemma session_as32_l t h m : tab_get (key_of h) t = Some m -> op_rid (pu_msg2 m) = ph_rid (pu_peer m) -> op_rid (pu_msg1 m) <> ph_rid (pu_peer m) ->
  (sp_as32 (session_params t h) = true <-> has_asn32 (op_caps (pu_msg2 m))) /\ sp_mode (session_params t h) = ModeV4.
Proof. intros G R2 R1. rewrite (session_params_up t h m G R2 R1). destruct (params_open_spec (pu_msg2 m)) as (H1 & _ & H2). auto. Qed.
