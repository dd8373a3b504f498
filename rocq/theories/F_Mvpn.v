(** Proofs about MCAST-VPN routes. *)
From Verif Require Import Base BaseFacts M_Util S_Wire F_Util M_Prefix M_Nlri S_Nlri F_Nlri M_Session M_Vpls M_Cap F_Cap F_Lay M_Mvpn S_Mvpn.
Ltac Zify.zify_post_hook ::= idtac.

Definition ipl (m : tmode) : nat := match m with ModeV4 => 4 | ModeV6 => 16 end.
Lemma of_mode_facts m a : of_mode m a -> length (ip_bytes a) = ipl m /\ decode_addr_from (ip_bytes a) = Ok a /\
  ip_bits a = 8 * N.of_nat (ipl m).
Proof.
  intros H. destruct m, a; cbn [of_mode] in H; try contradiction; (split; [apply length_be_bytes|]);
  (split; [now apply decode_addr_be|reflexivity]).
Qed.
Lemma addr_at_seg ss i a b m x : nth_error ss i = Some (ip_bytes x) -> of_mode m x ->
  length (concat (firstn i ss)) = a -> (a + ipl m)%nat = b -> addr_at (concat ss) a b = Ok x.
Proof.
  intros H Hm Ha Hb. destruct (of_mode_facts m x Hm) as (L & D & _).
  unfold addr_at. rewrite (rslice_seg ss i a b (ip_bytes x)) by (auto; now rewrite L).
  now rewrite bind_ok, D.
Qed.
Lemma check_lens_seg ss i j a b k : nth_error ss i = Some [k] -> nth_error ss j = Some [k] ->
  length (concat (firstn i ss)) = a -> length (concat (firstn j ss)) = b -> check_lens (concat ss) a b k = Ok tt.
Proof.
  intros H1 H2 Ha Hb. unfold check_lens. rewrite (idx_seg ss i a k) by auto. rewrite bind_ok, N.eqb_refl. cbn [negb].
  rewrite (idx_seg ss j b k) by auto. now rewrite bind_ok, N.eqb_refl.
Qed.

Lemma idx_0 {A} (x : A) l : idx (x :: l) 0 = Ok x. Proof. reflexivity. Qed.
Lemma idx_1 {A} (x y : A) l : idx (x :: y :: l) 1 = Ok y. Proof. reflexivity. Qed.
Ltac modes :=
  repeat match goal with H : of_mode _ ?a |- _ =>
    let L := fresh "L" in let D := fresh "D" in let B := fresh "B" in
    pose proof (of_mode_facts _ _ H) as (L & D & B); revert H end; intros.
Ltac lens := len_simpl; repeat match goal with L : length (ip_bytes _) = _ |- _ => rewrite L end; try lia; cbn [ipl]; try lia; try reflexivity.

Ltac leb := match goal with |- context [Nat.leb ?a ?b] => replace (Nat.leb a b) with true by (symmetry; apply Nat.leb_le; lens) end.
Ltac laid := unfold lip; cbn [concat]; rewrite ?app_nil_r, <- ?app_assoc; cbn [app]; rewrite <- ?app_assoc; cbn [app]; reflexivity.

Lemma mvpn3_dec m r rest : mv3_wf m r -> mvpn3_decode m (mv3_body r ++ rest) = Ok (r, length (mv3_body r)).
Proof.
  destruct r as [rd s g o]. intros (Hr & Hs & Hg & Ho). cbn [mv3_rd mv3_source mv3_group mv3_orig] in *.
  modes. unfold mv3_body, lip. cbn [mv3_rd mv3_source mv3_group mv3_orig].
  match goal with |- mvpn3_decode _ ?w = _ => replace w with
    (concat [rd_wire rd; [ip_bits s]; ip_bytes s; [ip_bits g]; ip_bytes g; ip_bytes o; rest]) by laid end.
  unfold mvpn3_decode. rewrite decode_rd_seg, bind_ok by auto.
  destruct m; leb; cbn [ipl] in *.
  - rewrite (check_lens_seg _ 1 3) by (cbn [nth_error]; try (do 2 f_equal; assumption); lens). rewrite bind_ok.
    rewrite (addr_at_seg _ 2 9 13 ModeV4 s) by (auto; lens). rewrite bind_ok.
    rewrite (addr_at_seg _ 4 14 18 ModeV4 g) by (auto; lens). rewrite bind_ok.
    rewrite (addr_at_seg _ 5 18 22 ModeV4 o) by (auto; lens). rewrite bind_ok.
    do 2 f_equal; lens.
  - rewrite (check_lens_seg _ 1 3) by (cbn [nth_error]; try (do 2 f_equal; assumption); lens). rewrite bind_ok.
    rewrite (addr_at_seg _ 2 9 25 ModeV6 s) by (auto; lens). rewrite bind_ok.
    rewrite (addr_at_seg _ 4 26 42 ModeV6 g) by (auto; lens). rewrite bind_ok.
    rewrite (addr_at_seg _ 5 42 58 ModeV6 o) by (auto; lens). rewrite bind_ok.
    do 2 f_equal; lens.
Qed.
Lemma mvpn1_dec m r rest : mv_wf m (MvT1 r) -> mvpn1_decode m (mv_body (MvT1 r) ++ rest) = Ok (r, length (mv_body (MvT1 r))).
Proof.
  destruct r as [rd o]. intros (Hr & Ho). cbn [mv1_rd mv1_orig] in *.
  modes. cbn [mv_body mv1_rd mv1_orig].
  match goal with |- mvpn1_decode _ ?w = _ => replace w with
    (concat [rd_wire rd; ip_bytes o; rest]) by laid end.
  unfold mvpn1_decode. rewrite decode_rd_seg, bind_ok by auto.
  destruct m; leb; cbn [ipl] in *.
  - rewrite (addr_at_seg _ 1 8 (8 + 4) ModeV4 o) by (auto; lens). rewrite bind_ok. do 2 f_equal; lens.
  - rewrite (addr_at_seg _ 1 8 (8 + 16) ModeV6 o) by (auto; lens). rewrite bind_ok. do 2 f_equal; lens.
Qed.
Lemma mvpn2_dec m r rest : mv_wf m (MvT2 r) -> mvpn2_decode (mv_body (MvT2 r) ++ rest) = Ok (r, length (mv_body (MvT2 r))).
Proof.
  destruct r as [rd o]. intros (Hr & Ho). cbn [mv2_rd mv2_asn] in *.
  cbn [mv_body mv2_rd mv2_asn].
  match goal with |- mvpn2_decode ?w = _ => replace w with
    (concat [rd_wire rd; be_bytes 4 o; rest]) by laid end.
  unfold mvpn2_decode. leb. rewrite decode_rd_seg, bind_ok by auto.
  rewrite (rslice_seg _ 1 8 12 (be_bytes 4 o)) by (auto; lens). rewrite bind_ok, getn_u32_exact, bind_ok by auto. do 2 f_equal; lens.
Qed.
Lemma mvpn67_dec m r rest : mv67_wf m r -> mvpn67_decode m (mv67_body r ++ rest) = Ok (r, length (mv67_body r)).
Proof.
  destruct r as [rd n s g]. intros (Hr & Hn & Hs & Hg). cbn [mv67_rd mv67_asn mv67_rp mv67_group] in *.
  modes. unfold mv67_body, lip. cbn [mv67_rd mv67_asn mv67_rp mv67_group].
  match goal with |- mvpn67_decode _ ?w = _ => replace w with
    (concat [rd_wire rd; be_bytes 4 n; [ip_bits s]; ip_bytes s; [ip_bits g]; ip_bytes g; rest]) by laid end.
  unfold mvpn67_decode. rewrite decode_rd_seg, bind_ok by auto.
  destruct m; leb; cbn [ipl] in *.
  - rewrite (check_lens_seg _ 2 4) by (cbn [nth_error]; try (do 2 f_equal; assumption); lens). rewrite bind_ok.
    rewrite (rslice_seg _ 1 8 12 (be_bytes 4 n)) by (auto; lens). rewrite bind_ok, getn_u32_exact, bind_ok by auto.
    rewrite (addr_at_seg _ 3 13 17 ModeV4 s) by (auto; lens). rewrite bind_ok.
    rewrite (addr_at_seg _ 5 18 22 ModeV4 g) by (auto; lens). rewrite bind_ok.
    do 2 f_equal; lens.
  - rewrite (check_lens_seg _ 2 4) by (cbn [nth_error]; try (do 2 f_equal; assumption); lens). rewrite bind_ok.
    rewrite (rslice_seg _ 1 8 12 (be_bytes 4 n)) by (auto; lens). rewrite bind_ok, getn_u32_exact, bind_ok by auto.
    rewrite (addr_at_seg _ 3 13 29 ModeV6 s) by (auto; lens). rewrite bind_ok.
    rewrite (addr_at_seg _ 5 30 46 ModeV6 g) by (auto; lens). rewrite bind_ok.
    do 2 f_equal; lens.
Qed.
Lemma mvpn5_dec r rest : mv_wf ModeV4 (MvT5 r) -> mvpn5_decode ModeV4 (mv_body (MvT5 r) ++ rest) = Ok (r, length (mv_body (MvT5 r))).
Proof.
  destruct r as [rd s g]. intros (Hr & Hs & Hg). cbn [mv5_rd mv5_source mv5_group] in *.
  modes. unfold mv_body, lip. cbn [mv5_rd mv5_source mv5_group].
  match goal with |- mvpn5_decode _ ?w = _ => replace w with
    (concat [rd_wire rd; [ip_bits s]; ip_bytes s; [ip_bits g]; ip_bytes g; rest]) by laid end.
  unfold mvpn5_decode. rewrite decode_rd_seg, bind_ok by auto.
  leb; cbn [ipl] in *.
  rewrite (check_lens_seg _ 1 3) by (cbn [nth_error]; try (do 2 f_equal; assumption); lens). rewrite bind_ok.
  rewrite (addr_at_seg _ 2 9 13 ModeV4 s) by (auto; lens). rewrite bind_ok.
  rewrite (addr_at_seg _ 4 14 18 ModeV4 g) by (auto; lens). rewrite bind_ok.
  do 2 f_equal; lens.
Qed.
Lemma mvpn4_dec r : mv_wf ModeV4 (MvT4 r) -> mvpn4_decode ModeV4 (mv_body (MvT4 r)) = Ok (r, length (mv_body (MvT4 r))).
Proof.
  destruct r as [sp o]. intros (Hs & Ho). cbn [mv4_spmsi mv4_orig] in *.
  modes. unfold mv_body. cbn [mv4_spmsi mv4_orig].
  assert (LB : length (mv3_body sp) = 22%nat).
  { destruct sp as [rd s g o']. destruct Hs as (_ & H1 & H2 & H3). cbn [mv3_rd mv3_source mv3_group mv3_orig] in *.
    modes. unfold mv3_body, lip. cbn [mv3_rd mv3_source mv3_group mv3_orig]. lens. }
  unfold mvpn4_decode. rewrite LB. rewrite idx_0, bind_ok.
  change (negb (3 =? 3)) with false. cbn iota. rewrite idx_1, bind_ok.
  change (negb (N.of_nat 22 =? 22)) with false. cbn iota.
  change (rfrom (3 :: N.of_nat 22 :: mv3_body sp ++ ip_bytes o) 2) with (Ok (mv3_body sp ++ ip_bytes o)). rewrite bind_ok.
  rewrite mvpn3_dec by auto. rewrite LB.
  rewrite rfrom_ok by lens. rewrite bind_ok.
  change (skipn (2 + 22) (3 :: N.of_nat 22 :: mv3_body sp ++ ip_bytes o)) with (skipn 22 (mv3_body sp ++ ip_bytes o)).
  replace (skipn 22 (mv3_body sp ++ ip_bytes o)) with (ip_bytes o) by (rewrite <- LB; now rewrite skipn_app_exact).
  rewrite D, bind_ok. do 2 f_equal. cbn [length]. rewrite app_length, LB, L. reflexivity.
Qed.

(** ** decoding a whole route *)
Lemma mvpn_arm_wire {T} (dec : list N -> res (T * nat)) wrap c k body rest :
  mvpn_arm dec wrap (c :: k :: body ++ rest) (length body) =
  ('(r, n) <- dec body ;; Ok (wrap r, (n + 2)%nat)).
Proof.
  unfold mvpn_arm. rewrite rslice_ok by (cbn [length]; rewrite ?app_length; lia).
  unfold sub. cbn [skipn]. replace (2 + length body - 2)%nat with (length body) by lia.
  rewrite firstn_app, Nat.sub_diag, firstn_all. cbn [firstn]. rewrite app_nil_r. reflexivity.
Qed.

Lemma ip_bytes_len a : length (ip_bytes a) = 4%nat \/ length (ip_bytes a) = 16%nat.
Proof. destruct a; cbn [ip_bytes]; rewrite length_be_bytes; auto. Qed.
(** what the encoder writes after the two header octets *)
Definition sent3 (r : mvpn3) : list N :=
  rd_wire (mv3_rd r) ++ ip_bytes (mv3_source r) ++ ip_bytes (mv3_group r) ++ ip_bytes (mv3_orig r).
Definition sent67 (r : mvpn67) : list N :=
  rd_wire (mv67_rd r) ++ be_bytes 4 (mv67_asn r) ++ ip_bytes (mv67_rp r) ++ ip_bytes (mv67_group r).
Definition sent (r : mvpn) : list N :=
  match r with
  | MvT1 r => rd_wire (mv1_rd r) ++ ip_bytes (mv1_orig r)
  | MvT2 r => rd_wire (mv2_rd r) ++ be_bytes 4 (mv2_asn r)
  | MvT3 r => sent3 r
  | MvT4 r => sent3 (mv4_spmsi r) ++ ip_bytes (mv4_orig r)
  | MvT5 r => rd_wire (mv5_rd r) ++ ip_bytes (mv5_source r) ++ ip_bytes (mv5_group r)
  | MvT6 r | MvT7 r => sent67 r
  end.
Lemma length_sent r : (length (sent r) <= 72)%nat.
Proof.
  destruct r; cbn [sent]; unfold sent3, sent67; len_simpl;
  repeat match goal with |- context [length (ip_bytes ?a)] =>
    let H := fresh in pose proof (ip_bytes_len a) as H; revert H; generalize (length (ip_bytes a)); intros ? [->| ->] end; lia.
Qed.
Ltac enc_tail := eapply writes_at_eq; [apply writes_at_ret|..]; try reflexivity; len_simpl; try lia.
Lemma writes_ret_nil {A} p (a b : A) : a = b -> writes_at p (eret a) [] b.
Proof. intros ->. apply writes_at_ret. Qed.
Ltac wa := first [apply writes_encode_rd | apply writes_on_from, writes_encode_addr | apply writes_on_from, writes_setn_u32].
Lemma writes_sent3 r : writes (mvpn3_encode r) (sent3 r) (length (sent3 r)).
Proof.
  unfold mvpn3_encode, sent3, writes. rewrite <- (app_nil_r (ip_bytes (mv3_orig r))) at 1.
  repeat (eapply writes_next; [wa|rewrite ?length_rd_wire; reflexivity|]). 
  apply writes_ret_nil. len_simpl. lia.
Qed.
Lemma writes_sent67 r : writes (mvpn67_encode r) (sent67 r) (length (sent67 r)).
Proof.
  unfold mvpn67_encode, sent67, writes. rewrite <- (app_nil_r (ip_bytes (mv67_group r))) at 1.
  repeat (eapply writes_next; [wa|rewrite ?length_rd_wire, ?length_be_bytes; try reflexivity; lia|]). 
  apply writes_ret_nil. len_simpl. lia.
Qed.
Lemma writes_sent_body r :
  match r with
  | MvT1 r' => writes (mvpn1_encode r') (sent r) (length (sent r))
  | MvT2 r' => writes (mvpn2_encode r') (sent r) (length (sent r))
  | MvT3 r' => writes (mvpn3_encode r') (sent r) (length (sent r))
  | MvT4 r' => writes (mvpn4_encode r') (sent r) (length (sent r))
  | MvT5 r' => writes (mvpn5_encode r') (sent r) (length (sent r))
  | MvT6 r' | MvT7 r' => writes (mvpn67_encode r') (sent r) (length (sent r))
  end.
Proof.
  destruct r as [r|r|r|r|r|r|r]; cbn [sent]; unfold writes.
  - unfold mvpn1_encode. rewrite <- (app_nil_r (ip_bytes (mv1_orig r))) at 1.
    repeat (eapply writes_next; [wa|rewrite ?length_rd_wire; reflexivity|]). apply writes_ret_nil. len_simpl. lia.
  - unfold mvpn2_encode. rewrite <- (app_nil_r (be_bytes 4 (mv2_asn r))) at 1.
    repeat (eapply writes_next; [wa|rewrite ?length_rd_wire; reflexivity|]). apply writes_ret_nil. len_simpl. lia.
  - apply writes_sent3.
  - unfold mvpn4_encode. rewrite <- (app_nil_r (ip_bytes (mv4_orig r))) at 1.
    eapply writes_next; [apply writes_sent3|reflexivity|].
    repeat (eapply writes_next; [wa|reflexivity|]). apply writes_ret_nil. len_simpl. lia.
  - unfold mvpn5_encode. rewrite <- (app_nil_r (ip_bytes (mv5_group r))) at 1.
    repeat (eapply writes_next; [wa|rewrite ?length_rd_wire; reflexivity|]). apply writes_ret_nil. len_simpl. lia.
  - apply writes_sent67.
  - apply writes_sent67.
Qed.
Lemma writes_mvpn r : writes (mvpn_encode r) (mv_code r :: N.of_nat (length (sent r)) :: sent r) (2 + length (sent r))%nat.
Proof.
  assert (W : forall c (e : Enc nat) bs n, (n < 256)%nat -> writes e bs n ->
    writes (sz <~ (set_idx 0 c ;;; on_from 2 e) ;; set_idx 1 (cast 8 (N.of_nat sz)) ;;; eret (sz + 2)%nat)
      (c :: N.of_nat n :: bs) (2 + n)%nat).
  { intros c e bs n Hn H buf Hb. cbn [length] in Hb. destruct buf as [|b0 [|b1 t]]; cbn [length] in Hb; try lia.
    unfold ebind. rewrite set_idx_0. unfold on_from. cbn [length Nat.leb skipn firstn].
    rewrite H by lia. cbn [app]. rewrite set_idx_1. unfold eret. unfold splice. cbn [length firstn app plus skipn].
    rewrite cast8_small by exact Hn. do 2 f_equal. lia. }
  pose proof (length_sent r) as L. pose proof (writes_sent_body r) as B.
  destruct r; apply W; auto; lia.
Qed.

(** ** round trips *)
Lemma mvpn_decode_wire m r rest body :
  mvpn_decode m (mv_code r :: N.of_nat (length body) :: body ++ rest) =
  match r with
  | MvT1 _ => '(r, n) <- mvpn1_decode m body ;; Ok (MvT1 r, (n + 2)%nat)
  | MvT2 _ => '(r, n) <- mvpn2_decode body ;; Ok (MvT2 r, (n + 2)%nat)
  | MvT3 _ => '(r, n) <- mvpn3_decode m body ;; Ok (MvT3 r, (n + 2)%nat)
  | MvT4 _ => '(r, n) <- mvpn4_decode m body ;; Ok (MvT4 r, (n + 2)%nat)
  | MvT5 _ => '(r, n) <- mvpn5_decode m body ;; Ok (MvT5 r, (n + 2)%nat)
  | MvT6 _ => '(r, n) <- mvpn67_decode m body ;; Ok (MvT6 r, (n + 2)%nat)
  | MvT7 _ => '(r, n) <- mvpn67_decode m body ;; Ok (MvT7 r, (n + 2)%nat)
  end.
Proof.
  unfold mvpn_decode. rewrite idx_0, bind_ok, idx_1, bind_ok, Nnat.Nat2N.id.
  destruct r; cbn [mv_code N.eqb Pos.eqb]; now rewrite mvpn_arm_wire.
Qed.

(** types 1 and 2 *)
Definition mv_12 (r : mvpn) : Prop := match r with MvT1 _ | MvT2 _ => True | _ => False end.
Lemma mvpn12_roundtrip m r : mv_12 r -> mv_wf m r ->
  writes (mvpn_encode r) (mv_wire r) (length (mv_wire r)) /\
  forall rest, mvpn_decode m (mv_wire r ++ rest) = Ok (r, length (mv_wire r)).
Proof.
  intros H12 H. split.
  - pose proof (writes_mvpn r) as W. destruct r; try contradiction; exact W.
  - intros rest. unfold mv_wire. cbn [app]. rewrite mvpn_decode_wire.
    destruct r; try contradiction.
    + rewrite <- (app_nil_r (mv_body (MvT1 r))) at 1. rewrite mvpn1_dec, bind_ok by auto. do 2 f_equal; cbn [length]; lia.
    + rewrite <- (app_nil_r (mv_body (MvT2 r))) at 1. rewrite (mvpn2_dec m), bind_ok by auto. do 2 f_equal; cbn [length]; lia.
Qed.

(** the decoder accepts the RFC form of every type (4 and 5: IPv4 only) *)
Definition mv_45 (r : mvpn) : Prop := match r with MvT4 _ | MvT5 _ => True | _ => False end.
Lemma mvpn_decode_rfc m r rest : mv_wf m r -> (mv_45 r -> m = ModeV4) ->
  mvpn_decode m (mv_wire r ++ rest) = Ok (r, length (mv_wire r)).
Proof.
  intros H H45. destruct r; try now apply mvpn12_roundtrip.
  all: unfold mv_wire; cbn [app]; rewrite mvpn_decode_wire; cbn [mv_wf] in H.
  - rewrite <- (app_nil_r (mv_body (MvT3 r))) at 1. cbn [mv_body]. rewrite mvpn3_dec, bind_ok by auto. do 2 f_equal; cbn [length]; lia.
  - rewrite (H45 I) in *. rewrite mvpn4_dec, bind_ok by auto. do 2 f_equal; cbn [length]; lia.
  - rewrite (H45 I) in *.
    rewrite <- (app_nil_r (mv_body (MvT5 r))) at 1. rewrite mvpn5_dec, bind_ok by auto. do 2 f_equal; cbn [length]; lia.
  - rewrite <- (app_nil_r (mv_body (MvT6 r))) at 1. cbn [mv_body]. rewrite mvpn67_dec, bind_ok by auto. do 2 f_equal; cbn [length]; lia.
  - rewrite <- (app_nil_r (mv_body (MvT7 r))) at 1. cbn [mv_body]. rewrite mvpn67_dec, bind_ok by auto. do 2 f_equal; cbn [length]; lia.
Qed.

(** ** refutation for types 3 to 7 *)
Lemma decode_addr_len l a : decode_addr_from l = Ok a -> length (ip_bytes a) = length l.
Proof.
  intros H. unfold decode_addr_from in H.
  do 17 (destruct l as [|? l]; [cbn [length] in *; try discriminate;
    try (apply bind_Ok_inv in H as (x & _ & H); injection H as <-; apply length_be_bytes)|]). cbn [length] in H. discriminate.
Qed.
Lemma addr_at_len buf a b x : addr_at buf a b = Ok x -> length (ip_bytes x) = (b - a)%nat.
Proof.
  unfold addr_at. intros H. apply bind_Ok_inv in H as (s & H1 & H2). apply rslice_Ok_inv in H1 as (H3 & H4 & ->).
  rewrite (decode_addr_len _ _ H2). unfold sub. rewrite firstn_length, skipn_length. lia.
Qed.
Ltac binv H := let E := fresh "E" in
  match type of H with bind _ _ = Ok _ => apply bind_Ok_inv in H as (? & E & H) end.
Lemma mvpn3_inv m buf r n : mvpn3_decode m buf = Ok (r, n) ->
  (n = 10 + 3 * ipl m)%nat /\ (n <= length buf)%nat /\ length (ip_bytes (mv3_source r)) = ipl m /\
  length (ip_bytes (mv3_group r)) = ipl m /\ length (ip_bytes (mv3_orig r)) = ipl m.
Proof.
  unfold mvpn3_decode. intros H. binv H. destruct x as [rd k].
  destruct m.
  - destruct (Nat.leb_spec 22 (length buf)); [|discriminate].
    repeat binv H. injection H as <- <-. cbn [mv3_source mv3_group mv3_orig ipl].
    apply addr_at_len in E1, E2, E3. rewrite E1, E2, E3. lia.
  - destruct (Nat.leb_spec 58 (length buf)); [|discriminate].
    repeat binv H. injection H as <- <-. cbn [mv3_source mv3_group mv3_orig ipl].
    apply addr_at_len in E1, E2, E3. rewrite E1, E2, E3. lia.
Qed.
Lemma mvpn5_inv m buf r n : mvpn5_decode m buf = Ok (r, n) ->
  m = ModeV4 /\ (18 <= length buf)%nat /\ length (ip_bytes (mv5_source r)) = 4%nat /\
  length (ip_bytes (mv5_group r)) = 4%nat.
Proof.
  unfold mvpn5_decode. intros H. binv H. destruct x as [rd k].
  destruct m.
  - destruct (Nat.leb_spec 18 (length buf)); [|discriminate].
    repeat binv H. injection H as <- <-. cbn [mv5_source mv5_group].
    apply addr_at_len in E1, E2. rewrite E1, E2. repeat split; lia.
  - destruct (Nat.leb_spec 42 (length buf)); [|discriminate].
    repeat binv H. apply addr_at_len in E1. destruct (ip_bytes_len x0); lia.
Qed.
Lemma mvpn67_inv m buf r n : mvpn67_decode m buf = Ok (r, n) ->
  (14 + 2 * ipl m <= length buf)%nat /\ length (ip_bytes (mv67_rp r)) = ipl m /\
  length (ip_bytes (mv67_group r)) = ipl m.
Proof.
  unfold mvpn67_decode. intros H. binv H. destruct x as [rd k].
  destruct m.
  - destruct (Nat.leb_spec 22 (length buf)); [|discriminate].
    repeat binv H. injection H as <- <-. cbn [mv67_rp mv67_group ipl].
    apply addr_at_len in E3, E4. rewrite E3, E4. lia.
  - destruct (Nat.leb_spec 46 (length buf)); [|discriminate].
    repeat binv H. injection H as <- <-. cbn [mv67_rp mv67_group ipl].
    apply addr_at_len in E3, E4. rewrite E3, E4. lia.
Qed.
Lemma mvpn4_inv m buf r n : mvpn4_decode m buf = Ok (r, n) ->
  length buf = (12 + 3 * ipl m + length (ip_bytes (mv4_orig r)))%nat /\
  length (ip_bytes (mv3_source (mv4_spmsi r))) = ipl m /\
  length (ip_bytes (mv3_group (mv4_spmsi r))) = ipl m /\ length (ip_bytes (mv3_orig (mv4_spmsi r))) = ipl m.
Proof.
  unfold mvpn4_decode. intros H. binv H. destruct (negb (x =? 3)); [discriminate|]. binv H.
  destruct (negb (x0 =? 22)); [discriminate|]. binv H. apply rfrom_Ok_inv in E1 as (H1 & ->).
  destruct (mvpn3_decode m (skipn 2 buf)) as [[sp k]| | |] eqn:E3; try discriminate.
  apply mvpn3_inv in E3 as (-> & H2 & H3). rewrite skipn_length in H2. binv H. apply rfrom_Ok_inv in E1 as (H4 & ->). binv H.
  injection H as <- <-. cbn [mv4_orig mv4_spmsi]. apply decode_addr_len in E1. rewrite E1, skipn_length. split; [lia|apply H3].
Qed.
Lemma mvpn_sent_refuted m r rest n : ~ mv_12 r ->
  mvpn_decode m (mv_code r :: N.of_nat (length (sent r)) :: sent r ++ rest) <> Ok (r, n).
Proof.
  intros H12 H. rewrite mvpn_decode_wire in H. destruct r as [r|r|r|r|r|r|r]; try (now apply H12); binv H; destruct x as [r' k]; injection H as -> _.
  - apply mvpn3_inv in E as (-> & L & L1 & L2 & L3). cbn [sent] in L. unfold sent3 in L.
    rewrite !app_length, length_rd_wire, L1, L2, L3 in L. lia.
  - apply mvpn4_inv in E as (L & L1 & L2 & L3). cbn [sent] in L. unfold sent3 in L.
    rewrite !app_length, length_rd_wire, L1, L2, L3 in L. lia.
  - apply mvpn5_inv in E as (-> & L & L1 & L2). cbn [sent] in L.
    rewrite !app_length, length_rd_wire, L1, L2 in L. lia.
  - apply mvpn67_inv in E as (L & L1 & L2). cbn [sent] in L. unfold sent67 in L.
    rewrite !app_length, length_rd_wire, length_be_bytes, L1, L2 in L. lia.
  - apply mvpn67_inv in E as (L & L1 & L2). cbn [sent] in L. unfold sent67 in L.
    rewrite !app_length, length_rd_wire, length_be_bytes, L1, L2 in L. lia.
Qed.
Lemma mvpn_refuted r buf : ~ mv_12 r -> (74 <= length buf)%nat ->
  exists n out, mvpn_encode r buf = Ok (n, out) /\ (n <= length buf)%nat /\
    forall m rest k, mvpn_decode m (firstn n out ++ rest) <> Ok (r, k).
Proof.
  intros H12 Hb. pose proof (length_sent r) as L.
  eexists _, _. split; [apply writes_mvpn; cbn [length]; lia|]. split; [lia|].
  intros m rest k. unfold splice. rewrite firstn_O. cbn [app].
  match goal with |- context [firstn _ (?a :: ?b :: ?w ++ _)] =>
    replace (firstn (2 + length (sent r)) (a :: b :: w ++ skipn (0 + length (a :: b :: w)) buf)) with (a :: b :: w) end.
  { now apply mvpn_sent_refuted. }
  cbn [plus firstn]. now rewrite firstn_app, Nat.sub_diag, firstn_all, firstn_O, app_nil_r.
Qed.
Lemma mvpn5_v6 buf r n : mvpn5_decode ModeV6 buf <> Ok (r, n).
Proof. intros H. apply mvpn5_inv in H as (H & _). discriminate. Qed.
