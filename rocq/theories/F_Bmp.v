(** Proofs about BMP messages. *)
From Verif Require Import Base BaseFacts M_Util S_Wire F_Util M_Nlri S_Nlri F_Nlri M_Vpls F_Lay F_Mvpn M_Cap S_Cap M_Open M_Session S_Open F_Open F_Session
  M_Addrs M_Attr M_Update S_Update F_Fuel F_Addrs F_Attr F_Attr2 F_Update M_Order S_Order F_Order M_Bmp S_Bmp.
Ltac Zify.zify_post_hook ::= idtac.

(** ** Encoders that may zero what is behind them *)
Definition wz {A} (z : bool) (p : nat) (e : Enc A) (bs : list N) (a : A) : Prop :=
  forall buf, (p + length bs <= length buf)%nat -> e buf = Ok (a, firstn p buf ++ bs ++ behind z (p + length bs) buf).
Lemma wz_writes {A} p (e : Enc A) bs a : writes_at p e bs a -> wz false p e bs a.
Proof. intros H buf L. exact (H buf L). Qed.
Lemma length_behind z n buf : length (behind z n buf) = (length buf - n)%nat.
Proof. destruct z; cbn [behind]; [apply repeat_length|apply skipn_length]. Qed.
Lemma behind_behind z1 z2 p n m buf mid : length (firstn p buf ++ mid) = (p + n)%nat -> (p + n + m <= length buf)%nat ->
  behind z2 (p + n + m) (firstn p buf ++ mid ++ behind z1 (p + n) buf) = behind (z1 || z2) (p + n + m) buf.
Proof.
  intros L H. rewrite app_assoc. destruct z2; cbn [behind].
  - rewrite orb_true_r. cbn [behind]. f_equal. rewrite app_length, length_behind, L. lia.
  - rewrite orb_false_r. rewrite skipn_app, L, skipn_all2 by lia. replace (p + n + m - (p + n))%nat with m by lia. cbn [app].
    destruct z1; cbn [behind].
    + rewrite <- (firstn_skipn m (repeat 0 (length buf - (p + n)))) at 1. rewrite skipn_app.
      rewrite firstn_length, repeat_length. replace (m - Nat.min m (length buf - (p + n)))%nat with 0%nat by lia.
      rewrite skipn_all2 by (rewrite firstn_length, repeat_length; lia). cbn [app skipn].
      replace (length buf - (p + n))%nat with (m + (length buf - (p + n + m)))%nat by lia.
      rewrite repeat_app, skipn_app_exact by apply repeat_length. reflexivity.
    + rewrite skipn_skipn'. reflexivity.
Qed.
Lemma wz_bind {A B} z1 z2 p (m : Enc A) (f : A -> Enc B) bs1 bs2 a b :
  wz z1 p m bs1 a -> wz z2 (p + length bs1) (f a) bs2 b -> wz (z1 || z2) p (ebind m f) (bs1 ++ bs2) b.
Proof.
  intros H1 H2 buf L. rewrite app_length in L. unfold ebind. rewrite H1 by lia.
  assert (Lf : length (firstn p buf ++ bs1) = (p + length bs1)%nat) by (rewrite app_length, firstn_length; lia).
  rewrite H2 by (rewrite !app_length, length_behind, firstn_length; lia).
  rewrite (behind_behind z1 z2 p (length bs1) (length bs2) buf bs1) by (try exact Lf; lia).
  rewrite (app_assoc (firstn p buf) bs1 (behind _ _ _)). rewrite (firstn_app_exact (p + length bs1)) by exact Lf. rewrite app_length, Nat.add_assoc, <- !app_assoc. reflexivity.
Qed.
Lemma wz_next {A B} z1 z2 z p (m : Enc A) (f : A -> Enc B) bs1 bs2 a b q :
  wz z1 p m bs1 a -> q = (p + length bs1)%nat -> wz z2 q (f a) bs2 b -> z = (z1 || z2)%bool -> wz z p (ebind m f) (bs1 ++ bs2) b.
Proof. intros H -> H2 ->. eapply wz_bind; eauto. Qed.
Lemma wz_ret {A} p (a b : A) : a = b -> wz false p (eret a) [] b.
Proof. intros ->. apply wz_writes, writes_at_ret. Qed.
Lemma wz_on_from {A} z n (e : Enc A) bs a : wz z 0 e bs a -> wz z n (on_from n e) bs a.
Proof.
  intros H buf L. unfold on_from. replace (Nat.leb n (length buf)) with true by (symmetry; apply Nat.leb_le; lia).
  rewrite H by (rewrite skipn_length; lia). cbn [firstn app]. do 4 f_equal. destruct z; cbn [behind].
  - f_equal. rewrite skipn_length. lia.
  - rewrite skipn_skipn'. reflexivity.
Qed.
Lemma wz_guard {A} z p k (e : err) (m : Enc A) bs a : (k <= p + length bs)%nat -> wz z p m bs a ->
  wz z p (len <~ elen ;; if Nat.ltb len k then eerr e else m) bs a.
Proof.
  intros Hk H buf L. unfold ebind, elen. replace (Nat.ltb (length buf) k) with false by (symmetry; apply Nat.ltb_ge; lia). now apply H.
Qed.
Lemma wz_map {A} z p (m : Enc A) f bs a : wz z p m bs a -> forall (b : nat), (forall buf, f a buf = Ok (b, buf)) -> wz z p (ebind m f) bs b.
Proof. intros H b Hf buf L. unfold ebind. rewrite H by exact L. apply Hf. Qed.

(** ** Addresses *)
Lemma length_field a : length (addr_field a) = 16%nat.
Proof. destruct a; cbn [addr_field]; [rewrite app_length, repeat_length|]; now rewrite length_be_bytes. Qed.
Lemma wz_addr a : wz (is_v4 a) 0 (bmp_addr_encode a) (addr_field a) 16%nat.
Proof.
  unfold bmp_addr_encode. apply wz_guard; [rewrite length_field; lia|]. destruct a as [a|a]; cbn [is_v4 addr_field].
  - intros buf L. rewrite app_length, repeat_length, length_be_bytes in *. cbn [firstn app Nat.add behind] in *.
    unfold ebind, zero_all. rewrite (writes_on_from 12 _ _ _ (writes_encode_addrv4 a)) by (rewrite repeat_length, length_be_bytes; lia).
    unfold eret. do 2 f_equal. unfold splice.
    replace (length buf) with (12 + (4 + (length buf - 16)))%nat at 1 2 by lia.
    rewrite repeat_app, firstn_app_exact by apply repeat_length.
    rewrite length_be_bytes, repeat_app. rewrite <- (app_assoc (repeat 0 12)). do 2 f_equal.
  - eapply wz_map; [apply wz_writes, writes_encode_addrv6|reflexivity].
Qed.
Lemma zeros_forallb l : length l = 12%nat -> forallb (fun b => b =? 0) l = true <-> l = repeat 0 12.
Proof.
  intros H. rewrite <- H. clear H. induction l as [|x l IH]; cbn [forallb length repeat]; [tauto|].
  rewrite andb_true_iff, IH, N.eqb_eq. split; [intros [-> ->]; now rewrite repeat_length|]. intros H. injection H as -> H. auto.
Qed.
Lemma be_bytes_zero_iff j n : n < 2 ^ (8 * N.of_nat j) -> be_bytes j n = repeat 0 j <-> n = 0.
Proof.
  intros H. split; intros E.
  - rewrite <- (be_val_be_bytes j n H), E. apply be_val_zeros.
  - subst n. clear H. induction j as [|j IH]; [reflexivity|]. cbn [be_bytes repeat]. rewrite IH. now rewrite N.div_0_l by apply pow2_nz.
Qed.
Lemma addr_decode_v4 a rest : a < 2 ^ 32 -> bmp_addr_decode (repeat 0 12 ++ be_bytes 4 a ++ rest) = Ok (IPv4 a).
Proof.
  intros H. unfold bmp_addr_decode.
  replace (Nat.ltb _ 16) with false by (symmetry; apply Nat.ltb_ge; rewrite !app_length, repeat_length, length_be_bytes; lia).
  change (rslice (repeat 0 12 ++ be_bytes 4 a ++ rest) 0 12) with (Ok (repeat 0 12)). rewrite bind_ok.
  change (forallb (fun b => b =? 0) (repeat 0 12)) with true. cbv iota.
  change (rfrom (repeat 0 12 ++ be_bytes 4 a ++ rest) 12) with (Ok (be_bytes 4 a ++ rest)). rewrite bind_ok, decode_addrv4_be by exact H. reflexivity.
Qed.
Lemma v6_low a : a < 2 ^ 32 -> be_bytes 16 a = repeat 0 12 ++ be_bytes 4 a.
Proof.
  intros H. change 16%nat with (12 + 4)%nat. rewrite be_bytes_split. f_equal. apply be_bytes_zero_iff.
  - rewrite N.div_small by exact H. reflexivity.
  - now apply N.div_small.
Qed.
Lemma v6_high a : a < 2 ^ 128 -> 2 ^ 32 <= a -> forallb (fun b => b =? 0) (firstn 12 (be_bytes 16 a)) = false.
Proof.
  intros H G. destruct (forallb _ _) eqn:E; [|reflexivity]. exfalso.
  apply zeros_forallb in E; [|rewrite firstn_length, length_be_bytes; reflexivity].
  change 16%nat with (12 + 4)%nat in E. rewrite be_bytes_split, (firstn_app_exact 12) in E by apply length_be_bytes.
  assert (B : a / 2 ^ (8 * N.of_nat 4) < 2 ^ (8 * N.of_nat 12)).
  { apply N.div_lt_upper_bound; [apply pow2_nz|]. change (8 * N.of_nat 4) with 32. change (8 * N.of_nat 12) with 96. rewrite <- N.pow_add_r. exact H. }
  apply be_bytes_zero_iff in E; [|exact B]. change (8 * N.of_nat 4) with 32 in E.
  apply N.div_small_iff in E; [|apply pow2_nz]. clear - E G. lia.
Qed.
Lemma addr_decode_v6 a rest : a < 2 ^ 128 -> 2 ^ 32 <= a -> bmp_addr_decode (be_bytes 16 a ++ rest) = Ok (IPv6 a).
Proof.
  intros H G. unfold bmp_addr_decode.
  replace (Nat.ltb _ 16) with false by (symmetry; apply Nat.ltb_ge; rewrite app_length, length_be_bytes; lia).
  rewrite rslice_ok by (rewrite ?app_length, ?length_be_bytes; lia). rewrite bind_ok.
  assert (E : sub (be_bytes 16 a ++ rest) 0 12 = firstn 12 (be_bytes 16 a)) by reflexivity.
  rewrite E, v6_high by assumption. now rewrite decode_addrv6_be.
Qed.
Lemma addr_decode_field a rest : ip_wf a -> ~ v4_like a -> bmp_addr_decode (addr_field a ++ rest) = Ok a.
Proof.
  destruct a as [a|a]; cbn [ip_wf v4_like addr_field]; intros H V.
  - rewrite <- app_assoc. now apply addr_decode_v4.
  - apply addr_decode_v6; [exact H|]. apply N.nlt_ge. exact V.
Qed.
Lemma addr_decode_like a rest : a < 2 ^ 32 -> bmp_addr_decode (addr_field (IPv6 a) ++ rest) = Ok (IPv4 a).
Proof. intros H. cbn [addr_field]. rewrite v6_low by exact H. rewrite <- app_assoc. now apply addr_decode_v4. Qed.
(** what is accepted *)
Lemma addr_decode_total buf : bytes_ok (firstn 16 buf) ->
  match bmp_addr_decode buf with
  | Ok a => (16 <= length buf)%nat /\ ip_wf a /\ ~ v4_like a /\ firstn 16 buf = addr_field a
  | Err _ => (length buf < 16)%nat | _ => False end.
Proof.
  intros B. unfold bmp_addr_decode. destruct (Nat.ltb_spec (length buf) 16) as [L|L]; [exact L|].
  rewrite rslice_ok by lia. rewrite bind_ok. change (sub buf 0 12) with (firstn 12 buf).
  assert (E16 : firstn 16 buf = firstn 12 buf ++ firstn 4 (skipn 12 buf)).
  { rewrite <- (firstn_skipn 12 buf) at 1. rewrite firstn_app, firstn_length, firstn_firstn.
    replace (Nat.min 16 12) with 12%nat by reflexivity. replace (16 - Nat.min 12 (length buf))%nat with 4%nat by lia. reflexivity. }
  destruct (forallb _ (firstn 12 buf)) eqn:Z.
  - apply zeros_forallb in Z; [|rewrite firstn_length; lia]. rewrite rfrom_ok, bind_ok by lia.
    rewrite decode_addrv4_ok by (rewrite skipn_length; lia). rewrite bind_ok. split; [lia|].
    assert (B4 : bytes_ok (firstn 4 (skipn 12 buf))). { rewrite E16 in B. now apply Forall_app in B as [_ B]. }
    assert (L4 : length (firstn 4 (skipn 12 buf)) = 4%nat) by (rewrite firstn_length, skipn_length; lia).
    split; [pose proof (be_val_bound _ B4) as H; rewrite L4 in H; exact H|]. split; [exact (fun x => x)|].
    cbn [addr_field]. rewrite <- Z, E16. f_equal. pose proof (be_bytes_be_val _ B4) as R. rewrite L4 in R. now rewrite R.
  - rewrite decode_addrv6_ok, bind_ok by assumption. split; [lia|].
    assert (L16 : length (firstn 16 buf) = 16%nat) by (rewrite firstn_length; lia).
    pose proof (be_val_bound _ B) as H. rewrite L16 in H.
    assert (R : be_bytes 16 (be_val (firstn 16 buf)) = firstn 16 buf) by (rewrite <- L16 at 1; now apply be_bytes_be_val).
    split; [exact H|]. cbn [v4_like addr_field]. split; [|now rewrite R].
    intros V. apply v6_low in V. rewrite R, E16 in V. apply (f_equal (firstn 12)) in V.
    rewrite !(firstn_app_exact 12) in V by (rewrite ?firstn_length, ?repeat_length; lia).
    apply zeros_forallb in V; [|rewrite firstn_length; lia]. congruence.
Qed.

(** ** Per-peer header *)
Lemma length_peer h : length (peer_wire h) = 42%nat.
Proof. unfold peer_wire, rd_wire. rewrite !app_length, length_field, !length_be_bytes. reflexivity. Qed.
Lemma wz_peer h : wz (is_v4 (ph_addr h)) 0 (peerhdr_encode h) (peer_wire h) 42%nat.
Proof.
  unfold peerhdr_encode. apply wz_guard; [rewrite length_peer; lia|]. unfold peer_wire.
  change ([ph_type h; ph_flags h] ++ ?x) with ([ph_type h] ++ [ph_flags h] ++ x).
  rewrite <- (app_nil_r (be_bytes 8 (ph_time h))).
  eapply wz_next with (z1 := false); [apply wz_writes, writes_at_set_idx|reflexivity| |].
  eapply wz_next with (z1 := false); [apply wz_writes, writes_at_set_idx|reflexivity| |].
  eapply wz_next with (z1 := false); [apply wz_writes, writes_on_from, writes_encode_rd|reflexivity| |].
  eapply wz_next with (q := 26%nat); [apply wz_on_from, wz_addr|rewrite length_rd_wire, length_field; reflexivity| |].
  eapply wz_next with (z1 := false) (q := 30%nat); [apply wz_writes, writes_on_from, writes_setn_u32|reflexivity| |].
  eapply wz_next with (z1 := false) (q := 34%nat); [apply wz_writes, writes_on_from, writes_encode_addrv4|reflexivity| |].
  eapply wz_next with (z1 := false) (q := 42%nat); [apply wz_writes, writes_on_from, writes_setn_u64|reflexivity| |].
  apply wz_ret; reflexivity.
  all: cbn [orb]; rewrite ?orb_false_r; reflexivity.
Qed.
Lemma peer_decode_gen h rest a' : peer_wf h -> (forall r, bmp_addr_decode (addr_field (ph_addr h) ++ r) = Ok a') ->
  peerhdr_decode (peer_wire h ++ rest) = Ok (with_addr h a', 42%nat).
Proof.
  intros (H1 & H2 & H3 & H4 & H5 & H6 & H7) D. unfold peerhdr_decode.
  replace (Nat.ltb _ 42) with false by (symmetry; apply Nat.ltb_ge; rewrite app_length, length_peer; lia).
  set (ss := [[ph_type h]; [ph_flags h]; rd_wire (ph_rd h); addr_field (ph_addr h); be_bytes 4 (ph_as h); be_bytes 4 (ph_rid h); be_bytes 8 (ph_time h); rest]).
  replace (peer_wire h ++ rest) with (concat ss) by (unfold ss, peer_wire; laid).
  assert (LF := length_field (ph_addr h)).
  assert (F0 : idx (concat ss) 0 = Ok (ph_type h)) by (apply (idx_seg ss 0); seg).
  assert (F1 : idx (concat ss) 1 = Ok (ph_flags h)) by (apply (idx_seg ss 1); seg).
  assert (F2 : exists r, rfrom (concat ss) 2 = Ok (rd_wire (ph_rd h) ++ r)) by (eexists; rewrite (rfrom_seg ss 2) by seg; reflexivity).
  assert (F10 : exists r, rfrom (concat ss) 10 = Ok (addr_field (ph_addr h) ++ r)) by (eexists; rewrite (rfrom_seg ss 3) by seg; reflexivity).
  assert (F26 : exists r, rfrom (concat ss) 26 = Ok (be_bytes 4 (ph_as h) ++ r))
    by (eexists; rewrite (rfrom_seg ss 4) by (unfold ss; len_simpl; rewrite ?LF; reflexivity); reflexivity).
  assert (F30 : exists r, rfrom (concat ss) 30 = Ok (be_bytes 4 (ph_rid h) ++ r))
    by (eexists; rewrite (rfrom_seg ss 5) by (unfold ss; len_simpl; rewrite ?LF; reflexivity); reflexivity).
  assert (F34 : exists r, rfrom (concat ss) 34 = Ok (be_bytes 8 (ph_time h) ++ r))
    by (eexists; rewrite (rfrom_seg ss 6) by (unfold ss; len_simpl; rewrite ?LF; reflexivity); reflexivity).
  clearbody ss. destruct F2 as (r2 & F2), F10 as (r10 & F10), F26 as (r26 & F26), F30 as (r30 & F30), F34 as (r34 & F34).
  rewrite F0, F1, F2, !bind_ok, decode_rd_wire, bind_ok by exact H3. rewrite F10, bind_ok, D, bind_ok.
  rewrite F26, bind_ok, getn_u32_be, bind_ok by exact H5. rewrite F30, bind_ok, decode_addrv4_be, bind_ok by exact H6.
  rewrite F34, bind_ok, getn_u64_be, bind_ok by exact H7. reflexivity.
Qed.
Lemma with_addr_same h : with_addr h (ph_addr h) = h.
Proof. now destruct h. Qed.
Lemma peer_decode_wire h rest : peer_wf h -> ~ v4_like (ph_addr h) -> peerhdr_decode (peer_wire h ++ rest) = Ok (h, 42%nat).
Proof.
  intros H V. rewrite (peer_decode_gen h rest (ph_addr h)) by (auto; intros; apply addr_decode_field; auto; apply H). now rewrite with_addr_same.
Qed.

(** what is accepted *)
Lemma split_at {A} n (l : list A) : (n <= length l)%nat -> exists a b, l = a ++ b /\ length a = n.
Proof. intros H. exists (firstn n l), (skipn n l). split; [symmetry; apply firstn_skipn|rewrite firstn_length; lia]. Qed.
Lemma seg_val (l : list N) k : length l = k -> bytes_ok l -> l = be_bytes k (be_val l) /\ be_val l < 2 ^ (8 * N.of_nat k).
Proof. intros <- H. split; [symmetry; now apply be_bytes_be_val|now apply be_val_bound]. Qed.
Lemma peer_parse buf : bytes_ok buf -> (42 <= length buf)%nat -> exists h rest, buf = peer_wire h ++ rest /\ peer_wf h /\ ~ v4_like (ph_addr h).
Proof.
  intros B L. destruct buf as [|t [|f buf]]; [cbn in L; lia..|]. cbn [length] in L.
  inversion B as [|? ? B1 Ba]; subst. inversion Ba as [|? ? B2 Bb]; subst. clear B Ba.
  destruct (split_at 4 buf ltac:(lia)) as (s1 & x1 & -> & L1). rewrite app_length in L. apply Forall_app in Bb as [C1 Bb].
  destruct (split_at 4 x1 ltac:(lia)) as (s2 & x2 & -> & L2). rewrite app_length in L. apply Forall_app in Bb as [C2 Bb].
  destruct (split_at 16 x2 ltac:(lia)) as (s3 & x3 & -> & L3). rewrite app_length in L. apply Forall_app in Bb as [C3 Bb].
  destruct (split_at 4 x3 ltac:(lia)) as (s4 & x4 & -> & L4). rewrite app_length in L. apply Forall_app in Bb as [C4 Bb].
  destruct (split_at 4 x4 ltac:(lia)) as (s5 & x5 & -> & L5). rewrite app_length in L. apply Forall_app in Bb as [C5 Bb].
  destruct (split_at 8 x5 ltac:(lia)) as (s6 & rest & -> & L6). apply Forall_app in Bb as [C6 Bb].
  assert (E3 : firstn 16 s3 = s3) by (apply firstn_all2; lia).
  pose proof (addr_decode_total s3) as D. rewrite E3 in D. specialize (D C3).
  destruct (bmp_addr_decode s3) as [a|e| |]; [|lia|contradiction|contradiction]. destruct D as (_ & W & V & E).
  destruct (seg_val s1 4 L1 C1) as [V1 R1], (seg_val s2 4 L2 C2) as [V2 R2], (seg_val s4 4 L4 C4) as [V4 R4], (seg_val s5 4 L5 C5) as [V5 R5], (seg_val s6 8 L6 C6) as [V6 R6].
  exists (mkPeer t f (mkRD (be_val s1) (be_val s2)) a (be_val s4) (be_val s5) (be_val s6)), rest. split.
  - unfold peer_wire, rd_wire. cbn [ph_type ph_flags ph_rd ph_addr ph_as ph_rid ph_time rdh rdl]. rewrite <- V1, <- V2, <- V4, <- V5, <- V6, <- E. cbn [app]. now rewrite <- !app_assoc.
  - split; [|exact V]. exact (conj B1 (conj B2 (conj (conj R1 R2) (conj W (conj R4 (conj R5 R6)))))).
Qed.
Lemma peer_decode_total buf : bytes_ok buf ->
  match peerhdr_decode buf with
  | Ok (h, n) => n = 42%nat /\ peer_wf h /\ ~ v4_like (ph_addr h) /\ exists rest, buf = peer_wire h ++ rest
  | Err e => (length buf < 42)%nat /\ e = EInsufficient | _ => False end.
Proof.
  intros B. destruct (Nat.ltb_spec (length buf) 42) as [L|L].
  - unfold peerhdr_decode. apply Nat.ltb_lt in L as L'. rewrite L'. auto.
  - destruct (peer_parse buf B L) as (h & rest & -> & W & V). rewrite peer_decode_wire by assumption. split; [reflexivity|]. split; [exact W|]. split; [exact V|]. now exists rest.
Qed.

(** ** TLVs *)
Lemma length_tlv t s : length (tlv t s) = (4 + length s)%nat.
Proof. unfold tlv. rewrite !app_length, !length_be_bytes. lia. Qed.
Lemma tlv_parse s : bytes_ok s -> (4 <= length s)%nat -> exists t n rest, s = be_bytes 2 t ++ be_bytes 2 n ++ rest /\ t < 65536 /\ n < 65536 /\ bytes_ok rest.
Proof.
  intros B L. destruct (split_at 2 s ltac:(lia)) as (s1 & x1 & -> & L1). rewrite app_length in L. apply Forall_app in B as [C1 B].
  destruct (split_at 2 x1 ltac:(lia)) as (s2 & x2 & -> & L2). apply Forall_app in B as [C2 B].
  destruct (seg_val s1 2 L1 C1) as [V1 R1], (seg_val s2 2 L2 C2) as [V2 R2].
  exists (be_val s1), (be_val s2), x2. rewrite <- V1, <- V2. exact (conj eq_refl (conj R1 (conj R2 B))).
Qed.
Definition info_ok (x : N * list N) : Prop := tlv_fits x /\ utf8_ok (snd x) = true.
Lemma tlv_facts t s pre rest : tlv_fits (t, s) -> let buf := pre ++ tlv t s ++ rest in
  length buf = (length pre + 4 + length s + length rest)%nat /\
  rfrom buf (length pre) = Ok (be_bytes 2 t ++ be_bytes 2 (N.of_nat (length s)) ++ s ++ rest) /\
  rfrom buf (length pre + 2) = Ok (be_bytes 2 (N.of_nat (length s)) ++ s ++ rest) /\
  rslice buf (length pre + 2) (length pre + 4) = Ok (be_bytes 2 (N.of_nat (length s))) /\
  rfrom buf (length pre + 4) = Ok (s ++ rest) /\
  rslice buf (length pre + 4) (length pre + 4 + length s) = Ok s.
Proof.
  intros (H1 & H2) buf. cbn [fst snd] in *.
  set (ss := [pre; be_bytes 2 t; be_bytes 2 (N.of_nat (length s)); s; rest]).
  assert (E : buf = concat ss) by (unfold buf, ss, tlv; laid). rewrite E.
  split; [unfold ss; len_simpl; lia|].
  split; [apply (rfrom_seg' ss 1); [unfold ss; len_simpl; lia|unfold ss; cbn [skipn concat]; now rewrite ?app_nil_r]|].
  split; [apply (rfrom_seg' ss 2); [unfold ss; len_simpl; lia|unfold ss; cbn [skipn concat]; now rewrite ?app_nil_r]|].
  split; [apply (rslice_seg ss 2); [reflexivity|unfold ss; len_simpl; lia|len_simpl; lia]|].
  split; [apply (rfrom_seg' ss 3); [unfold ss; len_simpl; lia|unfold ss; cbn [skipn concat]; now rewrite ?app_nil_r]|].
  apply (rslice_seg ss 3); [reflexivity|unfold ss; len_simpl; lia|len_simpl; lia].
Qed.
Lemma infoval_dec t s rest : info_ok (t, s) -> infoval_decode (tlv t s ++ rest) = Ok (t, s, (4 + length s)%nat).
Proof.
  intros (F & U). destruct (tlv_facts t s [] rest F) as (L & R0 & R2 & R24 & R4 & R4s). destruct F as (H1 & H2). cbn [fst snd] in *. cbn [app length Nat.add] in *.
  set (buf := tlv t s ++ rest) in *.
  assert (G0 : getn_u16 buf = Ok t). { unfold buf, tlv. rewrite <- !app_assoc. now apply getn_u16_be. }
  unfold infoval_decode. clearbody buf. replace (Nat.ltb (length buf) 4) with false by (symmetry; apply Nat.ltb_ge; lia).
  rewrite G0, bind_ok, R24, bind_ok, getn_u16_exact, bind_ok by exact H2. cbv zeta. rewrite Nat2N.id.
  replace (Nat.ltb (length buf - 4) (length s)) with false by (symmetry; apply Nat.ltb_ge; lia).
  change (4 + length s)%nat with (S (S (S (S (length s))))). rewrite R4s, bind_ok. unfold from_utf8. rewrite U, bind_ok. do 2 f_equal. lia.
Qed.
Lemma infoval_total buf : bytes_ok buf ->
  match infoval_decode buf with
  | Ok (t, s, n) => n = (4 + length s)%nat /\ info_ok (t, s) /\ exists rest, buf = tlv t s ++ rest
  | Err _ => True | _ => False end.
Proof.
  intros B. destruct (Nat.ltb_spec (length buf) 4) as [L|L].
  { unfold infoval_decode. apply Nat.ltb_lt in L as L'. now rewrite L'. }
  destruct (tlv_parse buf B L) as (t & n & x & -> & Ht & Hn & Bx).
  destruct (Nat.ltb_spec (length x) (N.to_nat n)) as [Lx|Lx].
  - unfold infoval_decode. replace (Nat.ltb _ 4) with false by (symmetry; apply Nat.ltb_ge; exact L).
    rewrite getn_u16_be, bind_ok by exact Ht.
    rewrite rslice_ok by (rewrite ?app_length, ?length_be_bytes; lia). rewrite (sub_app_exact (be_bytes 2 t)) by apply length_be_bytes.
    rewrite bind_ok, getn_u16_exact, bind_ok by exact Hn. cbv zeta.
    replace (Nat.ltb _ (N.to_nat n)) with true by (symmetry; apply Nat.ltb_lt; rewrite !app_length, !length_be_bytes; lia). exact I.
  - destruct (split_at (N.to_nat n) x Lx) as (s & rest & -> & Ls).
    assert (E : be_bytes 2 t ++ be_bytes 2 n ++ s ++ rest = tlv t s ++ rest).
    { unfold tlv. rewrite Ls, N2Nat.id. now rewrite <- !app_assoc. }
    assert (F : tlv_fits (t, s)) by (split; cbn [fst snd]; [exact Ht|rewrite Ls, N2Nat.id; exact Hn]).
    rewrite E. destruct (utf8_ok s) eqn:U.
    + rewrite infoval_dec by (split; assumption). split; [reflexivity|]. split; [split; assumption|]. now exists rest.
    + destruct (tlv_facts t s [] rest F) as (Lb & R0 & R2 & R24 & R4 & R4s). cbn [app length Nat.add] in *.
      assert (G0 : getn_u16 (tlv t s ++ rest) = Ok t). { unfold tlv. rewrite <- !app_assoc. now apply getn_u16_be. }
      unfold infoval_decode. replace (Nat.ltb _ 4) with false by (symmetry; apply Nat.ltb_ge; lia).
      rewrite G0, bind_ok, R24, bind_ok, getn_u16_exact, bind_ok by apply F. cbv zeta. rewrite Nat2N.id.
      destruct (Nat.ltb _ (length s)); [exact I|]. change (4 + length s)%nat with (S (S (S (S (length s))))). rewrite R4s, bind_ok. unfold from_utf8. rewrite U. exact I.
Qed.

(** ** Initiation *)
Definition init_set (ret : bmpinit) (x : N * list N) : bmpinit :=
  if fst x =? 0 then mkInit (Some (snd x)) (in_descr ret) (in_name ret)
  else if fst x =? 1 then mkInit (in_str ret) (Some (snd x)) (in_name ret)
  else if fst x =? 2 then mkInit (in_str ret) (in_descr ret) (Some (snd x)) else ret.
Lemma init_loop_tlvs l : Forall info_ok l -> forall fuel pre ret, (length (tlvs_wire l) < fuel)%nat ->
  init_loop fuel (pre ++ tlvs_wire l) (length pre) ret = Ok (fold_left init_set l ret, (length pre + length (tlvs_wire l))%nat).
Proof.
  induction 1 as [|[t s] l H Hl IH]; intros fuel pre ret Hf; (destruct fuel as [|fuel]; [lia|]); cbn [init_loop].
  - cbn [tlvs_wire flat_map]. rewrite app_nil_r, Nat.ltb_irrefl. cbn [fold_left length]. do 2 f_equal. lia.
  - change (tlvs_wire ((t, s) :: l)) with (tlv t s ++ tlvs_wire l) in *. rewrite app_length, length_tlv in Hf.
    replace (Nat.ltb _ _) with true by (symmetry; apply Nat.ltb_lt; rewrite !app_length, length_tlv; lia).
    rewrite rfrom_ok by (rewrite app_length; lia). rewrite bind_ok, skipn_app_exact by reflexivity.
    rewrite infoval_dec, bind_ok by exact H. rewrite app_assoc.
    replace (length pre + (4 + length s))%nat with (length (pre ++ tlv t s)) by (rewrite app_length, length_tlv; lia).
    rewrite IH by lia. cbn [fold_left]. do 2 f_equal. rewrite !app_length. lia.
Qed.
Lemma last_of_snoc t l x : last_of t (l ++ [x]) = if fst x =? t then Some (snd x) else last_of t l.
Proof. unfold last_of. rewrite rev_app_distr. cbn [rev app find]. now destruct (fst x =? t). Qed.
Lemma init_set_last l : fold_left init_set l (mkInit None None None) = mkInit (last_of 0 l) (last_of 1 l) (last_of 2 l).
Proof.
  induction l as [|[t s] l IH] using rev_ind; [reflexivity|]. rewrite fold_left_app, IH, !last_of_snoc. cbn [fold_left fst snd]. unfold init_set. cbn [fst snd in_str in_descr in_name].
  destruct (N.eqb_spec t 0) as [->|]; [reflexivity|]. destruct (N.eqb_spec t 1) as [->|]; [reflexivity|]. destruct (N.eqb_spec t 2); reflexivity.
Qed.
Lemma init_decode_tlvs l : Forall info_ok l -> init_decode (tlvs_wire l) = Ok (mkInit (last_of 0 l) (last_of 1 l) (last_of 2 l), length (tlvs_wire l)).
Proof.
  intros H. unfold init_decode. pose proof (init_loop_tlvs l H (S (length (tlvs_wire l))) [] (mkInit None None None) ltac:(lia)) as E.
  cbn [app length Nat.add] in E. now rewrite E, init_set_last.
Qed.
Lemma init_loop_total fuel : forall buf pos ret, bytes_ok buf -> (pos <= length buf)%nat -> (length buf - pos < fuel)%nat ->
  match init_loop fuel buf pos ret with
  | Ok (m, n) => n = length buf /\ exists l, skipn pos buf = tlvs_wire l /\ Forall info_ok l /\ m = fold_left init_set l ret
  | Err _ => True | _ => False end.
Proof.
  induction fuel as [|fuel IH]; intros buf pos ret B L F; [lia|]. cbn [init_loop]. destruct (Nat.ltb_spec pos (length buf)) as [Lp|Lp].
  - rewrite rfrom_ok, bind_ok by lia. pose proof (infoval_total (skipn pos buf) (Forall_skipn _ _ _ B)) as T.
    destruct (infoval_decode (skipn pos buf)) as [[[t s] n]|e| |]; try contradiction; cbn [bind]; [|exact I].
    destruct T as (-> & Hi & rest & E). pose proof (f_equal (@length N) E) as EL. rewrite skipn_length, app_length, length_tlv in EL.
    fold (init_set ret (t, s)). specialize (IH buf (pos + (4 + length s))%nat (init_set ret (t, s)) B ltac:(lia) ltac:(lia)).
    unfold init_set in IH at 1. cbn [fst snd] in IH.
    match goal with |- match init_loop _ _ _ ?r with _ => _ end => change r with (init_set ret (t, s)) end.
    change (init_loop fuel buf (pos + (4 + length s)) (init_set ret (t, s))) with
      (init_loop fuel buf (pos + (4 + length s)) (if t =? 0 then mkInit (Some s) (in_descr ret) (in_name ret)
       else if t =? 1 then mkInit (in_str ret) (Some s) (in_name ret) else if t =? 2 then mkInit (in_str ret) (in_descr ret) (Some s) else ret)).
    destruct (init_loop _ _ _ _) as [[m k]|e| |]; try contradiction; [|exact I].
    destruct IH as (Hk & l & El & Fl & Em). split; [exact Hk|]. exists ((t, s) :: l). split; [|split; [now constructor|exact Em]].
    change (tlvs_wire ((t, s) :: l)) with (tlv t s ++ tlvs_wire l). rewrite <- El, E. f_equal.
    rewrite <- skipn_skipn', E. symmetry. apply skipn_app_exact. apply length_tlv.
  - split; [lia|]. exists []. split; [|split; [constructor|reflexivity]]. rewrite skipn_all2 by lia. reflexivity.
Qed.
Lemma init_total buf : bytes_ok buf ->
  match init_decode buf with
  | Ok (m, n) => n = length buf /\ exists l, buf = tlvs_wire l /\ Forall info_ok l /\ m = mkInit (last_of 0 l) (last_of 1 l) (last_of 2 l)
  | Err _ => True | _ => False end.
Proof.
  intros B. unfold init_decode. pose proof (init_loop_total (S (length buf)) buf 0 (mkInit None None None) B ltac:(lia) ltac:(lia)) as T.
  destruct (init_loop _ _ _ _) as [[m k]|e| |]; try contradiction; [|exact I]. destruct T as (Hk & l & El & Fl & Em).
  split; [exact Hk|]. exists l. split; [exact El|]. split; [exact Fl|]. now rewrite Em, init_set_last.
Qed.
(** as lists of TLVs *)
Definition opt_list (t : N) (s : option (list N)) : list (N * list N) := match s with Some s => [(t, s)] | None => [] end.
Lemma opt_tlvs t s : opt_tlv t s = tlvs_wire (opt_list t s).
Proof. destruct s; [|reflexivity]. cbn [opt_tlv opt_list tlvs_wire flat_map fst snd]. now rewrite app_nil_r. Qed.
Lemma tlvs_app a b : tlvs_wire (a ++ b) = tlvs_wire a ++ tlvs_wire b.
Proof. unfold tlvs_wire. apply flat_map_app. Qed.
Lemma opt_info t s : t < 65536 -> str_ok s -> Forall info_ok (opt_list t s).
Proof. intros Ht H. destruct s as [s|]; constructor; [|constructor]. destruct H as [U L]. split; [split|]; assumption. Qed.
Lemma init_decode_wire m : init_ok m -> init_decode (init_wire m) = Ok (m, length (init_wire m)).
Proof.
  intros (H1 & H2 & H3). unfold init_wire. rewrite !opt_tlvs, <- !tlvs_app. rewrite init_decode_tlvs.
  - do 2 f_equal. destruct m as [[a|] [b|] [c|]]; reflexivity.
  - repeat (apply Forall_app; split); apply opt_info; (assumption || reflexivity).
Qed.
Lemma init_decode_sent m : init_ok m ->
  init_decode (init_sent m) = Ok (mkInit (later (later (in_str m) (in_descr m)) (in_name m)) None None, length (init_sent m)).
Proof.
  intros (H1 & H2 & H3). unfold init_sent. rewrite !opt_tlvs, <- !tlvs_app. rewrite init_decode_tlvs.
  - do 2 f_equal. destruct m as [[a|] [b|] [c|]]; reflexivity.
  - repeat (apply Forall_app; split); apply opt_info; (assumption || reflexivity).
Qed.
Lemma be_bytes_cast16 n : be_bytes 2 (cast 16 n) = be_bytes 2 n.
Proof. unfold cast. apply be_bytes_mod. cbv. discriminate. Qed.
Lemma tlv_cast t s : tlv t s = be_bytes 2 t ++ be_bytes 2 (cast 16 (N.of_nat (length s))) ++ s ++ [].
Proof. now rewrite be_bytes_cast16, app_nil_r. Qed.
Lemma writes_infoval t s : writes (infoval_encode t s) (tlv t s) (4 + length s)%nat.
Proof.
  unfold infoval_encode. apply writes_elen_guard; [rewrite length_tlv; lia|]. rewrite tlv_cast.
  eapply writes_next with (q := 2%nat); [apply writes_on_from, writes_setn_u16|reflexivity|].
  eapply writes_next with (q := 4%nat); [apply writes_on_from, writes_setn_u16|reflexivity|].
  eapply writes_next; [apply writes_at_write_at|reflexivity|]. apply writes_ret_nil. reflexivity.
Qed.
Lemma writes_init_field p s : writes_at p (init_field p s) (opt_tlv 0 s) (p + length (opt_tlv 0 s))%nat.
Proof.
  destruct s as [s|]; cbn [init_field opt_tlv].
  - rewrite <- (app_nil_r (tlv 0 s)) at 1. eapply writes_next; [apply writes_on_from, writes_infoval|reflexivity|].
    apply writes_ret_nil. rewrite length_tlv. reflexivity.
  - apply writes_ret_nil. cbn [length]. lia.
Qed.
Lemma writes_init m : writes (init_encode m) (init_sent m) (length (init_sent m)).
Proof.
  unfold init_encode, init_sent, writes. eapply writes_next; [apply writes_init_field|reflexivity|]. cbn beta.
  eapply writes_next; [apply writes_init_field|reflexivity|]. cbn beta. eapply writes_at_eq; [apply writes_init_field|reflexivity|reflexivity|]. rewrite !app_length. lia.
Qed.
Lemma init_field_panics s buf : (4 <= length buf < 4 + length s)%nat -> infoval_encode 0 s buf = Panic.
Proof.
  intros [H1 H2]. unfold infoval_encode. unfold ebind at 1. unfold elen. replace (Nat.ltb (length buf) 4) with false by (symmetry; apply Nat.ltb_ge; lia).
  destruct (split_at 4 buf H1) as (h & r & -> & Lh). do 5 (destruct h as [|? h]; try discriminate Lh). rewrite app_length in *. cbn [length] in *.
  unfold ebind. rewrite (writes_on_from 0 _ _ _ (writes_setn_u16 0)) by (cbn; lia).
  rewrite (writes_on_from 2 _ _ _ (writes_setn_u16 _)) by (cbn; lia).
  unfold write_at. rewrite !length_splice by (try rewrite length_splice; rewrite ?length_be_bytes, ?app_length; cbn [length]; lia).
  rewrite app_length. cbn [length]. replace (Nat.leb _ _) with false by (symmetry; apply Nat.leb_gt; lia). reflexivity.
Qed.

(** ** Termination *)
Lemma term_short fuel pre s ret : (length s < 4)%nat -> term_loop (S fuel) (pre ++ s) (length pre) ret = Ok (ret, length pre).
Proof.
  intros H. cbn [term_loop]. replace (Nat.leb 4 _) with false by (symmetry; apply Nat.leb_gt; rewrite app_length; lia). reflexivity.
Qed.
Lemma term_cut fuel pre t n rest ret : t < 65536 -> n < 65536 -> (length rest < N.to_nat n)%nat ->
  term_loop (S fuel) (pre ++ be_bytes 2 t ++ be_bytes 2 n ++ rest) (length pre) ret = Err EInsufficient.
Proof.
  intros Ht Hn H. cbn [term_loop].
  replace (Nat.leb 4 _) with true by (symmetry; apply Nat.leb_le; rewrite !app_length, !length_be_bytes; lia).
  rewrite rfrom_ok by (rewrite app_length; lia). rewrite skipn_app_exact, bind_ok by reflexivity. rewrite getn_u16_be, bind_ok by exact Ht.
  rewrite app_assoc. rewrite rfrom_ok by (rewrite !app_length, !length_be_bytes; lia).
  rewrite skipn_app_exact, bind_ok by (rewrite app_length, length_be_bytes; reflexivity). rewrite getn_u16_be, bind_ok by exact Hn. cbv zeta.
  replace (Nat.ltb _ _) with true by (symmetry; apply Nat.ltb_lt; rewrite !app_length, !length_be_bytes; lia). reflexivity.
Qed.
Lemma term_tlv fuel pre t v rest ret : tlv_fits (t, v) -> let buf := pre ++ tlv t v ++ rest in
  term_loop (S fuel) buf (length pre) ret =
  (r <- (if t =? 0 then s <- from_utf8 v ;; Ok (mkTerm (Some s) (tm_reason ret))
         else if t =? 1 then r <- getn_u16 (v ++ rest) ;; Ok (mkTerm (tm_str ret) (Some r)) else Ok ret) ;;
   term_loop fuel buf (length (pre ++ tlv t v)) r).
Proof.
  intros F buf. destruct (tlv_facts t v pre rest F) as (L & R0 & R2 & R24 & R4 & R4s). fold buf in L, R0, R2, R24, R4, R4s. clearbody buf.
  destruct F as (H1 & H2). cbn [fst snd] in *. cbn [term_loop].
  replace (Nat.leb 4 _) with true by (symmetry; apply Nat.leb_le; lia).
  rewrite R0, bind_ok, getn_u16_be, bind_ok by exact H1. rewrite R2, bind_ok, getn_u16_be, bind_ok by exact H2. cbv zeta. rewrite Nat2N.id.
  replace (Nat.ltb _ _) with false by (symmetry; apply Nat.ltb_ge; lia). rewrite R4s, R4, !bind_ok.
  replace (length (pre ++ tlv t v)) with (length pre + 4 + length v)%nat by (rewrite app_length, length_tlv; lia). reflexivity.
Qed.
(** what a TLV sets, with [rest] behind it *)
Definition term_set (ret : bmpterm) (x : N * list N) : bmpterm :=
  if fst x =? 0 then mkTerm (Some (snd x)) (tm_reason ret)
  else if fst x =? 1 then mkTerm (tm_str ret) (Some (be_val (firstn 2 (snd x)))) else ret.
Lemma getn_u16_front v rest : bytes_ok v -> (2 <= length v)%nat -> getn_u16 (v ++ rest) = Ok (be_val (firstn 2 v)).
Proof.
  intros B L. destruct v as [|a [|b v]]; [cbn in L; lia..|]. inversion B as [|? ? B1 B']; subst. inversion B' as [|? ? B2 ?]; subst.
  cbn [app firstn]. now apply getn_u16_val.
Qed.
Lemma term_loop_tlvs l tail : Forall term_tlv_ok l -> (length tail < 4)%nat -> forall fuel pre ret, (length (tlvs_wire l) < fuel)%nat ->
  term_loop fuel (pre ++ tlvs_wire l ++ tail) (length pre) ret = Ok (fold_left term_set l ret, length (pre ++ tlvs_wire l)).
Proof.
  intros H Ht. induction H as [|[t v] l H Hl IH]; intros fuel pre ret Hf; (destruct fuel as [|fuel]; [lia|]).
  - cbn [tlvs_wire flat_map app]. rewrite term_short, app_nil_r by exact Ht. reflexivity.
  - change (tlvs_wire ((t, v) :: l)) with (tlv t v ++ tlvs_wire l) in *. rewrite app_length, length_tlv in Hf. rewrite <- app_assoc.
    destruct H as ((F & U) & R). cbn [fst snd] in *. rewrite term_tlv by exact F.
    assert (E : (if t =? 0 then s <- from_utf8 v ;; Ok (mkTerm (Some s) (tm_reason ret))
         else if t =? 1 then r <- getn_u16 (v ++ tlvs_wire l ++ tail) ;; Ok (mkTerm (tm_str ret) (Some r)) else Ok ret) = Ok (term_set ret (t, v))).
    { unfold term_set. cbn [fst snd]. destruct (N.eqb_spec t 0) as [->|]; [unfold from_utf8; now rewrite U|].
      destruct (N.eqb_spec t 1) as [->|]; [|reflexivity]. destruct (R eq_refl) as [B L]. now rewrite getn_u16_front. }
    rewrite E, bind_ok. rewrite app_assoc. rewrite IH by lia. cbn [fold_left]. do 2 f_equal. now rewrite !app_length, Nat.add_assoc.
Qed.
Lemma term_set_last l : fold_left term_set l (mkTerm None None) = mkTerm (last_of 0 l) (option_map (fun v => be_val (firstn 2 v)) (last_of 1 l)).
Proof.
  induction l as [|[t s] l IH] using rev_ind; [reflexivity|]. rewrite fold_left_app, IH, !last_of_snoc. cbn [fold_left fst snd]. unfold term_set. cbn [fst snd tm_str tm_reason].
  destruct (N.eqb_spec t 0) as [->|]; [reflexivity|]. destruct (N.eqb_spec t 1) as [->|]; reflexivity.
Qed.
Lemma term_decode_tlvs l tail : Forall term_tlv_ok l -> (length tail < 4)%nat ->
  term_decode (tlvs_wire l ++ tail) = Ok (mkTerm (last_of 0 l) (option_map (fun v => be_val (firstn 2 v)) (last_of 1 l)), length (tlvs_wire l)).
Proof.
  intros H Ht. unfold term_decode. pose proof (term_loop_tlvs l tail H Ht (S (length (tlvs_wire l ++ tail))) [] (mkTerm None None) ltac:(rewrite app_length; lia)) as E.
  cbn [app length] in E. now rewrite E, term_set_last.
Qed.
Lemma term_decode_wire m : term_ok m -> term_decode (term_wire m) = Ok (m, length (term_wire m)).
Proof.
  intros (H1 & H2). set (l := opt_list 0 (tm_str m) ++ opt_list 1 (option_map (be_bytes 2) (tm_reason m))).
  assert (E : term_wire m = tlvs_wire l ++ []).
  { unfold l. rewrite app_nil_r, tlvs_app, <- !opt_tlvs. unfold term_wire. now destruct (tm_reason m). }
  rewrite E, term_decode_tlvs.
  - rewrite app_nil_r. do 2 f_equal. unfold l. destruct m as [s [r|]]; cbn [tm_str tm_reason option_map] in *.
    + replace (last_of 0 _) with s by (destruct s; reflexivity). replace (last_of 1 _) with (Some (be_bytes 2 r)) by (destruct s; reflexivity).
      cbn [option_map]. rewrite firstn_all2 by (rewrite length_be_bytes; lia). rewrite be_val_be_bytes by exact H2. reflexivity.
    + now destruct s.
  - apply Forall_app. split.
    + destruct (tm_str m) as [s|]; constructor; [|constructor]. destruct H1 as [U L]. split; [split; [split; [reflexivity|exact L]|intros _; exact U]|discriminate].
    + destruct (tm_reason m) as [r|]; constructor; [|constructor]. split; [split; [split; [reflexivity|]|discriminate]|]; cbn [snd]; rewrite length_be_bytes; [reflexivity|].
      intros _. split; [apply be_bytes_ok|lia].
  - cbn. lia.
Qed.
Lemma writes_term m : writes (term_encode m) (term_wire m) (length (term_wire m)).
Proof.
  unfold term_encode, term_wire, writes. eapply writes_at_bind with (a := length (opt_tlv 0 (tm_str m))).
  - destruct (tm_str m) as [s|]; cbn [opt_tlv]; [|apply writes_ret_nil; reflexivity]. 
    intros buf L. rewrite length_tlv in L. unfold ebind at 1. unfold elen. rewrite Nat.sub_0_r.
    replace (Nat.ltb (length buf) (4 + length s)) with false by (symmetry; apply Nat.ltb_ge; lia). revert buf L.
    enough (W : writes (on_from 0 (setn_u16 0) ;;; on_from 2 (setn_u16 (cast 16 (N.of_nat (length s)))) ;;; write_at 4 s ;;; eret (4 + length s)%nat) (tlv 0 s) (length (tlv 0 s))).
    { intros buf L. apply W. rewrite length_tlv. exact L. }
    rewrite length_tlv, tlv_cast.
    eapply writes_next with (q := 2%nat); [apply writes_on_from, writes_setn_u16|reflexivity|].
    eapply writes_next with (q := 4%nat); [apply writes_on_from, writes_setn_u16|reflexivity|].
    eapply writes_next; [apply writes_at_write_at|reflexivity|]. apply writes_ret_nil. reflexivity.
  - cbn [Nat.add]. set (p := length (opt_tlv 0 (tm_str m))). destruct (tm_reason m) as [r|]; [|apply writes_ret_nil; rewrite app_nil_r; reflexivity].
    intros buf L. rewrite length_tlv, length_be_bytes in L. unfold ebind at 1. unfold elen.
    replace (Nat.ltb (length buf - p) 6) with false by (symmetry; apply Nat.ltb_ge; lia). revert buf L.
    enough (W : writes_at p (on_from p (setn_u16 1) ;;; on_from (p + 2) (setn_u16 2) ;;; on_from (p + 4) (setn_u16 r) ;;; eret (p + 6)%nat) (tlv 1 (be_bytes 2 r)) (p + 6)%nat).
    { intros buf L. rewrite W by (rewrite length_tlv, length_be_bytes; exact L). rewrite app_length, length_tlv, length_be_bytes. reflexivity. }
    unfold tlv. rewrite <- (app_nil_r (be_bytes 2 r)) at 2.
    eapply writes_next with (q := (p + 2)%nat); [apply writes_on_from, writes_setn_u16|reflexivity|].
    eapply writes_next with (q := (p + 4)%nat); [apply writes_on_from, writes_setn_u16|rewrite !length_be_bytes; lia|].
    eapply writes_next; [apply writes_on_from, writes_setn_u16|reflexivity|]. apply writes_ret_nil. reflexivity.
Qed.

(** What the decoder of Termination accepts; when it panics. *)
Lemma term_loop_total fuel : forall pre s ret, bytes_ok s -> (length s < fuel)%nat ->
  match term_loop fuel (pre ++ s) (length pre) ret with
  | Ok (m, n) => (length (pre ++ s) < n + 4)%nat
  | Err _ => True
  | Panic => exists l v tail, s = tlvs_wire l ++ tlv 1 v ++ tail /\ Forall term_tlv_text l /\ tlv_fits (1, v) /\ (length v + length tail < 2)%nat
  | OutOfFuel => False
  end.
Proof.
  induction fuel as [|fuel IH]; intros pre s ret B L; [lia|]. destruct (Nat.ltb_spec (length s) 4) as [H|H].
  { rewrite term_short by exact H. rewrite app_length. lia. }
  destruct (tlv_parse s B H) as (t & n & rest & -> & Ht & Hn & Br). destruct (Nat.ltb_spec (length rest) (N.to_nat n)) as [C|C].
  { now rewrite term_cut. }
  destruct (split_at (N.to_nat n) rest C) as (v & r & -> & Lv). apply Forall_app in Br as [Bv Br].
  assert (En : n = N.of_nat (length v)) by lia. rewrite En in *. clear En n Lv C. rewrite !app_length, !length_be_bytes in L.
  assert (F : tlv_fits (t, v)) by (split; assumption). 
  replace (be_bytes 2 t ++ be_bytes 2 (N.of_nat (length v)) ++ v ++ r) with (tlv t v ++ r) by (unfold tlv; now rewrite <- !app_assoc).
  rewrite term_tlv by exact F.
  match goal with |- match bind ?x _ with _ => _ end => destruct x as [r'|e| |] eqn:E end; cbn [bind].
  - rewrite app_assoc. specialize (IH (pre ++ tlv t v) r r' Br ltac:(lia)). destruct (term_loop _ _ _ _) as [[m q]|e| |]; [exact IH|exact I| |exact IH].
    destruct IH as (l & w & tail & -> & Hl & Hw & Hs). exists ((t, v) :: l), w, tail. split; [cbn [tlvs_wire flat_map fst snd]; now rewrite <- !app_assoc|].
    split; [|split; assumption]. constructor; [|assumption]. split; [exact F|]. cbn [fst snd]. intros ->. cbn [N.eqb] in E.
    unfold from_utf8 in E. destruct (utf8_ok v); [reflexivity|discriminate].
  - exact I.
  - destruct (t =? 0) eqn:E0; [unfold from_utf8 in E; destruct (utf8_ok v); discriminate|]. destruct (N.eqb_spec t 1) as [->|]; [|discriminate].
    destruct (getn_u16_cases (v ++ r)) as [(y & Ey & _)|(Ey & Ly)]; rewrite Ey in E; [discriminate|]. rewrite app_length in Ly.
    exists [], v, r. split; [reflexivity|]. split; [constructor|]. split; [exact F|lia].
  - destruct (t =? 0) eqn:E0; [unfold from_utf8 in E; destruct (utf8_ok v); discriminate|]. destruct (N.eqb_spec t 1) as [->|]; [|discriminate].
    destruct (getn_u16_cases (v ++ r)) as [(y & Ey & _)|(Ey & Ly)]; rewrite Ey in E; discriminate.
Qed.
Lemma term_loop_panics l v tail : Forall term_tlv_text l -> tlv_fits (1, v) -> (length v + length tail < 2)%nat -> forall fuel pre ret,
  (length l < fuel)%nat -> term_loop fuel (pre ++ tlvs_wire l ++ tlv 1 v ++ tail) (length pre) ret = Panic.
Proof.
  intros H F L. induction H as [|[t w] l (Fw & U) Hl IH]; intros fuel pre ret Hf; (destruct fuel as [|fuel]; [lia|]).
  - cbn [tlvs_wire flat_map app]. rewrite term_tlv by exact F. cbn [N.eqb Pos.eqb]. rewrite getn_u16_short by (rewrite app_length; lia). reflexivity.
  - change (tlvs_wire ((t, w) :: l)) with (tlv t w ++ tlvs_wire l). rewrite <- (app_assoc (tlv t w)). cbn [length fst snd] in *. rewrite term_tlv by exact Fw.
    match goal with |- bind ?x _ = _ => assert (E : exists r, x = Ok r) end.
    { destruct (N.eqb_spec t 0) as [->|]; [unfold from_utf8; rewrite U by reflexivity; eexists; reflexivity|].
      destruct (N.eqb_spec t 1) as [->|]; [|eexists; reflexivity].
      destruct (getn_u16_cases (w ++ tlvs_wire l ++ tlv 1 v ++ tail)) as [(y & Ey & _)|(Ey & Ly)]; [rewrite Ey; eexists; reflexivity|].
      exfalso. rewrite !app_length, length_tlv in Ly. clear - Ly. lia. }
    destruct E as [r ->]. rewrite bind_ok. rewrite app_assoc. apply IH. lia.
Qed.
Lemma tlvs_count l : (length l <= length (tlvs_wire l))%nat.
Proof. induction l as [|[t v] l IH]; [reflexivity|]. change (tlvs_wire ((t, v) :: l)) with (tlv t v ++ tlvs_wire l). rewrite app_length, length_tlv. cbn [length]. lia. Qed.
Lemma term_panic_iff buf : bytes_ok buf -> term_decode buf = Panic <->
  exists l v tail, buf = tlvs_wire l ++ tlv 1 v ++ tail /\ Forall term_tlv_text l /\ (length v + length tail < 2)%nat.
Proof.
  intros B. split.
  - intros E. pose proof (term_loop_total (S (length buf)) [] buf (mkTerm None None) B ltac:(lia)) as T. cbn [app length] in T.
    unfold term_decode in E. rewrite E in T. destruct T as (l & v & tail & H1 & H2 & H3 & H4). exists l, v, tail. auto.
  - intros (l & v & tail & -> & H1 & H2). unfold term_decode. apply (term_loop_panics l v tail H1) with (pre := []).
    + split; [reflexivity|]. cbn [snd]. clear - H2. lia.
    + exact H2.
    + rewrite app_length. pose proof (tlvs_count l). lia.
Qed.
Lemma term_decode_nf buf : bytes_ok buf -> term_decode buf <> OutOfFuel.
Proof.
  intros B E. pose proof (term_loop_total (S (length buf)) [] buf (mkTerm None None) B ltac:(lia)) as T. unfold term_decode in E. cbn [app length] in T. rewrite E in T. exact T.
Qed.

(** ** Embedded BGP messages *)
Lemma length_frame' t body : length (S_Open.frame (t, body)) = (19 + length body)%nat.
Proof. unfold S_Open.frame. cbn [fst snd]. now rewrite app_length, length_header. Qed.
Lemma body_frame oc t body pre rest p : N.of_nat (length body) <= 65516 -> p = length pre ->
  bgp_body oc t (pre ++ S_Open.frame (t, body) ++ rest) p = Ok (body, (p + 19 + length body)%nat).
Proof.
  intros H ->. unfold bgp_body. rewrite rfrom_ok by (rewrite app_length; lia). rewrite skipn_app_exact, bind_ok by reflexivity.
  unfold S_Open.frame. cbn [fst snd]. rewrite <- app_assoc, head_rt, bind_ok by exact H. cbv zeta. rewrite N.eqb_refl. cbn [negb].
  rewrite rslice_ok by (rewrite ?app_length, ?length_header; lia). rewrite bind_ok. do 2 f_equal.
  rewrite app_assoc. apply sub_app_exact; rewrite ?app_length, ?length_header; lia.
Qed.
Lemma code_inj t want : msgtype_encode t = msgtype_encode want -> t = want.
Proof. destruct t, want; (reflexivity || discriminate). Qed.
Lemma body_spec oc want buf pos : bytes_ok buf -> (pos <= length buf)%nat ->
  match bgp_body oc want buf pos with
  | Ok (b, q) => body_at oc want buf pos b q /\ (pos + 19 <= q <= length buf)%nat /\ ~ body_outside oc want buf pos
  | Err _ => ~ body_outside oc want buf pos
  | Panic => body_outside oc want buf pos
  | OutOfFuel => False
  end.
Proof.
  intros B L. unfold bgp_body. rewrite rfrom_ok, bind_ok by exact L. 
  assert (U : forall t t' len len', is_header (skipn pos buf) t len -> is_header (skipn pos buf) t' len' -> t = t' /\ len = len').
  { intros t t' len len' (_ & _ & E1 & C1) (_ & _ & E2 & C2). rewrite C1 in C2. split; [|congruence].
    apply code_inj. change (msg_code t = msg_code t'). congruence. }
  pose proof (head_spec oc (skipn pos buf) (Forall_skipn _ _ _ B)) as S. destruct (decode_message_head _ _) as [[t n]|e| |]; cbn [bind].
  - destruct S as (len & Hh & Hn). assert (Hlen : (19 + pos <= length buf)%nat) by (destruct Hh as (G & _); rewrite skipn_length in G; lia).
    assert (Hn2 : N.of_nat n + 19 = wrapped len).
    { unfold wrapped. destruct (N.ltb_spec len 19); destruct Hn as [[? ?]|(? & ? & ?)]; lia. }
    assert (Hoc : ~ (len < 19 /\ oc = true)).
    { intros (G1 & G2). destruct Hn as [[? ?]|(? & ? & ?)]; [lia|congruence]. }
    destruct (N.eqb_spec (msgtype_encode t) (msgtype_encode want)) as [Et|Et]; cbn [negb].
    + apply code_inj in Et as ->. unfold rslice. replace (Nat.leb (pos + 19) (pos + 19 + n)) with true by (symmetry; apply Nat.leb_le; lia). cbn [andb].
      destruct (Nat.leb_spec (pos + 19 + n) (length buf)) as [G|G]; cbn [bind].
      * split; [exists len; split; [exact Hh|]; split; [intros; destruct Hn as [[? ?]|(? & ? & ?)]; [lia|assumption]|]; split; [clear - Hn2; lia|]; split; [exact G|reflexivity]|].
        split; [lia|]. intros (t' & len' & Hh' & D). destruct (U _ _ _ _ Hh Hh') as [<- <-]. destruct D as [D|[_ D]]; [tauto|].
        clear - Hn2 G D. lia.
      * exists want, len. split; [exact Hh|right]. split; [reflexivity|]. clear - Hn2 G. lia.
    + intros (t' & len' & Hh' & D). destruct (U _ _ _ _ Hh Hh') as [<- <-]. destruct D as [D|[-> D]]; [tauto|congruence].
  - intros (t & len & Hh & _). exact (S _ _ Hh).
  - destruct S as (-> & t & len & Hh & G). exists t, len. auto.
  - exact S.
Qed.
Lemma writes_put oc t e body pos : writes e body (length body) -> N.of_nat (length body) <= 65516 ->
  writes_at pos (bgp_put oc t e pos) (S_Open.frame (t, body)) (pos + (length body + 19))%nat.
Proof.
  intros W H buf L. rewrite length_frame' in L. unfold bgp_put, ebind at 1. rewrite (writes_on_from (pos + 19) _ _ _ W) by lia.
  unfold ebind. set (b1 := splice (pos + 19) body buf). assert (L1 : length b1 = length buf) by (apply length_splice; lia).
  assert (E : on_from pos (prepare_message_buf oc t (length body)) b1 = Ok ((length body + 19)%nat, splice pos (header t (length body)) b1)).
  { unfold on_from. replace (Nat.leb pos (length b1)) with true by (symmetry; apply Nat.leb_le; lia).
    rewrite prepare_ok by (rewrite ?skipn_length; lia). do 2 f_equal. unfold splice. rewrite length_header, skipn_skipn'. reflexivity. }
  rewrite E. unfold eret. do 2 f_equal. unfold b1, S_Open.frame. cbn [fst snd].
  apply (splice_splice_adj_rev pos (header t (length body)) body buf). rewrite length_header. lia.
Qed.

(** ** PeerUp and PeerDown *)
Lemma writes_open m : open_wf m -> writes (open_encode m) (open_sent m) (length (open_sent m)).
Proof. intros H. pose proof (open_encode_ok m H) as W. rewrite open_caplen_eq in W. exact W. Qed.
Lemma length_open_sent m : length (open_sent m) = length (open_wire m).
Proof. reflexivity. Qed.
Lemma wz_up oc m : up_wf m -> wz (is_v4 (ph_addr (pu_peer m)) || is_v4 (pu_local m)) 0 (peerup_encode oc m) (up_wire m) (length (up_wire m)).
Proof.
  intros (Hp & Hl & Hlp & Hrp & H1 & H2 & L1 & L2). unfold peerup_encode, up_wire, up_head.
  apply wz_guard; [rewrite !app_length, length_peer, length_field, !length_be_bytes; lia|]. rewrite <- !app_assoc.
  eapply wz_next with (q := 42%nat); [apply wz_peer|now rewrite length_peer| |reflexivity]. cbn beta.
  eapply wz_next with (q := 58%nat); [apply wz_on_from, wz_addr|now rewrite length_field| |symmetry; apply Bool.orb_false_r].
  eapply wz_next with (q := 60%nat); [apply wz_on_from, wz_writes, writes_setn_u16|reflexivity| |reflexivity].
  eapply wz_next with (q := 62%nat); [apply wz_on_from, wz_writes, writes_setn_u16|reflexivity| |reflexivity].
  eapply wz_next; [apply wz_writes, writes_put; [now apply writes_open|now rewrite length_open_sent]|now rewrite length_frame', (Nat.add_comm 19)| |reflexivity].
  cbn beta. apply wz_writes. eapply writes_at_eq; [apply writes_put; [now apply writes_open|now rewrite length_open_sent]|reflexivity|reflexivity|].
  rewrite !app_length, length_peer, length_field, !length_be_bytes, !length_frame'. lia.
Qed.
Lemma length_head m : length (up_head m) = 62%nat.
Proof. unfold up_head. now rewrite !app_length, length_peer, length_field, !length_be_bytes. Qed.
Lemma up_decode_gen oc m rest h' l' : up_wf m ->
  (forall r, peerhdr_decode (peer_wire (pu_peer m) ++ r) = Ok (h', 42%nat)) -> (forall r, bmp_addr_decode (addr_field (pu_local m) ++ r) = Ok l') ->
  peerup_decode oc (up_wire m ++ rest) = Ok (mkUp h' l' (pu_lport m) (pu_rport m) (open_seen (pu_msg1 m)) (open_seen (pu_msg2 m)), length (up_wire m)).
Proof.
  intros (Hp & Hl & Hlp & Hrp & H1 & H2 & L1 & L2) D1 D2. unfold peerup_decode. set (buf := up_wire m ++ rest).
  assert (Lb : (62 <= length buf)%nat) by (unfold buf, up_wire; rewrite !app_length, length_head; lia).
  assert (E1 : buf = peer_wire (pu_peer m) ++ addr_field (pu_local m) ++ be_bytes 2 (pu_lport m) ++ be_bytes 2 (pu_rport m) ++
      S_Open.frame (MOpen, open_sent (pu_msg1 m)) ++ S_Open.frame (MOpen, open_sent (pu_msg2 m)) ++ rest) by (unfold buf, up_wire, up_head; now rewrite <- !app_assoc).
  assert (E2 : buf = up_head m ++ S_Open.frame (MOpen, open_sent (pu_msg1 m)) ++ S_Open.frame (MOpen, open_sent (pu_msg2 m)) ++ rest)
    by (unfold buf, up_wire; now rewrite <- !app_assoc).
  assert (E3 : buf = (up_head m ++ S_Open.frame (MOpen, open_sent (pu_msg1 m))) ++ S_Open.frame (MOpen, open_sent (pu_msg2 m)) ++ rest)
    by (unfold buf, up_wire; now rewrite <- !app_assoc).
  assert (EL : length (up_wire m) = (62 + 19 + length (open_sent (pu_msg1 m)) + 19 + length (open_sent (pu_msg2 m)))%nat).
  { unfold up_wire. rewrite !app_length, length_head, !length_frame'. lia. }
  clearbody buf. replace (Nat.ltb _ _) with false by (symmetry; apply Nat.ltb_ge; lia).
  rewrite E1 at 1. rewrite D1, bind_ok. cbn [Nat.add].
  assert (R1 : rfrom buf 42 = Ok (addr_field (pu_local m) ++ be_bytes 2 (pu_lport m) ++ be_bytes 2 (pu_rport m) ++
      S_Open.frame (MOpen, open_sent (pu_msg1 m)) ++ S_Open.frame (MOpen, open_sent (pu_msg2 m)) ++ rest)).
  { rewrite rfrom_ok by lia. rewrite E1. now rewrite skipn_app_exact by apply length_peer. }
  assert (R2 : rfrom buf 58 = Ok (be_bytes 2 (pu_lport m) ++ be_bytes 2 (pu_rport m) ++
      S_Open.frame (MOpen, open_sent (pu_msg1 m)) ++ S_Open.frame (MOpen, open_sent (pu_msg2 m)) ++ rest)).
  { rewrite rfrom_ok by lia. rewrite E1. rewrite app_assoc. now rewrite skipn_app_exact by (rewrite app_length, length_peer, length_field; reflexivity). }
  assert (R3 : rfrom buf 60 = Ok (be_bytes 2 (pu_rport m) ++
      S_Open.frame (MOpen, open_sent (pu_msg1 m)) ++ S_Open.frame (MOpen, open_sent (pu_msg2 m)) ++ rest)).
  { rewrite rfrom_ok by lia. rewrite E1. rewrite app_assoc, app_assoc. now rewrite skipn_app_exact by (rewrite !app_length, length_peer, length_field, length_be_bytes; reflexivity). }
  rewrite R1, bind_ok, D2, bind_ok. rewrite R2, bind_ok, getn_u16_be, bind_ok by exact Hlp. rewrite R3, bind_ok, getn_u16_be, bind_ok by exact Hrp.
  rewrite E2 at 1. rewrite body_frame by (rewrite ?length_open_sent, ?length_head; auto). rewrite bind_ok. unfold open_sent at 1. rewrite open_decode_wire, bind_ok by exact H1.
  rewrite E3 at 1. rewrite body_frame; [|now rewrite length_open_sent|rewrite app_length, length_head, length_frame'; lia]. rewrite bind_ok. unfold open_sent at 1.
  rewrite open_decode_wire, bind_ok by exact H2. do 2 f_equal. lia.
Qed.
Lemma up_decode_wire oc m rest : up_wf m -> ~ v4_like (ph_addr (pu_peer m)) -> ~ v4_like (pu_local m) ->
  peerup_decode oc (up_wire m ++ rest) = Ok (up_seen m, length (up_wire m)).
Proof.
  intros H V1 V2. apply up_decode_gen; [exact H| |].
  - intros r. apply peer_decode_wire; [apply H|exact V1].
  - intros r. apply addr_decode_field; [apply H|exact V2].
Qed.
Lemma wz_down oc m : down_wf m -> wz (is_v4 (ph_addr (pd_peer m))) 0 (peerdown_encode oc m) (down_wire m) (length (down_wire m)).
Proof.
  intros (Hp & Hr) buf L. unfold peerdown_encode. unfold ebind at 1. unfold elen. unfold down_wire in *.
  assert (L43 : (43 <= length (peer_wire (pd_peer m) ++ reason_wire (pd_reason m)))%nat).
  { rewrite app_length, length_peer. destruct (pd_reason m); cbn [reason_wire length]; lia. }
  replace (Nat.ltb (length buf) 43) with false by (symmetry; apply Nat.ltb_ge; lia).
  set (len := length buf). assert (Ll : (length (peer_wire (pd_peer m) ++ reason_wire (pd_reason m)) <= len)%nat) by exact L. revert L.
  assert (G : wz (is_v4 (ph_addr (pd_peer m))) 0 (curpos <~ peerhdr_encode (pd_peer m) ;;
   let put code nt :=
    set_idx curpos code ;;;
    if Nat.ltb (len - (curpos + 1)) 19 then eerr EInsufficient else
    bgp_put oc MNotification (notif_encode nt) (curpos + 1) in
  match pd_reason m with
  | AdminClosed nt => put 1 nt
  | LocalState s =>
      set_idx curpos 2 ;;;
      if Nat.ltb (len - (curpos + 1)) 2 then eerr EInsufficient else
      on_from (curpos + 1) (setn_u16 s) ;;; eret (curpos + 3)%nat
  | RemoteNotif nt => put 3 nt
  | RemoteClosed => set_idx curpos 4 ;;; eret (curpos + 1)%nat
  | BmpDisabled => set_idx curpos 5 ;;; eret (curpos + 1)%nat
  end) (peer_wire (pd_peer m) ++ reason_wire (pd_reason m)) (length (peer_wire (pd_peer m) ++ reason_wire (pd_reason m)))).
  2:{ clearbody len. exact (G buf). }
  clearbody len. clear buf L43. eapply wz_next with (q := 42%nat); [apply wz_peer|now rewrite length_peer| |symmetry; apply Bool.orb_false_r].
  cbn beta zeta. apply wz_writes.
  assert (P : forall code nt, notif_wf nt -> (length (peer_wire (pd_peer m) ++ code :: S_Open.frame (MNotification, notif_wire nt)) <= len)%nat ->
    writes_at 42 (set_idx 42 code ;;; if Nat.ltb (len - (42 + 1)) 19 then eerr EInsufficient else bgp_put oc MNotification (notif_encode nt) (42 + 1))
      (code :: S_Open.frame (MNotification, notif_wire nt)) (length (peer_wire (pd_peer m) ++ code :: S_Open.frame (MNotification, notif_wire nt)))).
  { intros code nt Hn Lc. rewrite app_length, length_peer in *. cbn [length] in *. rewrite length_frame' in *. change (length (notif_wire nt)) with 4%nat in *.
    change (code :: S_Open.frame (MNotification, notif_wire nt)) with ([code] ++ S_Open.frame (MNotification, notif_wire nt)).
    eapply writes_next with (q := 43%nat); [apply writes_at_set_idx|reflexivity|].
    replace (Nat.ltb _ _) with false by (symmetry; apply Nat.ltb_ge; lia).
    eapply writes_at_eq; [apply (writes_put oc MNotification (notif_encode nt) (notif_wire nt)); [now apply notif_encode_ok|cbn; lia]|reflexivity|reflexivity|reflexivity]. }
  destruct (pd_reason m) as [nt|s|nt| |]; cbn [reason_wire].
  - now apply P.
  - cbn [reason_wire] in Ll. change (2 :: be_bytes 2 s) with ([2] ++ be_bytes 2 s) in *. rewrite !app_length, length_peer, length_be_bytes in Ll. cbn [length] in Ll.
    eapply writes_next with (q := 43%nat); [apply writes_at_set_idx|reflexivity|].
    replace (Nat.ltb _ _) with false by (symmetry; apply Nat.ltb_ge; lia). rewrite <- (app_nil_r (be_bytes 2 s)) at 1.
    eapply writes_next; [apply writes_on_from, writes_setn_u16|reflexivity|]. apply writes_ret_nil. rewrite !app_length, length_peer, length_be_bytes. reflexivity.
  - now apply P.
  - rewrite <- (app_nil_r [4]) at 1. eapply writes_next; [apply writes_at_set_idx|reflexivity|]. apply writes_ret_nil. now rewrite app_length, length_peer.
  - rewrite <- (app_nil_r [5]) at 1. eapply writes_next; [apply writes_at_set_idx|reflexivity|]. apply writes_ret_nil. now rewrite app_length, length_peer.
Qed.
Lemma down_decode_gen oc m rest h' : down_wf m -> (forall r, peerhdr_decode (peer_wire (pd_peer m) ++ r) = Ok (h', 42%nat)) ->
  peerdown_decode oc (down_wire m ++ rest) = Ok (mkDown h' (pd_reason m), length (down_wire m)).
Proof.
  intros (Hp & Hr) D. unfold peerdown_decode, down_wire. rewrite <- app_assoc.
  assert (Lr : (1 <= length (reason_wire (pd_reason m)))%nat) by (destruct (pd_reason m); cbn [reason_wire length]; lia).
  replace (Nat.ltb _ _) with false by (symmetry; apply Nat.ltb_ge; rewrite !app_length, length_peer; lia). rewrite D, bind_ok.
  assert (P : forall code nt, notif_wf nt -> bgp_body oc MNotification (peer_wire (pd_peer m) ++ (code :: S_Open.frame (MNotification, notif_wire nt)) ++ rest) (42 + 1)
     = Ok (notif_wire nt, (42 + 1 + 19 + 4)%nat)).
  { intros code nt Hn. replace (peer_wire (pd_peer m) ++ (code :: S_Open.frame (MNotification, notif_wire nt)) ++ rest)
      with ((peer_wire (pd_peer m) ++ [code]) ++ S_Open.frame (MNotification, notif_wire nt) ++ rest) by now rewrite <- app_assoc.
    rewrite body_frame; [reflexivity|cbn; lia|now rewrite app_length, length_peer]. }
  assert (I : forall c (tl : list N), idx (peer_wire (pd_peer m) ++ (c :: tl) ++ rest) 42 = Ok c) by (intros; cbn [app]; apply idx_app_exact, length_peer).
  assert (EL : length (peer_wire (pd_peer m) ++ reason_wire (pd_reason m)) = (42 + length (reason_wire (pd_reason m)))%nat) by now rewrite app_length, length_peer.
  rewrite EL. clear EL. destruct (pd_reason m) as [nt|s|nt| |]; cbn [reason_wire]; rewrite I, bind_ok; cbn [N.eqb Pos.eqb]; cbv zeta.
  - rewrite P, bind_ok by exact Hr. rewrite notif_decode_ok, bind_ok by exact Hr. reflexivity.
  - cbn [length app]. replace (Nat.ltb _ _) with false by (symmetry; apply Nat.ltb_ge; rewrite !app_length, length_peer; cbn [length]; rewrite app_length, length_be_bytes; lia).
    rewrite rslice_ok by (rewrite ?app_length, ?length_peer; cbn [length]; rewrite ?app_length, ?length_be_bytes; lia).
    replace (peer_wire (pd_peer m) ++ 2 :: be_bytes 2 s ++ rest) with ((peer_wire (pd_peer m) ++ [2]) ++ be_bytes 2 s ++ rest) by now rewrite <- app_assoc.
    rewrite sub_app_exact by (rewrite ?app_length, ?length_peer, ?length_be_bytes; reflexivity). rewrite bind_ok, be_val_be_bytes by exact Hr. rewrite length_be_bytes. reflexivity.
  - rewrite P, bind_ok by exact Hr. rewrite notif_decode_ok, bind_ok by exact Hr. reflexivity.
  - reflexivity.
  - reflexivity.
Qed.
Lemma down_decode_wire oc m rest : down_wf m -> ~ v4_like (ph_addr (pd_peer m)) -> peerdown_decode oc (down_wire m ++ rest) = Ok (m, length (down_wire m)).
Proof.
  intros H V. rewrite (down_decode_gen oc m rest (pd_peer m) H); [now destruct m|]. intros r. apply peer_decode_wire; [apply H|exact V].
Qed.
