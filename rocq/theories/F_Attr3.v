(** Proofs about the PMSI tunnel attribute, attribute sets, SNPAs and flag octets. *)
From Verif Require Import Base BaseFacts M_Util S_Wire F_Util M_Prefix M_Nlri S_Nlri F_Nlri M_Vpls S_Vpls F_Lay F_Vpls
  M_Mvpn S_Mvpn F_Mvpn M_Cap M_Open M_Session M_Addrs S_Addrs F_Fuel F_Addrs M_Attr S_Attr F_Attr F_Attr2 S_Attr2.
Ltac Zify.zify_post_hook ::= idtac.

(** ** PMSI tunnel *)
Lemma one_label oc b0 b1 b2 rest : b0 < 256 -> b1 < 256 -> b2 < 256 ->
  labels_extract oc 24 (b0 :: b1 :: b2 :: rest) = Ok ([be_val [b0; b1; b2] / 16], 3%nat).
Proof.
  intros H0 H1 H2. unfold labels_extract.
  rewrite (labels_loop_step oc _ 24 _ 0 b0 b1 b2 rest []) by (auto; reflexivity).
  rewrite usub_ok by reflexivity. rewrite bind_ok. cbn zeta.
  destruct (label_ends _); [reflexivity|]. destruct (negb _); [reflexivity|]. cbn [length]. reflexivity.
Qed.
Lemma pmsi_decode_5 oc f t b0 b1 b2 id : b0 < 256 -> b1 < 256 -> b2 < 256 ->
  pmsi_decode oc (f :: t :: b0 :: b1 :: b2 :: id) =
  (tun <- pmsi_tunnel t 5 (f :: t :: b0 :: b1 :: b2 :: id) ;; Ok (mkPmsi f t [be_val [b0; b1; b2] / 16] tun)).
Proof.
  intros H0 H1 H2. unfold pmsi_decode. cbn [length Nat.ltb Nat.leb]. rewrite rfrom_ok by (cbn [length]; lia).
  cbn [skipn]. rewrite bind_ok, one_label by auto. reflexivity.
Qed.
Lemma attr_pmsi oc p f n buf : attr_decode oc p 22 f n buf = (t <- pmsi_decode oc buf ;; Ok (APMSITunnel t)).
Proof. reflexivity. Qed.
Lemma ip4_at_be pre v rest i : length pre = i -> v < 2 ^ 32 -> ip4_at (pre ++ be_bytes 4 v ++ rest) i = Ok v.
Proof.
  intros <- Hv.
  assert (I : forall j, (j < 4)%nat -> idx (pre ++ be_bytes 4 v ++ rest) (length pre + j) = idx (be_bytes 4 v) j).
  { intros j Hj. rewrite <- idx_skipn, skipn_app_exact by reflexivity. apply idx_app_l. rewrite length_be_bytes. exact Hj. }
  unfold ip4_at. pose proof (I 0%nat ltac:(lia)) as I0. rewrite Nat.add_0_r in I0. rewrite I0, (I 1%nat), (I 2%nat), (I 3%nat) by lia.
  clear I I0. pose proof (decode_addrv4_be v [] Hv) as D. rewrite app_nil_r in D. unfold decode_addrv4_from in D.
  revert D. rewrite length_be_bytes. cbn [Nat.ltb Nat.leb Nat.eqb].
  auto.
Qed.
Lemma be3_label label low : label < 2 ^ 20 -> low < 16 -> exists b0 b1 b2, be_bytes 3 (label * 16 + low) = [b0; b1; b2] /\
  b0 < 256 /\ b1 < 256 /\ b2 < 256 /\ be_val [b0; b1; b2] / 16 = label.
Proof.
  intros Hl Hs. destruct (label_entry label low Hl Hs) as (b0 & b1 & b2 & E & H0 & H1 & H2 & Hv & _). exists b0, b1, b2. auto.
Qed.
Lemma pmsi_wire_decode oc f label low t : label < 2 ^ 20 -> low < 16 ->
  pmsi_decode oc (pmsi_wire f label low t) =
  (tun <- pmsi_tunnel (tunnel_type t) 5 (pmsi_wire f label low t) ;; Ok (mkPmsi f (tunnel_type t) [label] tun)).
Proof.
  intros Hl Hs. unfold pmsi_wire. destruct (be3_label label low Hl Hs) as (b0 & b1 & b2 & -> & H0 & H1 & H2 & Hv).
  cbn [app]. rewrite pmsi_decode_5 by auto. rewrite Hv. reflexivity.
Qed.
Lemma length_pmsi_head f label low t : length ([f; tunnel_type t] ++ be_bytes 3 (label * 16 + low)) = 5%nat.
Proof. rewrite app_length, length_be_bytes. reflexivity. Qed.
Lemma rfrom_app {A} (a b : list A) k : length a = k -> rfrom (a ++ b) k = Ok b.
Proof. intros H. rewrite rfrom_ok by (rewrite app_length; lia). f_equal. now apply skipn_app_exact. Qed.
Lemma C76_decode_l oc p fl n flags label low t : label < 2 ^ 20 -> low < 16 -> tunnel_wf t ->
  (forall a o, t <> PtMLDP (IPv6 a) o) ->
  attr_decode oc p 22 fl n (pmsi_wire flags label low t) = Ok (APMSITunnel (mkPmsi flags (tunnel_type t) [label] t)).
Proof.
  intros Hl Hs Hw H6. rewrite attr_pmsi, pmsi_wire_decode by auto.
  enough (E : pmsi_tunnel (tunnel_type t) 5 (pmsi_wire flags label low t) = Ok t) by now rewrite E.
  unfold pmsi_wire. rewrite app_assoc. pose proof (length_pmsi_head flags label low t) as H5.
  set (h := [flags; tunnel_type t] ++ be_bytes 3 (label * 16 + low)) in *. clearbody h.
  destruct t as [|e r i q|e|root o]; cbn [tunnel_type tunnel_id tunnel_wf] in *.
  - reflexivity.
  - destruct Hw as (He & Hr & Hi & Hq). unfold pmsi_tunnel. cbn [N.eqb Pos.eqb].
    rewrite ip4_at_be by auto. rewrite bind_ok.
    rewrite !app_assoc. rewrite <- (app_assoc _ (be_bytes 2 i)), <- (app_assoc (h ++ be_bytes 4 e)).
    rewrite (rfrom_app (h ++ be_bytes 4 e)) by (rewrite app_length, length_be_bytes; lia).
    rewrite bind_ok, getn_u16_be by exact Hr. rewrite bind_ok.
    rewrite app_assoc. rewrite <- !app_assoc, (app_assoc h), (app_assoc (h ++ _)).
    rewrite (rfrom_app ((h ++ be_bytes 4 e) ++ be_bytes 2 r)) by (rewrite !app_length, !length_be_bytes; lia).
    rewrite bind_ok, getn_u16_be by exact Hi. rewrite bind_ok.
    rewrite app_assoc. rewrite <- (app_nil_r (be_bytes 4 q)).
    rewrite ip4_at_be by (auto; rewrite !app_length, !length_be_bytes; lia). reflexivity.
  - unfold pmsi_tunnel. cbn [N.eqb Pos.eqb]. rewrite <- (app_nil_r (be_bytes 4 e)). rewrite ip4_at_be by auto. reflexivity.
  - destruct root as [a|a]; [|now destruct (H6 a o)]. cbn [ip_bytes ip_wf] in *. destruct Hw as (Ha & Ho & Hol).
    rewrite length_be_bytes. change (N.of_nat 4) with 4.
    assert (LO : (0 < length o)%nat) by (destruct o; [congruence|cbn [length]; lia]).
    unfold pmsi_tunnel. cbn [N.eqb Pos.eqb].
    set (buf := h ++ [6] ++ be_bytes 2 1 ++ [4] ++ be_bytes 4 a ++ be_bytes 2 (N.of_nat (length o)) ++ o).
    assert (EC : buf = concat [h; [6]; be_bytes 2 1; [4]; be_bytes 4 a; be_bytes 2 (N.of_nat (length o)); o])
      by (unfold buf; cbn [concat]; now rewrite app_nil_r).
    assert (LB : length buf = (15 + length o)%nat) by (unfold buf; rewrite !app_length, !length_be_bytes; cbn [length]; lia).
    rewrite EC at 1. rewrite (idx_seg _ 1 5 6) by (try reflexivity; cbn [concat firstn]; rewrite ?app_nil_r; lia).
    rewrite bind_ok. cbn [N.eqb Pos.eqb negb].
    destruct (Nat.ltb_spec (length buf) 16) as [L|_]; [lia|].
    assert (S1 : rslice buf 6 8 = Ok (be_bytes 2 1)).
    { rewrite rslice_ok by lia. f_equal. unfold buf. rewrite app_assoc. apply sub_app_exact; rewrite ?app_length, ?length_be_bytes, ?H5; reflexivity. }
    rewrite S1, bind_ok. rewrite <- (app_nil_r (be_bytes 2 1)), getn_u16_be by reflexivity. rewrite bind_ok. cbn [N.eqb Pos.eqb negb].
    rewrite EC at 1. rewrite (idx_seg _ 3 8 4) by (try reflexivity; cbn [concat firstn]; rewrite ?app_nil_r, !app_length, ?length_be_bytes; cbn [length]; lia).
    rewrite bind_ok. cbn [N.eqb Pos.eqb negb].
    assert (S2 : rslice buf 9 13 = Ok (be_bytes 4 a)).
    { rewrite rslice_ok by lia. f_equal. unfold buf.
      replace (h ++ [6] ++ be_bytes 2 1 ++ [4] ++ be_bytes 4 a ++ be_bytes 2 (N.of_nat (length o)) ++ o) with
        ((h ++ [6] ++ be_bytes 2 1 ++ [4]) ++ be_bytes 4 a ++ be_bytes 2 (N.of_nat (length o)) ++ o) by (now rewrite <- !app_assoc).
      apply sub_app_exact; rewrite ?app_length, ?H5, ?length_be_bytes; reflexivity. }
    rewrite S2, bind_ok. unfold decode_addr_from. rewrite length_be_bytes.
    rewrite <- (app_nil_r (be_bytes 4 a)), decode_addrv4_be by exact Ha. rewrite !bind_ok.
    assert (S3 : rslice buf 13 15 = Ok (be_bytes 2 (N.of_nat (length o)))).
    { rewrite rslice_ok by lia. f_equal. unfold buf.
      replace (h ++ [6] ++ be_bytes 2 1 ++ [4] ++ be_bytes 4 a ++ be_bytes 2 (N.of_nat (length o)) ++ o) with
        ((h ++ [6] ++ be_bytes 2 1 ++ [4] ++ be_bytes 4 a) ++ be_bytes 2 (N.of_nat (length o)) ++ o) by (now rewrite <- !app_assoc).
      apply sub_app_exact; rewrite ?app_length, ?H5, ?length_be_bytes; reflexivity. }
    rewrite S3, bind_ok. rewrite <- (app_nil_r (be_bytes 2 _)), getn_u16_be by exact Hol. rewrite bind_ok, Nat2N.id.
    destruct (Nat.ltb_spec (length buf) (15 + length o)) as [L|_]; [lia|].
    assert (S4 : rslice buf 15 (15 + length o) = Ok o).
    { rewrite rslice_ok by lia. f_equal. unfold buf.
      replace (h ++ [6] ++ be_bytes 2 1 ++ [4] ++ be_bytes 4 a ++ be_bytes 2 (N.of_nat (length o)) ++ o) with
        ((h ++ [6] ++ be_bytes 2 1 ++ [4] ++ be_bytes 4 a ++ be_bytes 2 (N.of_nat (length o))) ++ o ++ []) by (rewrite app_nil_r, <- !app_assoc; reflexivity).
      apply sub_app_exact; rewrite ?app_length, ?H5, ?length_be_bytes; cbn [length]; lia. }
    rewrite S4, bind_ok. reflexivity.
Qed.
(** an IPv6 endpoint of ingress replication is read as the IPv4 address in its first four octets *)
Lemma C76_ingress6_l oc p fl n flags label low a : label < 2 ^ 20 -> low < 16 -> a < 2 ^ 128 ->
  attr_decode oc p 22 fl n ([flags; 6] ++ be_bytes 3 (label * 16 + low) ++ be_bytes 16 a) =
  Ok (APMSITunnel (mkPmsi flags 6 [label] (PtIngress (a / 2 ^ 96)))).
Proof.
  intros Hl Hs Ha. rewrite attr_pmsi.
  change (be_bytes 16 a) with (be_bytes (4 + 12) a). rewrite (be_bytes_split 4 12 a). change (8 * N.of_nat 12) with 96.
  set (v := a / 2 ^ 96). assert (Hv : v < 2 ^ 32) by (apply N.div_lt_upper_bound; [discriminate|exact Ha]).
  destruct (be3_label label low Hl Hs) as (b0 & b1 & b2 & -> & H0 & H1 & H2 & E). cbn [app].
  rewrite pmsi_decode_5 by auto. rewrite E. unfold pmsi_tunnel. cbn [N.eqb Pos.eqb].
  change (flags :: 6 :: b0 :: b1 :: b2 :: be_bytes 4 v ++ be_bytes 12 a) with ([flags; 6; b0; b1; b2] ++ be_bytes 4 v ++ be_bytes 12 a).
  rewrite ip4_at_be by auto. reflexivity.
Qed.
Lemma C76_mldp6_l oc p fl n flags label low a o : label < 2 ^ 20 -> low < 16 -> tunnel_wf (PtMLDP (IPv6 a) o) ->
  attr_decode oc p 22 fl n (pmsi_wire flags label low (PtMLDP (IPv6 a) o)) = Err EOther.
Proof.
  intros Hl Hs Hw. rewrite attr_pmsi, pmsi_wire_decode by auto. unfold pmsi_wire. rewrite app_assoc.
  pose proof (length_pmsi_head flags label low (PtMLDP (IPv6 a) o)) as H5.
  set (h := [flags; tunnel_type (PtMLDP (IPv6 a) o)] ++ be_bytes 3 (label * 16 + low)) in *. clearbody h.
  cbn [tunnel_type tunnel_id ip_bytes]. rewrite length_be_bytes. change (N.of_nat 16) with 16.
  set (r := be_bytes 16 a ++ be_bytes 2 (N.of_nat (length o)) ++ o).
  assert (LR : (16 <= length r)%nat) by (unfold r; rewrite app_length, length_be_bytes; lia). clearbody r.
  unfold pmsi_tunnel. cbn [N.eqb Pos.eqb].
  replace (h ++ [6] ++ be_bytes 2 1 ++ [16] ++ r) with (concat [h; [6]; be_bytes 2 1; [16]; r]) by (cbn [concat]; now rewrite app_nil_r).
  rewrite (idx_seg _ 1 5 6) by (try reflexivity; cbn [concat firstn]; rewrite ?app_nil_r; lia).
  rewrite bind_ok. cbn [N.eqb Pos.eqb negb].
  set (buf := concat [h; [6]; be_bytes 2 1; [16]; r]).
  assert (LB : (16 <= length buf)%nat) by (unfold buf; cbn [concat]; rewrite !app_length, !length_be_bytes; cbn [length]; lia).
  destruct (Nat.ltb_spec (length buf) 16) as [L|_]; [lia|].
  assert (S1 : rslice buf 6 8 = Ok (be_bytes 2 1)).
  { rewrite rslice_ok by lia. f_equal. unfold buf. cbn [concat]. rewrite app_assoc. apply sub_app_exact; rewrite ?app_length, ?length_be_bytes, ?H5; reflexivity. }
  rewrite S1, bind_ok. rewrite <- (app_nil_r (be_bytes 2 1)), getn_u16_be by reflexivity. rewrite bind_ok. cbn [N.eqb Pos.eqb negb].
  unfold buf. rewrite (idx_seg _ 3 8 16) by (try reflexivity; cbn [concat firstn]; rewrite ?app_nil_r, !app_length, ?length_be_bytes; cbn [length]; lia).
  reflexivity.
Qed.
Lemma idx_Ok_nth {A} (l : list A) i d : (i < length l)%nat -> idx l i = Ok (nth i l d).
Proof. intros H. unfold idx. destruct (nth_error l i) eqn:E; [now rewrite (nth_error_nth _ _ _ E)|apply nth_error_None in E; lia]. Qed.
Lemma C76_type_l oc p fl n flags t b0 b1 b2 id : ~ In t [0; 1; 2; 6] -> b0 < 256 -> b1 < 256 -> b2 < 256 ->
  attr_decode oc p 22 fl n ([flags; t; b0; b1; b2] ++ id) = Err EOther.
Proof.
  intros Ht H0 H1 H2. rewrite attr_pmsi. cbn [app]. rewrite pmsi_decode_5 by auto. unfold pmsi_tunnel.
  assert (K : forall k, In k [0; 1; 2; 6] -> (t =? k) = false) by (intros k Hk; apply N.eqb_neq; intros ->; auto).
  rewrite !K by (cbn [In]; tauto). reflexivity.
Qed.
Lemma ip4_at_short buf i : (length buf < i + 4)%nat -> ip4_at buf i = Panic.
Proof.
  intros H. unfold ip4_at.
  destruct (Nat.ltb_spec i (length buf)); [|now rewrite idx_panic by lia].
  rewrite (idx_Ok_nth buf i 0), bind_ok by lia.
  destruct (Nat.ltb_spec (i + 1) (length buf)); [|now rewrite idx_panic by lia].
  rewrite (idx_Ok_nth buf (i + 1) 0), bind_ok by lia.
  destruct (Nat.ltb_spec (i + 2) (length buf)); [|now rewrite idx_panic by lia].
  rewrite (idx_Ok_nth buf (i + 2) 0), bind_ok by lia. now rewrite idx_panic by lia.
Qed.
Lemma ip4_at_long buf i : (i + 4 <= length buf)%nat -> exists v, ip4_at buf i = Ok v.
Proof. intros H. unfold ip4_at. rewrite !(idx_Ok_nth buf _ 0) by lia. rewrite !bind_ok. eauto. Qed.
Lemma np_pmsi_body buf : (16 <= length buf)%nat -> forall f k,
  np (s <- rslice buf 6 8 ;; f0 <- getn_u16 s ;;
    if negb (f0 =? f) then Err EOther else
    l <- idx buf 8 ;;
    if negb (l =? k) then Err EOther else
    s <- rslice buf 9 13 ;; root <- decode_addr_from s ;;
    s <- rslice buf 13 15 ;; ol <- getn_u16 s ;;
    if Nat.ltb (length buf) (15 + N.to_nat ol) then Err EOther else
    o <- rslice buf 15 (15 + N.to_nat ol) ;;
    Ok (PtMLDP root o)).
Proof.
  intros L f k. npb. npb. destruct (negb _); [np1|]. npb. destruct (negb _); [np1|].
  npb. npb. npb. npb.
  match goal with |- np (if Nat.ltb ?a ?b then _ else _) => destruct (Nat.ltb_spec a b) end; [np1|]. npb. np1.
Qed.
Lemma pmsi_panics_iff oc buf : bytes_ok buf -> pmsi_decode oc buf = Panic <-> pmsi_panics buf.
Proof.
  intros Hb.
  destruct buf as [|f [|t [|b0 [|b1 [|b2 id]]]]]; try (cbn; split; [discriminate|contradiction]).
  inversion_clear Hb as [|? ? _ Hb1]. inversion_clear Hb1 as [|? ? _ Hb]. inversion_clear Hb as [|? ? H0 Hb1].
  inversion_clear Hb1 as [|? ? H1 Hb]. inversion_clear Hb as [|? ? H2 Hi]. unfold is_byte in *.
  rewrite pmsi_decode_5 by auto. cbn [pmsi_panics].
  set (buf := f :: t :: b0 :: b1 :: b2 :: id). assert (LB : length buf = (5 + length id)%nat) by reflexivity.
  assert (K : forall (x : res pmsi_tun) (g : pmsi_tun -> pmsi), (y <- x ;; Ok (g y)) = Panic <-> x = Panic).
  { intros x g. destruct x; cbn; split; congruence. }
  rewrite (K _ (fun tun => mkPmsi f t [be_val [b0; b1; b2] / 16] tun)). unfold pmsi_tunnel.
  destruct (N.eqb_spec t 0) as [->|N0]; [split; [discriminate|intros [(A & _)|[(A & _)|(A & _)]]; discriminate]|].
  destruct (N.eqb_spec t 1) as [->|N1].
  { destruct (Nat.ltb_spec (length id) 12) as [L|L].
    - split; [auto|intros _].
      destruct (Nat.ltb_spec (length id) 4); [now rewrite ip4_at_short by lia|].
      destruct (ip4_at_long buf 5) as (e & ->); [lia|]. rewrite bind_ok.
      rewrite rfrom_ok by lia. rewrite bind_ok.
      destruct (Nat.ltb_spec (length id) 6); [now rewrite u16_short_panic by (rewrite skipn_length; lia)|].
      destruct (getn_u16 (skipn (5 + 4) buf)) eqn:E; [| |reflexivity|].
      2, 3: exfalso. 2: unfold getn_u16 in E. 3: unfold getn_u16 in E.
      2, 3: rewrite !(idx_Ok_nth _ _ 0) in E by (rewrite skipn_length; lia); discriminate.
      rewrite bind_ok. rewrite rfrom_ok by lia. rewrite bind_ok.
      destruct (Nat.ltb_spec (length id) 8); [now rewrite u16_short_panic by (rewrite skipn_length; lia)|].
      destruct (getn_u16 (skipn (5 + 6) buf)) eqn:E2; [| |reflexivity|].
      2, 3: exfalso. 2: unfold getn_u16 in E2. 3: unfold getn_u16 in E2.
      2, 3: rewrite !(idx_Ok_nth _ _ 0) in E2 by (rewrite skipn_length; lia); discriminate.
      rewrite bind_ok. now rewrite ip4_at_short by lia.
    - split; [|intros [(_ & A)|[(A & _)|(A & _)]]; [lia|discriminate|discriminate]].
      destruct (ip4_at_long buf 5) as (e & ->); [lia|]. rewrite bind_ok.
      rewrite rfrom_ok by lia. rewrite bind_ok. unfold getn_u16 at 1.
      rewrite !(idx_Ok_nth (skipn (5 + 4) buf) _ 0) by (rewrite skipn_length; lia). rewrite !bind_ok.
      rewrite rfrom_ok by lia. rewrite bind_ok. unfold getn_u16 at 1.
      rewrite !(idx_Ok_nth (skipn (5 + 6) buf) _ 0) by (rewrite skipn_length; lia). rewrite !bind_ok.
      destruct (ip4_at_long buf (5 + 8)) as (q & ->); [lia|]. discriminate. }
  destruct (N.eqb_spec t 2) as [->|N2].
  { destruct id as [|k id].
    - split; [auto|reflexivity].
    - split; [|intros [(A & _)|[(_ & A)|(A & _)]]; discriminate].
      change (idx buf 5) with (Ok k). rewrite bind_ok. destruct (negb (k =? 6)); [discriminate|].
      destruct (Nat.ltb_spec (length buf) 16); [discriminate|]. intros E. exfalso. revert E. apply np_pmsi_body. lia. }
  destruct (N.eqb_spec t 6) as [->|N6].
  { destruct (Nat.ltb_spec (length id) 4) as [L|L].
    - split; [auto|intros _]. now rewrite ip4_at_short by lia.
    - split; [|intros [(A & _)|[(A & _)|(_ & A)]]; [discriminate|discriminate|lia]].
      destruct (ip4_at_long buf 5) as (e & ->); [lia|]. discriminate. }
  split; [discriminate|]. intros [(A & _)|[(A & _)|(A & _)]]; congruence.
Qed.

(** ** Attribute sets *)
Lemma attrset_loop_ext d1 d2 m fuel : (forall tc f n b, (length b < m)%nat -> d1 tc f n b = d2 tc f n b) ->
  forall buf pos, (length buf <= m)%nat -> attrset_loop d1 fuel buf pos = attrset_loop d2 fuel buf pos.
Proof.
  intros Hd. induction fuel as [|fuel IH]; intros buf pos Hm; [reflexivity|]. cbn [attrset_loop].
  destruct (Nat.ltb_spec pos (length buf)); [|reflexivity].
  destruct (idx buf pos) as [f| | |]; try reflexivity. rewrite !bind_ok.
  destruct (idx buf (pos + 1)) as [tc| | |]; try reflexivity. rewrite !bind_ok.
  match goal with |- bind ?x _ = bind ?x _ => destruct x as [[al cur]| | |] eqn:E end; try reflexivity. rewrite !bind_ok.
  assert (C : (pos + 3 <= cur)%nat).
  { destruct (0 <? N.land f 16); repeat binv E; injection E as _ <-; lia. }
  destruct (Nat.ltb_spec (length buf) (cur + al)); [reflexivity|].
  destruct (rslice buf cur (cur + al)) as [s| | |] eqn:Es; try reflexivity. rewrite !bind_ok.
  apply rslice_Ok_inv in Es as (S1 & S2 & ->). rewrite Hd by (rewrite length_sub; lia).
  rewrite IH by exact Hm. reflexivity.
Qed.
Lemma attr_decode_n_fuel : forall k1 k2 oc p tc f n buf, (length buf < k1)%nat -> (length buf < k2)%nat ->
  attr_decode_n k1 oc p tc f n buf = attr_decode_n k2 oc p tc f n buf.
Proof.
  induction k1 as [|k1 IH]; intros k2 oc p tc f n buf H1 H2; [lia|]. destruct k2 as [|k2]; [lia|]. cbn [attr_decode_n].
  destruct (tc =? 128); [|reflexivity].
  replace (attrset_decode (attr_decode_n k1 oc p) p buf) with (attrset_decode (attr_decode_n k2 oc p) p buf); [reflexivity|].
  unfold attrset_decode. destruct (negb (sp_as32 p)); [reflexivity|]. destruct (Nat.ltb (length buf) 4); [reflexivity|].
  rewrite (attrset_loop_ext (attr_decode_n k2 oc p) (attr_decode_n k1 oc p) (length buf)); [reflexivity| |lia].
  intros. symmetry. apply IH; lia.
Qed.
Lemma attr_decode_set oc p f n buf : attr_decode oc p 128 f n buf = attrset_decode (attr_decode oc p) p buf.
Proof.
  unfold attr_decode at 1. cbn [attr_decode_n N.eqb Pos.eqb].
  unfold attrset_decode. destruct (negb (sp_as32 p)); [reflexivity|]. destruct (Nat.ltb (length buf) 4); [reflexivity|].
  rewrite (attrset_loop_ext (attr_decode_n (length buf) oc p) (attr_decode oc p) (length buf)); [reflexivity| |lia].
  intros. unfold attr_decode. apply attr_decode_n_fuel; lia.
Qed.
(** one attribute of a set *)
Lemma attrset_loop_frame dec fuel pre f tc body rest : N.of_nat (length body) <= len_max f ->
  attrset_loop dec (S fuel) (pre ++ frame f tc body ++ rest) (length pre) =
  (a <- dec tc f (length body) body ;;
   v <- attrset_loop dec fuel (pre ++ frame f tc body ++ rest) (length pre + length (frame f tc body)) ;; Ok (a :: v)).
Proof.
  intros Hl. cbn [attrset_loop]. set (buf := pre ++ frame f tc body ++ rest).
  assert (EC : buf = concat [pre; [f]; [tc]; be_bytes (len_octets f) (N.of_nat (length body)); body; rest]).
  { unfold buf, frame. cbn [concat app]. rewrite app_nil_r, <- app_assoc. reflexivity. }
  assert (LB : length buf = (length pre + length (frame f tc body) + length rest)%nat) by (unfold buf; rewrite !app_length; lia).
  rewrite length_frame in LB |- *.
  destruct (Nat.ltb_spec (length pre) (length buf)) as [_|L]; [|lia].
  rewrite EC at 1. rewrite (idx_seg _ 1 (length pre) f) by (try reflexivity; cbn [concat firstn]; now rewrite app_nil_r). rewrite bind_ok.
  rewrite EC at 1. rewrite (idx_seg _ 2 (length pre + 1) tc) by (try reflexivity; cbn [concat firstn]; rewrite !app_length; reflexivity). rewrite bind_ok.
  rewrite ext_bit. unfold len_max, len_octets in *.
  destruct (fl_extended f).
  - assert (S1 : rslice buf (length pre + 4 - 2) (length pre + 4) = Ok (be_bytes 2 (N.of_nat (length body)))).
    { rewrite rslice_ok by lia. f_equal. rewrite EC. cbn [concat]. rewrite app_nil_r.
      replace (pre ++ [f] ++ [tc] ++ be_bytes 2 (N.of_nat (length body)) ++ body ++ rest) with
        ((pre ++ [f] ++ [tc]) ++ be_bytes 2 (N.of_nat (length body)) ++ body ++ rest) by (now rewrite <- !app_assoc).
      apply sub_app_exact; rewrite ?app_length, ?length_be_bytes; cbn [length]; lia. }
    rewrite S1, bind_ok. rewrite <- (app_nil_r (be_bytes 2 _)), getn_u16_be by (clear - Hl; lia). rewrite !bind_ok, Nat2N.id.
    destruct (Nat.ltb_spec (length buf) (length pre + 4 + length body)) as [L|_]; [lia|].
    assert (S2 : rslice buf (length pre + 4) (length pre + 4 + length body) = Ok body).
    { rewrite rslice_ok by lia. f_equal. rewrite EC. cbn [concat]. rewrite app_nil_r.
      replace (pre ++ [f] ++ [tc] ++ be_bytes 2 (N.of_nat (length body)) ++ body ++ rest) with
        ((pre ++ [f] ++ [tc] ++ be_bytes 2 (N.of_nat (length body))) ++ body ++ rest) by (now rewrite <- !app_assoc).
      apply sub_app_exact; rewrite ?app_length, ?length_be_bytes; cbn [length]; lia. }
    rewrite S2, bind_ok. replace (length pre + (2 + 2 + length body))%nat with (length pre + 4 + length body)%nat by lia. reflexivity.
  - rewrite EC at 1. rewrite (idx_seg _ 3 (length pre + 3 - 1) (N.of_nat (length body))).
    2: { cbn [nth_error be_bytes]. do 2 f_equal. change (8 * N.of_nat 0) with 0. change (2 ^ 0) with 1. rewrite ?N.div_1_r. apply N.mod_small. clear - Hl; lia. }
    2: { cbn [concat firstn]. rewrite !app_length. cbn [length]. lia. }
    rewrite !bind_ok, Nat2N.id.
    destruct (Nat.ltb_spec (length buf) (length pre + 3 + length body)) as [L|_]; [lia|].
    assert (S2 : rslice buf (length pre + 3) (length pre + 3 + length body) = Ok body).
    { rewrite rslice_ok by lia. f_equal. rewrite EC. cbn [concat]. rewrite app_nil_r.
      replace (pre ++ [f] ++ [tc] ++ be_bytes 1 (N.of_nat (length body)) ++ body ++ rest) with
        ((pre ++ [f] ++ [tc] ++ be_bytes 1 (N.of_nat (length body))) ++ body ++ rest) by (now rewrite <- !app_assoc).
      apply sub_app_exact; rewrite ?app_length, ?length_be_bytes; cbn [length]; lia. }
    rewrite S2, bind_ok. replace (length pre + (2 + 1 + length body))%nat with (length pre + 3 + length body)%nat by lia. reflexivity.
Qed.
Definition set_ok (oc : bool) (p : params) (x : raw_attr) (a : attr) : Prop := raw_wf x /\ raw_decodes oc p x (Ok a).
Lemma length_raw x : (3 <= length (raw_wire x))%nat.
Proof. destruct x as [[f tc] body]. cbn [raw_wire]. rewrite length_frame. unfold len_octets. destruct (fl_extended f); lia. Qed.
Lemma attrset_frames oc p fs v : Forall2 (set_ok oc p) fs v -> forall fuel pre rest,
  attrset_loop (attr_decode oc p) (length fs + fuel) (pre ++ flat_map raw_wire fs ++ rest) (length pre) =
  (w <- attrset_loop (attr_decode oc p) fuel (pre ++ flat_map raw_wire fs ++ rest) (length pre + length (flat_map raw_wire fs)) ;; Ok (v ++ w)).
Proof.
  induction 1 as [|x a fs v (Hw & Hd) _ IH]; intros fuel pre rest.
  - cbn [length flat_map Nat.add app]. rewrite Nat.add_0_r. now destruct (attrset_loop _ _ _ _).
  - destruct x as [[f tc] body]. cbn [length flat_map Nat.add raw_wire raw_wf raw_decodes] in *. rewrite <- app_assoc.
    rewrite attrset_loop_frame by exact Hw. rewrite Hd, bind_ok.
    rewrite app_assoc, <- app_length. rewrite IH.
    rewrite !app_length, Nat.add_assoc. destruct (attrset_loop _ _ _ _); reflexivity.
Qed.
Lemma length_frames fs : (length fs <= length (flat_map raw_wire fs))%nat.
Proof. induction fs as [|x fs IH]; [apply Nat.le_refl|]. cbn [flat_map length]. rewrite app_length. pose proof (length_raw x). lia. Qed.
Lemma attrset_general oc p fl n asn fs v rest : sp_as32 p = true -> asn < 2 ^ 32 -> Forall2 (set_ok oc p) fs v ->
  exists fuel, attr_decode oc p 128 fl n (be_bytes 4 asn ++ flat_map raw_wire fs ++ rest) =
  (w <- attrset_loop (attr_decode oc p) (S fuel) (be_bytes 4 asn ++ flat_map raw_wire fs ++ rest) (4 + length (flat_map raw_wire fs)) ;;
   Ok (AAttrSet asn (v ++ w))).
Proof.
  intros Hp Ha HF. rewrite attr_decode_set. unfold attrset_decode. rewrite Hp. cbn [negb].
  set (buf := be_bytes 4 asn ++ flat_map raw_wire fs ++ rest).
  assert (LB : length buf = (4 + length (flat_map raw_wire fs) + length rest)%nat) by (unfold buf; rewrite !app_length, length_be_bytes; lia).
  pose proof (length_frames fs) as LF. exists (length buf - length fs)%nat.
  destruct (Nat.ltb_spec (length buf) 4) as [L|_]; [lia|].
  replace (S (length buf)) with (length fs + S (length buf - length fs))%nat by lia.
  unfold buf at 2. rewrite <- (length_be_bytes 4 asn) at 2. rewrite (attrset_frames oc p fs v HF). rewrite length_be_bytes. fold buf.
  destruct (attrset_loop _ _ _ _); try reflexivity. cbn [bind]. unfold buf. rewrite getn_u32_be by exact Ha. reflexivity.
Qed.
Lemma attrset_loop_end dec fuel buf pos : (length buf <= pos)%nat -> attrset_loop dec (S fuel) buf pos = Ok [].
Proof. intros H. cbn [attrset_loop]. destruct (Nat.ltb_spec pos (length buf)); [lia|reflexivity]. Qed.
Lemma C77_decode_l oc p fl n asn fs v : sp_as32 p = true -> asn < 2 ^ 32 ->
  Forall2 (fun x a => raw_wf x /\ raw_decodes oc p x (Ok a)) fs v ->
  attr_decode oc p 128 fl n (be_bytes 4 asn ++ flat_map raw_wire fs) = Ok (AAttrSet asn v).
Proof.
  intros Hp Ha HF. destruct (attrset_general oc p fl n asn fs v [] Hp Ha HF) as (fuel & E). rewrite app_nil_r in E. rewrite E.
  rewrite attrset_loop_end by (rewrite app_length, length_be_bytes; lia). cbn [bind]. now rewrite app_nil_r.
Qed.
(** the first inner attribute that fails decides *)
Lemma C77_inner_l oc p fl n asn fs v x rest r : sp_as32 p = true -> asn < 2 ^ 32 ->
  Forall2 (fun x a => raw_wf x /\ raw_decodes oc p x (Ok a)) fs v ->
  raw_wf x -> raw_decodes oc p x r -> (forall a, r <> Ok a) ->
  attr_decode oc p 128 fl n (be_bytes 4 asn ++ flat_map raw_wire fs ++ raw_wire x ++ rest) = r.
Proof.
  intros Hp Ha HF Hw Hd Hr. destruct (attrset_general oc p fl n asn fs v (raw_wire x ++ rest) Hp Ha HF) as (fuel & ->).
  destruct x as [[f tc] body]. cbn [raw_wf raw_decodes raw_wire] in *.
  assert (L : (4 + length (flat_map raw_wire fs))%nat = length (be_bytes 4 asn ++ flat_map raw_wire fs)) by (rewrite app_length, length_be_bytes; reflexivity).
  rewrite L, app_assoc, attrset_loop_frame by exact Hw. rewrite Hd. destruct r as [a|e| |]; try reflexivity. now destruct (Hr a).
Qed.
(** a length that reaches beyond the set is refused *)
Lemma C77_overrun_l oc p fl n asn fs v f tc k body : sp_as32 p = true -> asn < 2 ^ 32 ->
  Forall2 (fun x a => raw_wf x /\ raw_decodes oc p x (Ok a)) fs v ->
  k <= len_max f -> N.of_nat (length body) < k ->
  attr_decode oc p 128 fl n (be_bytes 4 asn ++ flat_map raw_wire fs ++ [f; tc] ++ be_bytes (len_octets f) k ++ body) = Err EOther.
Proof.
  intros Hp Ha HF Hk Hb.
  destruct (attrset_general oc p fl n asn fs v ([f; tc] ++ be_bytes (len_octets f) k ++ body) Hp Ha HF) as (fuel & ->).
  assert (L : (4 + length (flat_map raw_wire fs))%nat = length (be_bytes 4 asn ++ flat_map raw_wire fs)) by (rewrite app_length, length_be_bytes; reflexivity).
  rewrite L, app_assoc. set (pre := be_bytes 4 asn ++ flat_map raw_wire fs). cbn [attrset_loop].
  set (buf := pre ++ [f; tc] ++ be_bytes (len_octets f) k ++ body).
  assert (EC : buf = concat [pre; [f]; [tc]; be_bytes (len_octets f) k; body]).
  { unfold buf. cbn [concat app]. rewrite app_nil_r. reflexivity. }
  assert (LB : length buf = (length pre + 2 + len_octets f + length body)%nat) by (unfold buf; rewrite !app_length, length_be_bytes; cbn [length]; lia).
  destruct (Nat.ltb_spec (length pre) (length buf)) as [_|L2]; [|lia].
  rewrite EC at 1. rewrite (idx_seg _ 1 (length pre) f) by (try reflexivity; cbn [concat firstn]; now rewrite app_nil_r). rewrite bind_ok.
  rewrite EC at 1. rewrite (idx_seg _ 2 (length pre + 1) tc) by (try reflexivity; cbn [concat firstn]; rewrite !app_length; reflexivity). rewrite bind_ok.
  rewrite ext_bit. unfold len_max, len_octets in *.
  destruct (fl_extended f).
  - assert (S1 : rslice buf (length pre + 4 - 2) (length pre + 4) = Ok (be_bytes 2 k)).
    { rewrite rslice_ok by lia. f_equal. rewrite EC. cbn [concat]. rewrite app_nil_r.
      replace (pre ++ [f] ++ [tc] ++ be_bytes 2 k ++ body) with
        ((pre ++ [f] ++ [tc]) ++ be_bytes 2 k ++ body) by (now rewrite <- !app_assoc).
      apply sub_app_exact; rewrite ?app_length, ?length_be_bytes; cbn [length]; lia. }
    rewrite S1, bind_ok. rewrite <- (app_nil_r (be_bytes 2 _)), getn_u16_be by (clear - Hk; lia). rewrite !bind_ok.
    destruct (Nat.ltb_spec (length buf) (length pre + 4 + N.to_nat k)) as [_|L3]; [reflexivity|lia].
  - rewrite EC at 1. rewrite (idx_seg _ 3 (length pre + 3 - 1) k).
    2: { cbn [nth_error be_bytes]. do 2 f_equal. change (8 * N.of_nat 0) with 0. change (2 ^ 0) with 1. rewrite ?N.div_1_r. apply N.mod_small. clear - Hk; lia. }
    2: { cbn [concat firstn]. rewrite !app_length. cbn [length]. lia. }
    rewrite !bind_ok.
    destruct (Nat.ltb_spec (length buf) (length pre + 3 + N.to_nat k)) as [_|L3]; [reflexivity|lia].
Qed.
(** an incomplete header panics *)
Lemma C77_cut_l oc p fl n asn fs v t : sp_as32 p = true -> asn < 2 ^ 32 ->
  Forall2 (fun x a => raw_wf x /\ raw_decodes oc p x (Ok a)) fs v -> cut_header t ->
  attr_decode oc p 128 fl n (be_bytes 4 asn ++ flat_map raw_wire fs ++ t) = Panic.
Proof.
  intros Hp Ha HF Ht.
  destruct (attrset_general oc p fl n asn fs v t Hp Ha HF) as (fuel & ->).
  assert (L : (4 + length (flat_map raw_wire fs))%nat = length (be_bytes 4 asn ++ flat_map raw_wire fs)) by (rewrite app_length, length_be_bytes; reflexivity).
  rewrite L, app_assoc. set (pre := be_bytes 4 asn ++ flat_map raw_wire fs). cbn [attrset_loop].
  assert (I : forall j, idx (pre ++ t) (length pre + j) = idx t j).
  { intros j. now rewrite <- idx_skipn, skipn_app_exact by reflexivity. }
  rewrite app_length. destruct t as [|f t]; [contradiction|]. cbn [cut_header length] in *.
  destruct (Nat.ltb_spec (length pre) (length pre + S (length t))) as [_|L2]; [|lia].
  pose proof (I 0%nat) as I0. rewrite Nat.add_0_r in I0. rewrite I0. change (idx (f :: t) 0) with (Ok f). rewrite bind_ok.
  rewrite I. destruct t as [|tc t]; [reflexivity|]. change (idx (f :: tc :: t) 1) with (Ok tc). rewrite bind_ok.
  rewrite ext_bit. unfold len_octets in *. destruct (fl_extended f).
  - unfold rslice. rewrite app_length. cbn [length].
    destruct (Nat.leb_spec (length pre + 4 - 2) (length pre + 4)); cbn [andb]; [|reflexivity].
    destruct (Nat.leb_spec (length pre + 4) (length pre + S (S (length t)))); [lia|reflexivity].
  - rewrite idx_panic by (rewrite app_length; cbn [length]; lia). reflexivity.
Qed.
Lemma C77_short_l oc p fl n buf : (length buf < 4)%nat -> attr_decode oc p 128 fl n buf = Err EOther.
Proof.
  intros H. rewrite attr_decode_set. unfold attrset_decode. destruct (negb _); [reflexivity|].
  destruct (Nat.ltb_spec (length buf) 4); [reflexivity|lia].
Qed.
Lemma C77_two_octet_l oc p fl n buf : sp_as32 p = false -> attr_decode oc p 128 fl n buf = Err EOther.
Proof. intros H. rewrite attr_decode_set. unfold attrset_decode. now rewrite H. Qed.
Lemma enc_panics oc p a buf : (exists s v, a = AAttrSet s v) \/ (exists t, a = APMSITunnel t) -> attr_encode oc p a buf = Panic.
Proof.
  intros H. assert (E : attr_put oc p a = fun _ => Panic) by (destruct H as [(s & v & ->)|(t & ->)]; reflexivity).
  unfold attr_encode. rewrite E. clear E.
  destruct (attr_params a) as [tc f].
  cbv beta iota delta [ebind set_idx on_from].
  destruct buf as [|b0 [|b1 buf]]; [reflexivity|reflexivity|].
  cbn [length Nat.ltb Nat.leb]. rewrite length_splice by (cbn [length]; lia). cbn [length Nat.ltb Nat.leb].
  match goal with |- context [if ?c then Panic else Panic] => now destruct c end.
Qed.

(** ** SNPAs *)
Lemma snpa_skip_wire snpas : Forall (fun s => (length s < 256)%nat) snpas -> forall pre rest,
  snpa_skip (length snpas) (pre ++ flat_map snpa_wire snpas ++ rest) (length pre) = Ok (length pre + length (flat_map snpa_wire snpas))%nat.
Proof.
  induction 1 as [|s snpas Hs _ IH]; intros pre rest.
  - cbn. now rewrite Nat.add_0_r.
  - cbn [length snpa_skip flat_map]. unfold snpa_wire at 1.
    assert (I : idx (pre ++ ((N.of_nat (length s) :: s) ++ flat_map snpa_wire snpas) ++ rest) (length pre) = Ok (N.of_nat (length s))).
    { rewrite <- (Nat.add_0_r (length pre)), <- idx_skipn, skipn_app_exact by reflexivity. reflexivity. }
    rewrite I, bind_ok, Nat2N.id. rewrite <- app_assoc, app_assoc.
    replace (length pre + (1 + length s))%nat with (length (pre ++ N.of_nat (length s) :: s)) by (rewrite app_length; cbn [length]; lia).
    rewrite IH. f_equal. rewrite !app_length. change (length (snpa_wire s)) with (S (length s)). cbn [length]. lia.
Qed.
Lemma C47_snpa_l oc p nh snpas a : addrs_wf a -> nexthop_ok a nh -> session_form p a ->
  Forall (fun s => (length s < 256)%nat) snpas -> (length snpas < 256)%nat ->
  mpupdates_decode oc p (mp_reach_snpa_wire nh snpas a) = Ok (nh, addrs_trunc a).
Proof.
  intros Ha Hn Hs Hp Hc. unfold mpupdates_decode, mp_reach_snpa_wire. set (afi := fst (get_afi_safi a)) in *. set (sf := snd (get_afi_safi a)) in *.
  pose proof (nexthop_len nh) as Hl. set (w := bgpaddr_wire nh) in *.
  rewrite getn_u16_be by apply afi_small. rewrite bind_ok.
  set (c := N.of_nat (length snpas)). set (q := flat_map snpa_wire snpas).
  replace (be_bytes 2 afi ++ [sf] ++ [N.of_nat (length w)] ++ w ++ [c] ++ q ++ addrs_wire a) with
    (concat [be_bytes 2 afi; [sf]; [N.of_nat (length w)]; w; [c]; q; addrs_wire a]) by (cbn [concat]; now rewrite app_nil_r).
  rewrite (idx_seg _ 1 2 sf) by reflexivity. rewrite bind_ok.
  rewrite (idx_seg _ 2 3 (N.of_nat (length w))) by reflexivity. rewrite bind_ok, Nat2N.id.
  replace (concat [be_bytes 2 afi; [sf]; [N.of_nat (length w)]; w; [c]; q; addrs_wire a]) with
    ((be_bytes 2 afi ++ [sf] ++ [N.of_nat (length w)]) ++ w ++ [c] ++ q ++ addrs_wire a) at 1 by (cbn [concat]; rewrite app_nil_r, <- !app_assoc; reflexivity).
  unfold w at 1 3, afi at 1, sf at 1. rewrite mp_nexthop_wire by (auto; reflexivity). rewrite bind_ok. fold w.
  rewrite (idx_seg _ 4 (4 + length w) c) by (try reflexivity; cbn [concat firstn]; rewrite !app_length, length_be_bytes; cbn [length]; lia).
  rewrite bind_ok. unfold c at 1. rewrite Nat2N.id.
  assert (K : snpa_skip (length snpas) (concat [be_bytes 2 afi; [sf]; [N.of_nat (length w)]; w; [c]; q; addrs_wire a]) (4 + length w + 1) =
    Ok (4 + length w + 1 + length q)%nat).
  { replace (concat [be_bytes 2 afi; [sf]; [N.of_nat (length w)]; w; [c]; q; addrs_wire a]) with
      ((be_bytes 2 afi ++ [sf] ++ [N.of_nat (length w)] ++ w ++ [c]) ++ q ++ addrs_wire a) by (cbn [concat]; rewrite app_nil_r, <- !app_assoc; reflexivity).
    replace (4 + length w + 1)%nat with (length (be_bytes 2 afi ++ [sf] ++ [N.of_nat (length w)] ++ w ++ [c]))
      by (rewrite !app_length, length_be_bytes; cbn [length]; lia).
    apply snpa_skip_wire. exact Hp. }
  rewrite K, bind_ok.
  rewrite (rfrom_seg _ 6 (4 + length w + 1 + length q)) by (cbn [concat firstn]; rewrite !app_length, length_be_bytes; cbn [length]; lia).
  rewrite bind_ok. cbn [skipn concat]. rewrite app_nil_r. unfold afi, sf. rewrite addrs_decode_wire by (auto using session_pathid). reflexivity.
Qed.

(** ** Flags *)
Lemma flag_octet_bits f : f < 256 -> f mod 16 = 0 -> f = flag_octet (fl_optional f) (fl_transitive f) (fl_partial f) (fl_extended f).
Proof.
  intros H H2. apply N.eqb_eq.
  assert (K : (negb (f mod 16 =? 0)) || (f =? flag_octet (fl_optional f) (fl_transitive f) (fl_partial f) (fl_extended f)) = true).
  { revert f H H2. intros f H _. revert f H. apply byte_sweep. vm_compute. reflexivity. }
  rewrite H2 in K. exact K.
Qed.
Lemma C39_flags_l oc p a buf n b : (forall asn ad, a <> AAggregatorAS asn ad) -> (forall tc f v, a <> AUnknown tc f v) ->
  attr_encode oc p a buf = Ok (n, b) -> exists rest,
  b = flag_octet (fst (rfc_class a)) (snd (rfc_class a)) (match a with ALargeCommunityList _ => true | _ => false end) (long_length a) :: rest.
Proof.
  intros Ha Hu H. pose proof H as H2. apply attr_header in H as (k & rest & -> & _). exists (attr_code a :: be_bytes (len_octets (attr_flags a)) k ++ rest).
  cbn [app]. f_equal. destruct a; try reflexivity.
  - exfalso. eapply Ha. reflexivity.
  - rewrite enc_panics in H2 by eauto. discriminate.
  - exfalso. eapply Hu. reflexivity.
Qed.

Lemma C78_large_l oc p v buf n b : attr_encode oc p (ALargeCommunityList v) buf = Ok (n, b) ->
  exists f rest, b = f :: rest /\ fl_partial f = true.
Proof.
  intros H. apply C39_flags_l in H as (rest & ->); [|discriminate|discriminate].
  do 2 eexists. split; reflexivity.
Qed.

(** ** Exact panic conditions *)
Lemma map_panic {A B} (x : res A) (g : A -> B) : (y <- x ;; Ok (g y)) = Panic <-> x = Panic.
Proof. destruct x; cbn; split; congruence. Qed.
Lemma panics_exact_l oc p tc f n buf : bytes_ok buf ->
  (tc = 8 -> (attr_decode oc p tc f n buf = Panic <-> Nat.modulo (length buf) 4 <> 0%nat)) /\
  (tc = 9 -> (attr_decode oc p tc f n buf = Panic <-> (length buf < 4)%nat)) /\
  (tc = 22 -> (attr_decode oc p tc f n buf = Panic <-> pmsi_panics buf)) /\
  (tc = 32 -> (attr_decode oc p tc f n buf = Panic <-> Nat.modulo (length buf) 12 <> 0%nat)).
Proof.
  intros Hb. repeat split; subst tc.
  all: unfold attr_decode; cbn [attr_decode_n N.eqb Pos.eqb]; rewrite map_panic.
  - intros H E. pose proof (community_exact buf) as C. rewrite E in C. cbn [Nat.eqb] in C. destruct C as (v & C). congruence.
  - intros H. pose proof (community_exact buf) as C. destruct (Nat.eqb_spec (Nat.modulo (length buf) 4) 0); [congruence|exact C].
  - unfold originator_decode. intros H. destruct (Nat.ltb_spec (length buf) 4) as [L|L]; [exact L|exfalso].
    revert H. change (np (match sp_mode p with ModeV4 => s <- rslice buf 0 4 ;; decode_addr_from s
      | ModeV6 => if Nat.ltb (length buf) 16 then s <- rslice buf 0 4 ;; decode_addr_from s else s <- rslice buf 0 16 ;; decode_addr_from s end)).
    destruct (sp_mode p); [npb; np1|]. destruct (Nat.ltb_spec (length buf) 16); npb; np1.
  - intros H. unfold originator_decode. assert (R : rslice buf 0 4 = Panic).
    { unfold rslice. destruct (Nat.leb_spec 4 (length buf)); [lia|]. now rewrite andb_false_r. }
    destruct (Nat.ltb_spec (length buf) 16); [|lia]. rewrite R. now destruct (sp_mode p).
  - apply pmsi_panics_iff. exact Hb.
  - apply pmsi_panics_iff. exact Hb.
  - intros H E. pose proof (large_exact buf) as C. rewrite E in C. cbn [Nat.eqb] in C. destruct C as (v & C). congruence.
  - intros H. pose proof (large_exact buf) as C. destruct (Nat.eqb_spec (Nat.modulo (length buf) 12) 0); [congruence|exact C].
Qed.

(** ** Every attribute set *)
Definition set_outcome (oc : bool) (p : params) (t : list N) : Prop :=
  exists fs v, Forall2 (fun x a => raw_wf x /\ raw_decodes oc p x (Ok a)) fs v /\
  (t = flat_map raw_wire fs \/
   (exists x rest r, t = flat_map raw_wire fs ++ raw_wire x ++ rest /\ raw_wf x /\ raw_decodes oc p x r /\ forall a, r <> Ok a) \/
   (exists f tc k body, t = flat_map raw_wire fs ++ [f; tc] ++ be_bytes (len_octets f) k ++ body /\ k <= len_max f /\ N.of_nat (length body) < k) \/
   (exists c, t = flat_map raw_wire fs ++ c /\ cut_header c)).
Lemma set_outcome_all oc p : forall m t, (length t < m)%nat -> bytes_ok t -> set_outcome oc p t.
Proof.
  induction m as [|m IH]; intros t Hm Hb; [lia|].
  destruct t as [|f [|tc l]].
  - exists [], []. split; [constructor|]. now left.
  - exists [], []. split; [constructor|]. right; right; right. exists [f]. now split.
  - destruct (Nat.ltb_spec (length l) (len_octets f)) as [L|L].
    { exists [], []. split; [constructor|]. right; right; right. exists (f :: tc :: l). now split. }
    inversion_clear Hb as [|? ? Hf Hb1]. inversion_clear Hb1 as [|? ? Htc Hl].
    pose proof (firstn_skipn (len_octets f) l) as El.
    set (lb := firstn (len_octets f) l) in *. set (r := skipn (len_octets f) l) in *.
    assert (LL : length lb = len_octets f) by (unfold lb; rewrite firstn_length; lia).
    assert (LR : (length r <= length l)%nat) by (unfold r; rewrite skipn_length; lia).
    assert (Hlb : bytes_ok lb) by (apply Forall_firstn; exact Hl). assert (Hr : bytes_ok r) by (apply Forall_skipn; exact Hl).
    clearbody lb r. subst l. pose proof (be_val_bound lb Hlb) as HB. rewrite LL in HB.
    pose proof (be_bytes_be_val lb Hlb) as EB. rewrite LL in EB. set (k := be_val lb) in *. clearbody k.
    assert (HK : k <= len_max f).
    { unfold len_max, len_octets in *. destruct (fl_extended f); [change (2 ^ (8 * N.of_nat 2)) with 65536 in HB|change (2 ^ (8 * N.of_nat 1)) with 256 in HB]; clear - HB; lia. }
    destruct (Nat.ltb_spec (length r) (N.to_nat k)) as [L2|L2].
    { exists [], []. split; [constructor|]. right; right; left. exists f, tc, k, r.
      split; [cbn [flat_map app]; now rewrite EB|]. split; [exact HK|]. clear - L2. lia. }
    pose proof (firstn_skipn (N.to_nat k) r) as Er. set (body := firstn (N.to_nat k) r) in *. set (q := skipn (N.to_nat k) r) in *.
    assert (LB : length body = N.to_nat k) by (unfold body; rewrite firstn_length; lia).
    assert (LQ : (length q <= length r)%nat) by (unfold q; rewrite skipn_length; lia).
    assert (Hq : bytes_ok q) by (apply Forall_skipn; exact Hr). clearbody body q. subst r.
    assert (EN : N.of_nat (length body) = k) by (rewrite LB; apply N2Nat.id).
    assert (EF : f :: tc :: lb ++ body ++ q = raw_wire (f, tc, body) ++ q).
    { cbn [raw_wire]. unfold frame. rewrite EN, EB. cbn [app]. now rewrite <- app_assoc. }
    destruct (attr_decode oc p tc f (length body) body) as [a|e| |] eqn:E.
    2-4: exists [], []; split; [constructor|]; right; left; exists (f, tc, body), q; eexists; split; [cbn [flat_map app]; exact EF|];
      split; [cbn [raw_wf]; rewrite EN; exact HK|]; split; [exact E|discriminate].
    destruct (IH q) as (fs & v & HF & HC); [cbn [length] in Hm; rewrite !app_length in Hm; lia|exact Hq|].
    exists ((f, tc, body) :: fs), (a :: v). split.
    { constructor; [|exact HF]. split; [cbn [raw_wf]; rewrite EN; exact HK|exact E]. }
    rewrite EF. cbn [flat_map].
    destruct HC as [->|[(x & rest & r & -> & HX)|[(f' & tc' & k' & b' & -> & HX)|(c & -> & HX)]]].
    + now left.
    + right; left. exists x, rest, r. split; [now rewrite <- app_assoc|exact HX].
    + right; right; left. exists f', tc', k', b'. split; [now rewrite <- app_assoc|exact HX].
    + right; right; right. exists c. split; [now rewrite <- app_assoc|exact HX].
Qed.
Lemma C77_cases_l oc p fl n buf : sp_as32 p = true -> bytes_ok buf -> (4 <= length buf)%nat ->
  exists asn fs v t, buf = be_bytes 4 asn ++ flat_map raw_wire fs ++ t /\ asn < 2 ^ 32 /\
  Forall2 (fun x a => raw_wf x /\ raw_decodes oc p x (Ok a)) fs v /\
  (t = [] /\ attr_decode oc p 128 fl n buf = Ok (AAttrSet asn v) \/
   (exists x rest r, t = raw_wire x ++ rest /\ raw_wf x /\ raw_decodes oc p x r /\ (forall a, r <> Ok a) /\ attr_decode oc p 128 fl n buf = r) \/
   (exists f tc k body, t = [f; tc] ++ be_bytes (len_octets f) k ++ body /\ k <= len_max f /\ N.of_nat (length body) < k /\
      attr_decode oc p 128 fl n buf = Err EOther) \/
   (cut_header t /\ attr_decode oc p 128 fl n buf = Panic)).
Proof.
  intros Hp Hb L. pose proof (firstn_skipn 4 buf) as E. set (h := firstn 4 buf) in *. set (t := skipn 4 buf) in *.
  assert (LH : length h = 4%nat) by (unfold h; rewrite firstn_length; lia).
  assert (Hh : bytes_ok h) by (apply Forall_firstn; exact Hb). assert (Ht : bytes_ok t) by (apply Forall_skipn; exact Hb).
  clearbody h t. subst buf. pose proof (be_bytes_be_val h Hh) as EB. rewrite LH in EB. pose proof (be_val_bound h Hh) as HB. rewrite LH in HB.
  change (2 ^ (8 * N.of_nat 4)) with (2 ^ 32) in HB. rewrite <- EB. set (asn := be_val h) in *. clearbody asn. clear h Hb EB LH Hh L.
  destruct (set_outcome_all oc p (S (length t)) t) as (fs & v & HF & HC); [lia|exact Ht|].
  exists asn, fs, v.
  destruct HC as [->|[(x & rest & r & -> & HX)|[(f' & tc' & k' & b' & -> & HX)|(c & -> & HX)]]].
  - exists []. rewrite app_nil_r. split; [reflexivity|]. split; [exact HB|]. split; [exact HF|]. left. split; [reflexivity|]. now apply C77_decode_l.
  - exists (raw_wire x ++ rest). split; [reflexivity|]. split; [exact HB|]. split; [exact HF|]. right; left. exists x, rest, r.
    destruct HX as (H1 & H2 & H3). repeat (split; [assumption || reflexivity|]). eapply C77_inner_l; eassumption.
  - exists ([f'; tc'] ++ be_bytes (len_octets f') k' ++ b'). split; [reflexivity|]. split; [exact HB|]. split; [exact HF|]. right; right; left.
    exists f', tc', k', b'. destruct HX as (H1 & H2). repeat (split; [assumption || reflexivity|]). eapply C77_overrun_l; eassumption.
  - exists c. split; [reflexivity|]. split; [exact HB|]. split; [exact HF|]. right; right; right. split; [exact HX|]. eapply C77_cut_l; eassumption.
Qed.
