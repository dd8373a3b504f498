(** Proofs about the meaning of attribute payloads. *)
From Verif Require Import Base BaseFacts M_Util F_Util S_Wire M_Prefix M_Nlri S_Nlri F_Nlri M_Vpls M_Mvpn S_Mvpn M_Cap M_Open M_Session
  M_Addrs S_Addrs M_Attr S_Attr F_Lay F_Attr F_Attr2 S_Attr2 F_Attr3 S_Attr3.
Ltac Zify.zify_post_hook ::= idtac.

(** ** Octets as values *)
Lemma is_be k s : bytes_ok s -> length s = k -> exists v, v < 2 ^ (8 * N.of_nat k) /\ be_bytes k v = s.
Proof. intros B <-. exists (be_val s). split; [now apply be_val_bound|now apply be_bytes_be_val]. Qed.
Lemma bytes_app a b : bytes_ok (a ++ b) <-> bytes_ok a /\ bytes_ok b.
Proof. apply Forall_app. Qed.
Lemma take k (b : list N) : (k <= length b)%nat -> exists s r, b = s ++ r /\ length s = k.
Proof. intros H. exists (firstn k b), (skipn k b). split; [now rewrite firstn_skipn|rewrite firstn_length; lia]. Qed.
Lemma take_be k b : bytes_ok b -> (k <= length b)%nat -> exists v r, b = be_bytes k v ++ r /\ v < 2 ^ (8 * N.of_nat k) /\ bytes_ok r.
Proof.
  intros B H. apply take in H as (s & r & -> & Hs). apply bytes_app in B as [B1 B2]. apply (is_be k s B1) in Hs as (v & Hv & <-). now exists v, r.
Qed.
Lemma is_ecomm s : bytes_ok s -> length s = 8%nat -> exists x, ecomm_wf x /\ ecomm_wire x = s.
Proof.
  intros B L. destruct s as [|t [|st s]]; try discriminate L. unfold bytes_ok in B. pose proof (Forall_inv B) as B0. apply Forall_inv_tail in B. pose proof (Forall_inv B) as B1. apply Forall_inv_tail in B.
  cbn [length] in L. destruct (take_be 2 s B ltac:(lia)) as (a & r & -> & Ha & B'). rewrite app_length, length_be_bytes in L.
  destruct (is_be 4 r B' ltac:(lia)) as (b & Hb & <-). exists (mkEC t st a b). split; [now repeat split|reflexivity].
Qed.
Lemma is_lcomm s : bytes_ok s -> length s = 12%nat -> exists x, lcomm_wf x /\ lcomm_wire x = s.
Proof.
  intros B L. destruct (take_be 4 s B ltac:(lia)) as (a & r & -> & Ha & B'). rewrite app_length, length_be_bytes in L.
  destruct (take_be 4 r B' ltac:(lia)) as (b & r' & -> & Hb & B''). rewrite app_length, length_be_bytes in L.
  destruct (is_be 4 r' B'' ltac:(lia)) as (c & Hc & <-). exists (mkLC a b c). split; [now repeat split|reflexivity].
Qed.
Lemma is_mode m s : bytes_ok s -> length s = ip_width m -> exists x, of_mode m x /\ ip_bytes x = s.
Proof.
  intros B L. destruct (is_be _ s B L) as (v & Hv & E). destruct m; [exists (IPv4 v)|exists (IPv6 v)]; split; assumption.
Qed.
Lemma chunks {A} (E : A -> list N) (P : A -> Prop) k : (0 < k)%nat -> (forall s, bytes_ok s -> length s = k -> exists x, P x /\ E x = s) ->
  forall n b, (length b <= n)%nat -> bytes_ok b -> exists v r, b = flat_map E v ++ r /\ Forall P v /\ (length r < k)%nat /\ bytes_ok r.
Proof.
  intros Hk H. induction n as [|n IH]; intros b Hn B.
  - exists [], b. repeat split; [constructor|lia|exact B].
  - destruct (Nat.lt_ge_cases (length b) k) as [Hl|Hl].
    + exists [], b. repeat split; [constructor|lia|exact B].
    + apply take in Hl as (s & r & -> & Hs). apply bytes_app in B as [B1 B2]. rewrite app_length in Hn. destruct (IH r ltac:(lia) B2) as (v & r' & -> & Hv & Hr & Br).
      apply (H s B1) in Hs as (x & Hx & <-). exists (x :: v), r'. cbn [flat_map]. rewrite app_assoc. repeat split; auto.
Qed.
Lemma chunks_all {A} (E : A -> list N) (P : A -> Prop) k b : (0 < k)%nat -> (forall s, bytes_ok s -> length s = k -> exists x, P x /\ E x = s) ->
  (forall x, length (E x) = k) -> bytes_ok b -> Nat.modulo (length b) k = 0%nat -> exists v, b = flat_map E v /\ Forall P v.
Proof.
  intros Hk H L B M. destruct (chunks E P k Hk H (length b) b (Nat.le_refl _) B) as (v & r & -> & Hv & Hr & _). rewrite app_length, (length_flat_map_const E k v L) in M.
  rewrite Nat.add_comm, Nat.mod_add, Nat.mod_small in M by lia. destruct r; [|discriminate M]. exists v. split; [now rewrite app_nil_r|exact Hv].
Qed.

(** ** Loops with octets left over *)
Lemma win_loop_rest {A} k (dec : list N -> res A) (E : A -> list N) v r : (0 < k)%nat -> (length r < k)%nat ->
  (forall x, In x v -> length (E x) = k /\ dec (E x) = Ok x) ->
  forall pre fuel, (length (flat_map E v ++ r) < fuel)%nat -> win_loop k dec fuel (pre ++ flat_map E v ++ r) (length pre) = Ok v.
Proof.
  intros Hk Hr. induction v as [|x v IH]; intros H pre fuel Hf; (destruct fuel as [|fuel]; [lia|]); cbn [win_loop flat_map app] in *.
  - replace (Nat.leb (length pre + k) (length (pre ++ r))) with false by (symmetry; apply Nat.leb_gt; rewrite app_length; lia). reflexivity.
  - destruct (H x (or_introl eq_refl)) as [Lx Dx]. rewrite !app_length in Hf. rewrite <- app_assoc.
    replace (Nat.leb (length pre + k) (length (pre ++ E x ++ flat_map E v ++ r))) with true by (symmetry; apply Nat.leb_le; rewrite !app_length; lia).
    rewrite rslice_ok by (rewrite ?app_length; lia). rewrite bind_ok.
    rewrite sub_app_exact by lia. rewrite Dx, bind_ok.
    rewrite app_assoc. replace (length pre + k)%nat with (length (pre ++ E x)) by (rewrite app_length; lia).
    rewrite IH; [reflexivity| |rewrite app_length; lia]. intros; apply H; now right.
Qed.
Lemma win_loop_rest0 {A} k (dec : list N -> res A) (E : A -> list N) v r : (0 < k)%nat -> (length r < k)%nat ->
  (forall x, In x v -> length (E x) = k /\ dec (E x) = Ok x) ->
  win_loop k dec (S (length (flat_map E v ++ r))) (flat_map E v ++ r) 0 = Ok v.
Proof. intros Hk Hr H. apply (win_loop_rest k dec E v r Hk Hr H [] (S (length (flat_map E v ++ r)))). lia. Qed.
Lemma set_from_eq {A} (cmp : A -> A -> comparison) v s : cmp_laws cmp -> set_from cmp v s -> bset_of cmp v = s.
Proof.
  intros L [H1 H2]. destruct (bset_of_spec cmp L v) as [G1 G2]. apply (ascending_ext cmp L); auto. intros x. now rewrite G2, H2.
Qed.
Lemma set_from_of {A} (cmp : A -> A -> comparison) v : cmp_laws cmp -> set_from cmp v (bset_of cmp v).
Proof. intros L. exact (bset_of_spec cmp L v). Qed.

Definition dec1 (oc : bool) (p : params) (tc : N) (b : list N) : res attr := attr_decode oc p tc 0 0 b.
Lemma flags_free oc p tc f n b : In tc plain_codes -> attr_decode oc p tc f n b = dec1 oc p tc b.
Proof. intros I. unfold dec1, attr_decode. repeat (destruct I as [<-|I]; [reflexivity|]). destruct I. Qed.

(** ** What has a meaning is decoded to it *)
Lemma as_loop (w32 : bool) (h v : list N) : let w := if w32 then 4%nat else 2%nat in Forall (fun x => x < 256 ^ N.of_nat w) v ->
  dec_loop (as_step w32) (S (length (h ++ flat_map (be_bytes w) v))) (h ++ flat_map (be_bytes w) v) (length h)
  = Ok (v, (length h + length (flat_map (be_bytes w) v))%nat).
Proof.
  intros w H. subst w. rewrite (dec_loop_concat (as_step w32) (be_bytes (if w32 then 4%nat else 2%nat)) (fun x => x)); [now rewrite map_id| | |rewrite app_length; lia].
  - intros y rest Hy. rewrite Forall_forall in H. apply H in Hy. unfold as_step. destruct w32; rewrite rslice_head by apply length_be_bytes; rewrite bind_ok.
    + now rewrite getn_u32_exact. + now rewrite getn_u16_exact.
  - intros y _. rewrite length_be_bytes. destruct w32; lia.
Qed.
Lemma payload_sound oc p tc b a : payload p tc b a -> In tc plain_codes -> dec1 oc p tc b = Ok a.
Proof.
  intros H I. unfold dec1, attr_decode. repeat (destruct I as [<-|I]; [cbn [attr_decode_n N.eqb Pos.eqb]; cbn [payload] in H|]); [..|destruct I].
  - destruct H as (c & r & -> & [[-> ->]|[[-> ->]|[-> ->]]]); reflexivity.
  - destruct H as (h & v & -> & Hh & Hv & ->). unfold aspath_decode. unfold as_octets in *. pose proof (as_loop (sp_as32 p) h v) as L. cbv zeta in L.
    set (w := if sp_as32 p then 4%nat else 2%nat) in *. assert (Lf : length (flat_map (be_bytes w) v) = (length v * w)%nat) by (apply length_flat_map_const; intros; apply length_be_bytes).
    assert (Hw : (2 <= w)%nat) by (unfold w; destruct (sp_as32 p); lia).
    destruct (Nat.ltb_spec (length (h ++ flat_map (be_bytes w) v)) 2) as [Hs|Hs].
    + rewrite app_length, Lf in Hs. destruct v as [|x v]; [reflexivity|]. cbn [length] in Hs. nia.
    + assert (Em : (if sp_as32 p then Nat.modulo (length (h ++ flat_map (be_bytes w) v)) 4 else Nat.modulo (length (h ++ flat_map (be_bytes w) v)) 2) = length h).
      { transitivity (Nat.modulo (length (h ++ flat_map (be_bytes w) v)) w); [unfold w; now destruct (sp_as32 p)|]. rewrite app_length, Lf, Nat.mod_add, Nat.mod_small by lia. reflexivity. }
      cbv zeta. rewrite Em, L by exact Hv. reflexivity.
  - destruct H as (x & r & -> & Hx & ->). unfold nexthop_decode. destruct (sp_mode p), x as [x|x]; cbn [of_mode ip_bytes] in *; try contradiction.
    + replace (Nat.leb 4 _) with true by (symmetry; apply Nat.leb_le; rewrite app_length, length_be_bytes; lia). now rewrite decode_addrv4_be.
    + replace (Nat.leb 16 _) with true by (symmetry; apply Nat.leb_le; rewrite app_length, length_be_bytes; lia). now rewrite decode_addrv6_be.
  - destruct H as (v & r & -> & Hv & ->). now rewrite u32_decode_be.
  - destruct H as (v & r & -> & Hv & ->). now rewrite u32_decode_be.
  - destruct H as [[-> ->]|(x & -> & Hx & ->)]; [reflexivity|]. now rewrite atomic_decode_wire.
  - destruct H as (asn & ad & Ha & -> & [[Hn ->]|[Hn ->]]); unfold aggregator_decode.
    + change (Nat.eqb (length (be_bytes 4 asn ++ be_bytes 4 ad)) 8) with true. cbv iota. rewrite getn_u32_be, bind_ok by exact Hn.
      assert (R : rslice (be_bytes 4 asn ++ be_bytes 4 ad) 4 8 = Ok (be_bytes 4 ad)) by reflexivity. rewrite R, bind_ok.
      rewrite <- (app_nil_r (be_bytes 4 ad)), decode_addrv4_be by exact Ha. reflexivity.
    + change (Nat.eqb (length (be_bytes 2 asn ++ be_bytes 4 ad)) 8) with false. change (Nat.eqb (length (be_bytes 2 asn ++ be_bytes 4 ad)) 6) with true. cbv iota. rewrite getn_u16_be, bind_ok by exact Hn.
      assert (R : rslice (be_bytes 2 asn ++ be_bytes 4 ad) 2 6 = Ok (be_bytes 4 ad)) by reflexivity. rewrite R, bind_ok.
      rewrite <- (app_nil_r (be_bytes 4 ad)), decode_addrv4_be by exact Ha. reflexivity.
  - destruct H as (v & s & -> & Hv & Hs & ->). rewrite community_decode_flat by exact Hv. now rewrite (set_from_eq _ _ _ N_laws Hs).
  - destruct H as (x & r & -> & Hx & -> & Hm). apply decode_addr_be in Hx as D. unfold originator_decode. destruct x as [x|x]; cbn [ip_bytes] in *.
    + destruct (sp_mode p); [|specialize (Hm eq_refl); replace (Nat.ltb _ 16) with true by (symmetry; now apply Nat.ltb_lt)];
        rewrite rslice_head by apply length_be_bytes; rewrite bind_ok, D; reflexivity.
    + rewrite Hm. replace (Nat.ltb _ 16) with false by (symmetry; apply Nat.ltb_ge; rewrite app_length, length_be_bytes; lia).
      rewrite rslice_head by apply length_be_bytes; rewrite bind_ok, D; reflexivity.
  - destruct H as (v & r & -> & Hv & Hr & ->). unfold cluster_decode. change (match sp_mode p with ModeV4 => 4%nat | ModeV6 => 16%nat end) with (ip_width (sp_mode p)).
    rewrite (win_loop_rest0 (ip_width (sp_mode p)) decode_addr_from ip_bytes v r); [reflexivity|destruct (sp_mode p); cbn; lia|exact Hr|].
    intros x Hx. rewrite Forall_forall in Hv. apply Hv in Hx. split; [|now apply decode_addr_be, (of_mode_wf (sp_mode p))].
    destruct (sp_mode p), x; cbn [of_mode ip_bytes ip_width] in *; try contradiction; apply length_be_bytes.
  - destruct H as (v & s & r & -> & Hv & Hr & Hs & ->). unfold ext_decode.
    rewrite (win_loop_rest0 8 ecomm_decode ecomm_wire v r); [rewrite bind_ok, (set_from_eq _ _ _ ecomm_laws Hs); reflexivity|lia|exact Hr|].
    intros x Hx. rewrite Forall_forall in Hv. apply Hv in Hx. split; [reflexivity|now apply ecomm_decode_wire].
  - destruct H as (asn & x & y & r & -> & H1 & H2 & H3 & ->).
    set (w := be_bytes 2 1 ++ be_bytes 4 asn ++ be_bytes 4 x ++ be_bytes 4 y).
    assert (G : connector_decode (w ++ r) = connector_decode w).
    { unfold w. reflexivity. }
    replace (be_bytes 2 1 ++ be_bytes 4 asn ++ be_bytes 4 x ++ be_bytes 4 y ++ r) with (w ++ r) by (unfold w; now rewrite <- !app_assoc).
    rewrite G. unfold w. now rewrite connector_decode_wire.
  - destruct H as (v & s & -> & Hv & Hs & ->). rewrite large_decode_flat by exact Hv. now rewrite (set_from_eq _ _ _ lcomm_laws Hs).
Qed.

(** ** What has no meaning is not decoded *)
Lemma takes_be4 b : bytes_ok b -> (4 <= length b)%nat -> exists v r, b = be_bytes 4 v ++ r /\ v < 2 ^ 32.
Proof. intros B H. destruct (take_be 4 b B H) as (v & r & E & Hv & _). now exists v, r. Qed.
Lemma takes_mode m b : bytes_ok b -> (ip_width m <= length b)%nat -> exists x r, b = ip_bytes x ++ r /\ of_mode m x.
Proof. intros B H. apply take in H as (s & r & -> & Hs). apply bytes_app in B as [B _]. apply (is_mode m s B) in Hs as (x & Hx & <-). now exists x, r. Qed.
Lemma connector_type (b : list N) : bytes_ok b -> (14 <= length b)%nat ->
  (exists asn x y r, b = be_bytes 2 1 ++ be_bytes 4 asn ++ be_bytes 4 x ++ be_bytes 4 y ++ r /\ asn < 2 ^ 32 /\ x < 2 ^ 32 /\ y < 2 ^ 32) \/
  (forall a, connector_decode b <> Ok a).
Proof.
  intros B H. destruct (take_be 2 b B ltac:(lia)) as (t & r & -> & Ht & B1). rewrite app_length, length_be_bytes in H.
  destruct (N.eqb_spec t 1) as [->|Et].
  - left. destruct (take_be 4 r B1 ltac:(lia)) as (asn & r1 & -> & H1 & B2). rewrite app_length, length_be_bytes in H.
    destruct (take_be 4 r1 B2 ltac:(lia)) as (x & r2 & -> & H2 & B3). rewrite app_length, length_be_bytes in H.
    destruct (take_be 4 r2 B3 ltac:(lia)) as (y & r3 & -> & H3 & _). now exists asn, x, y, r3.
  - right. intros a. unfold connector_decode. destruct (Nat.leb 14 _); [|discriminate]. rewrite getn_u16_be, bind_ok by exact Ht.
    replace (t =? 1) with false by (symmetry; now apply N.eqb_neq). discriminate.
Qed.
Lemma aspath_meaning p b : bytes_ok b -> exists a, payload p 2 b a.
Proof.
  intros B. cbn [payload]. set (w := as_octets p). assert (Hw : (0 < w)%nat) by (unfold w, as_octets; destruct (sp_as32 p); lia).
    assert (M : (Nat.modulo (length b) w < w)%nat) by (apply Nat.mod_upper_bound; lia). pose proof (Nat.mod_le (length b) w ltac:(lia)) as Ml.
    destruct (take _ b Ml) as (h & r & E & Hh). rewrite E in B. apply bytes_app in B as [_ B].
    destruct (chunks_all (be_bytes w) (fun x => x < 256 ^ N.of_nat w) w r Hw) as (v & -> & Hv); [|intros; apply length_be_bytes|exact B| |].
  - intros s Bs Ls. destruct (is_be w s Bs Ls) as (x & Hx & Es). exists x. split; [|exact Es]. replace 256 with (2 ^ 8) by reflexivity. now rewrite <- N.pow_mul_r.
  - apply (f_equal (@length N)) in E. rewrite app_length, Hh in E. pose proof (Nat.div_mod (length b) w ltac:(lia)) as D. replace (length r) with (length b / w * w)%nat by lia. now apply Nat.mod_mul; lia.
  - exists (AASPath v), h, v. repeat split; auto. lia.
Qed.
Lemma meaning_or_not oc p tc b : bytes_ok b -> In tc plain_codes -> (exists a, payload p tc b a) \/ (forall a, dec1 oc p tc b <> Ok a).
Proof.
  intros B I. pose proof (panics_exact_l oc p tc 0 0 b B) as (P8 & P9 & _ & P32). unfold dec1.
  assert (PN : attr_decode oc p tc 0 0 b = Panic -> forall a, attr_decode oc p tc 0 0 b <> Ok a) by (intros ->; discriminate).
  repeat (destruct I as [<-|I]; [cbn [payload]|]); [..|destruct I].
  - destruct b as [|c r]; [right; discriminate|]. destruct (N.eqb_spec c 0) as [->|E0]; [left; exists (AOrigin Igp), 0, r; auto|].
    destruct (N.eqb_spec c 1) as [->|E1]; [left; exists (AOrigin Egp), 1, r; auto|]. destruct (N.eqb_spec c 2) as [->|E2]; [left; exists (AOrigin Incomplete), 2, r; auto|].
    right. intros a. unfold attr_decode. cbn [attr_decode_n N.eqb Pos.eqb origin_decode]. apply N.eqb_neq in E0, E1, E2. rewrite E0, E1, E2. discriminate.
  - left. now apply aspath_meaning.
  - destruct (Nat.lt_ge_cases (length b) (ip_width (sp_mode p))) as [H|H].
    + right. intros a. unfold attr_decode. cbn [attr_decode_n N.eqb Pos.eqb]. unfold nexthop_decode.
      destruct (sp_mode p); cbn [ip_width] in H; apply Nat.leb_gt in H; rewrite H; discriminate.
    + left. destruct (takes_mode _ b B H) as (x & r & -> & Hx). now exists (ANextHop x), x, r.
  - destruct (Nat.lt_ge_cases (length b) 4) as [H|H].
    + right. intros a. unfold attr_decode. cbn [attr_decode_n N.eqb Pos.eqb]. unfold u32_decode. apply Nat.leb_gt in H. rewrite H. discriminate.
    + left. destruct (takes_be4 b B H) as (v & r & -> & Hv). now exists (AMED v), v, r.
  - destruct (Nat.lt_ge_cases (length b) 4) as [H|H].
    + right. intros a. unfold attr_decode. cbn [attr_decode_n N.eqb Pos.eqb]. unfold u32_decode. apply Nat.leb_gt in H. rewrite H. discriminate.
    + left. destruct (takes_be4 b B H) as (v & r & -> & Hv). now exists (ALocalPref v), v, r.
  - destruct b as [|c b]; [left; exists (AAtomicAggregate (IPv4 0)); now left|]. unfold attr_decode. cbn [attr_decode_n N.eqb Pos.eqb atomic_decode].
    destruct (decode_addr_from (c :: b)) as [x|e| |] eqn:D; try (right; discriminate). left. apply (decode_addr_inv _ _ B) in D as [W E]. exists (AAtomicAggregate x). right. now exists x.
  - unfold attr_decode. cbn [attr_decode_n N.eqb Pos.eqb]. unfold aggregator_decode. destruct (Nat.eqb_spec (length b) 8) as [E8|E8]; [|destruct (Nat.eqb_spec (length b) 6) as [E6|E6]; [|right; discriminate]].
    + left. destruct (take_be 4 b B ltac:(lia)) as (asn & r & -> & H1 & B1). rewrite app_length, length_be_bytes in E8. destruct (is_be 4 r B1 ltac:(lia)) as (ad & H2 & <-).
      exists (AAggregatorAS asn ad), asn, ad. repeat split; auto. 
    + left. destruct (take_be 2 b B ltac:(lia)) as (asn & r & -> & H1 & B1). rewrite app_length, length_be_bytes in E6. destruct (is_be 4 r B1 ltac:(lia)) as (ad & H2 & <-).
      exists (AAggregatorAS asn ad), asn, ad. repeat split; auto.
  - destruct (Nat.eq_dec (Nat.modulo (length b) 4) 0) as [E|E]; [|right; apply PN; now apply P8]. left.
    destruct (chunks_all (be_bytes 4) (fun x => x < 2 ^ 32) 4 b ltac:(lia) (is_be 4) (length_be_bytes 4) B E) as (v & -> & Hv).
    exists (ACommunityList (bset_of N.compare v)), v, (bset_of N.compare v). repeat split; auto; apply (set_from_of N.compare v N_laws).
  - destruct (Nat.lt_ge_cases (length b) 4) as [H|H]; [right; apply PN; now apply P9|]. left. destruct (sp_mode p) eqn:Em.
    + destruct (takes_be4 b B H) as (v & r & -> & Hv). exists (AOriginatorID (IPv4 v)), (IPv4 v), r. repeat split; auto. discriminate.
    + destruct (Nat.lt_ge_cases (length b) 16) as [H'|H'].
      * destruct (takes_be4 b B H) as (v & r & -> & Hv). exists (AOriginatorID (IPv4 v)), (IPv4 v), r. repeat split; auto.
      * destruct (take_be 16 b B H') as (v & r & -> & Hv & _). exists (AOriginatorID (IPv6 v)), (IPv6 v), r. repeat split; auto.
  - left. destruct (chunks ip_bytes (of_mode (sp_mode p)) (ip_width (sp_mode p)) ltac:(destruct (sp_mode p); cbn; lia) (is_mode (sp_mode p)) (length b) b (Nat.le_refl _) B) as (v & r & E & Hv & Hr & _).
    exists (AClusterList v), v, r. now repeat split.
  - left. destruct (chunks ecomm_wire ecomm_wf 8 ltac:(lia) is_ecomm (length b) b (Nat.le_refl _) B) as (v & r & E & Hv & Hr & _).
    exists (AExtCommunityList (bset_of ecomm_cmp v)), v, (bset_of ecomm_cmp v), r. repeat split; auto; apply (set_from_of ecomm_cmp v ecomm_laws).
  - destruct (Nat.lt_ge_cases (length b) 14) as [H|H].
    + right. intros a. unfold attr_decode. cbn [attr_decode_n N.eqb Pos.eqb]. unfold connector_decode. apply Nat.leb_gt in H. rewrite H. discriminate.
    + destruct (connector_type b B H) as [(asn & x & y & r & E & H1 & H2 & H3)|C]; [left; exists (AConnector asn x y), asn, x, y, r; now repeat split|].
      right. intros a. unfold attr_decode. cbn [attr_decode_n N.eqb Pos.eqb]. destruct (connector_decode b) as [[[u v] w]|e| |]; try discriminate. now destruct (C (u, v, w)).
  - destruct (Nat.eq_dec (Nat.modulo (length b) 12) 0) as [E|E]; [|right; apply PN; now apply P32]. left.
    destruct (chunks_all lcomm_wire lcomm_wf 12 b ltac:(lia) is_lcomm ltac:(reflexivity) B E) as (v & -> & Hv).
    exists (ALargeCommunityList (bset_of lcomm_cmp v)), v, (bset_of lcomm_cmp v). repeat split; auto; apply (set_from_of lcomm_cmp v lcomm_laws).
Qed.
Lemma payload_exact oc p tc f n b a : bytes_ok b -> In tc plain_codes -> attr_decode oc p tc f n b = Ok a <-> payload p tc b a.
Proof.
  intros B I. rewrite flags_free by exact I. split; [|intros H; now apply payload_sound].
  intros H. destruct (meaning_or_not oc p tc b B I) as [[a' H']|C]; [|now destruct (C a)]. pose proof (payload_sound oc _ _ _ _ H' I) as E. congruence.
Qed.

(** ** Lengths (C93) *)
Lemma flat_be k v : length (flat_map (be_bytes k) v) = (k * length v)%nat.
Proof. now rewrite (length_flat_map_const (be_bytes k) k v (length_be_bytes k)), Nat.mul_comm. Qed.
Lemma payload_length p tc b a : payload p tc b a -> In tc plain_codes -> length_taken p tc (length b).
Proof.
  intros H I. repeat (destruct I as [<-|I]; [cbn [payload] in H; cbn [length_taken]|]); [..|destruct I]; auto.
  - destruct H as (c & r & -> & _). cbn. lia.
  - destruct H as (x & r & -> & Hx & _). rewrite app_length. destruct (sp_mode p), x; try contradiction; cbn [ip_bytes ip_width]; rewrite length_be_bytes; lia.
  - destruct H as (v & r & -> & _). rewrite app_length, length_be_bytes. lia.
  - destruct H as (v & r & -> & _). rewrite app_length, length_be_bytes. lia.
  - destruct H as [[-> _]|(x & -> & _)]; [now left|]. right. destruct x; cbn [ip_bytes]; rewrite length_be_bytes; auto.
  - destruct H as (asn & ad & _ & _ & [[_ ->]|[_ ->]]); rewrite app_length, !length_be_bytes; auto.
  - destruct H as (v & s & -> & _). rewrite flat_be, Nat.mul_comm. now apply Nat.mod_mul.
  - destruct H as (x & r & -> & _). rewrite app_length. destruct x; cbn [ip_bytes]; rewrite length_be_bytes; lia.
  - destruct H as (asn & x & y & r & -> & _). rewrite !app_length, !length_be_bytes. lia.
  - destruct H as (v & s & -> & _). rewrite (length_flat_map_const lcomm_wire 12 v ltac:(reflexivity)). now apply Nat.mod_mul.
Qed.
Lemma length_meaning p tc b : bytes_ok b -> In tc plain_codes -> tc <> 1 -> tc <> 20 -> length_taken p tc (length b) -> exists a, payload p tc b a.
Proof.
  intros B I N1 N20 L.
  repeat (destruct I as [<-|I]; [cbn [payload]; cbn [length_taken] in L|]); [..|destruct I]; try now (destruct N1 || destruct N20).
  - now apply aspath_meaning.
  - destruct (takes_mode _ b B L) as (x & r & -> & Hx). now exists (ANextHop x), x, r.
  - destruct (takes_be4 b B L) as (v & r & -> & Hv). now exists (AMED v), v, r.
  - destruct (takes_be4 b B L) as (v & r & -> & Hv). now exists (ALocalPref v), v, r.
  - destruct L as [L|[L|L]].
    + apply length_zero_iff_nil in L as ->. exists (AAtomicAggregate (IPv4 0)). now left.
    + destruct (is_be 4 b B L) as (x & Hx & <-). exists (AAtomicAggregate (IPv4 x)). right. now exists (IPv4 x).
    + destruct (is_be 16 b B L) as (x & Hx & <-). exists (AAtomicAggregate (IPv6 x)). right. now exists (IPv6 x).
  - destruct L as [L|L].
    + destruct (take_be 2 b B ltac:(lia)) as (asn & r & -> & H1 & B1). rewrite app_length, length_be_bytes in L. destruct (is_be 4 r B1 ltac:(lia)) as (ad & H2 & <-).
      exists (AAggregatorAS asn ad), asn, ad. repeat split; auto.
    + destruct (take_be 4 b B ltac:(lia)) as (asn & r & -> & H1 & B1). rewrite app_length, length_be_bytes in L. destruct (is_be 4 r B1 ltac:(lia)) as (ad & H2 & <-).
      exists (AAggregatorAS asn ad), asn, ad. repeat split; auto.
  - destruct (chunks_all (be_bytes 4) (fun x => x < 2 ^ 32) 4 b ltac:(lia) (is_be 4) (length_be_bytes 4) B L) as (v & -> & Hv).
    exists (ACommunityList (bset_of N.compare v)), v, (bset_of N.compare v). repeat split; auto; apply (set_from_of N.compare v N_laws).
  - destruct (sp_mode p) eqn:Em.
    + destruct (takes_be4 b B L) as (v & r & -> & Hv). exists (AOriginatorID (IPv4 v)), (IPv4 v), r. repeat split; auto. discriminate.
    + destruct (Nat.lt_ge_cases (length b) 16) as [H'|H'].
      * destruct (takes_be4 b B L) as (v & r & -> & Hv). exists (AOriginatorID (IPv4 v)), (IPv4 v), r. repeat split; auto.
      * destruct (take_be 16 b B H') as (v & r & -> & Hv & _). exists (AOriginatorID (IPv6 v)), (IPv6 v), r. repeat split; auto.
  - destruct (chunks ip_bytes (of_mode (sp_mode p)) (ip_width (sp_mode p)) ltac:(destruct (sp_mode p); cbn; lia) (is_mode (sp_mode p)) (length b) b (Nat.le_refl _) B) as (v & r & E & Hv & Hr & _).
    exists (AClusterList v), v, r. now repeat split.
  - destruct (chunks ecomm_wire ecomm_wf 8 ltac:(lia) is_ecomm (length b) b (Nat.le_refl _) B) as (v & r & E & Hv & Hr & _).
    exists (AExtCommunityList (bset_of ecomm_cmp v)), v, (bset_of ecomm_cmp v), r. repeat split; auto; apply (set_from_of ecomm_cmp v ecomm_laws).
  - destruct (chunks_all lcomm_wire lcomm_wf 12 b ltac:(lia) is_lcomm ltac:(reflexivity) B L) as (v & -> & Hv).
    exists (ALargeCommunityList (bset_of lcomm_cmp v)), v, (bset_of lcomm_cmp v). repeat split; auto; apply (set_from_of lcomm_cmp v lcomm_laws).
Qed.

Lemma length_dec oc p tc f n b : bytes_ok b -> In tc plain_codes ->
  (forall a, attr_decode oc p tc f n b = Ok a -> length_taken p tc (length b)) /\
  (tc <> 1 -> tc <> 20 -> length_taken p tc (length b) -> exists a, attr_decode oc p tc f n b = Ok a).
Proof.
  intros B I. split.
  - intros a H. apply payload_exact in H; auto. now apply (payload_length p tc b a).
  - intros N1 N20 L. destruct (length_meaning p tc b B I N1 N20 L) as [a H]. exists a. now apply payload_exact.
Qed.
(** whatever follows the octets that are read changes nothing *)
Lemma trailing_free oc p tc f n b r a : bytes_ok b -> bytes_ok r -> In tc [1; 3; 4; 5; 20] -> attr_decode oc p tc f n b = Ok a -> attr_decode oc p tc f n (b ++ r) = Ok a.
Proof.
  intros B R I H. assert (J : In tc plain_codes) by (clear - I; unfold plain_codes; cbn in *; tauto).
  apply payload_exact in H; auto. apply payload_exact; [apply Forall_app; now split|exact J|].
  repeat (destruct I as [<-|I]; [cbn [payload] in H |- *|]); [..|destruct I].
  - destruct H as (c & q & -> & H). exists c, (q ++ r). now split.
  - destruct H as (x & q & -> & H). exists x, (q ++ r). rewrite app_assoc. now split.
  - destruct H as (x & q & -> & H). exists x, (q ++ r). rewrite app_assoc. now split.
  - destruct H as (x & q & -> & H). exists x, (q ++ r). rewrite app_assoc. now split.
  - destruct H as (asn & x & y & q & -> & H). exists asn, x, y, (q ++ r). rewrite <- !app_assoc. now split.
Qed.
Lemma rfc_accepted oc p tc f n b : bytes_ok b -> In tc plain_codes -> tc <> 1 -> tc <> 20 ->
  length_rfc p tc (length b) -> exists a, attr_decode oc p tc f n b = Ok a.
Proof.
  intros B I N1 N20 L. apply (length_dec oc p tc f n b B I); auto. clear - I L.
  repeat (destruct I as [<-|I]; [cbn [length_rfc] in L; cbn [length_taken]; auto; try (rewrite L; unfold ip_width, as_octets; destruct (sp_mode p), (sp_as32 p); cbn; auto; lia)|]); [..|destruct I].
Qed.
