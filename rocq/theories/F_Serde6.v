From Coq Require Import Ascii String Permutation.
From Verif Require Import Base BaseFacts S_Attr S_Nlri S_Prefix S_Text S_Text2 F_Util F_Attr F_Text M_Util M_Prefix M_Nlri M_Vpls M_Mvpn M_Evpn M_Flowspec M_Addrs M_Attr M_Text M_Text2 M_Serde S_Serde S_Serde2 F_Serde F_Serde2 F_Serde3 F_Serde4 F_Serde5.
Ltac Zify.zify_post_hook ::= idtac.

Lemma deep_in d ds : In d ds -> (doc_deep d <= fold_right (fun d n => Nat.max (doc_deep d) n) O ds)%nat.
Proof.
  induction ds as [|x ds IH]; [contradiction|]. cbn [fold_right]. intros [->|I2]; [apply Nat.le_max_l|]. specialize (IH I2). etransitivity; [exact IH|apply Nat.le_max_r].
Qed.
Lemma safe_vec k t : safe k t -> safe (S k) (TVec t).
Proof.
  intros H hr d L. cbn [de]. destruct d as [| | | | |ds| |]; cbn [de_seq]; try discriminate. apply sbind_fuel; [|discriminate]. apply de_list_fuel. intros d I. apply H.
  cbn [doc_deep] in L. apply deep_in in I. clear - L I. lia.
Qed.
Lemma safe_set k t : safe k t -> safe (S k) (TSet t).
Proof.
  intros H hr d L. cbn [de]. destruct d as [| | | | |ds| |]; cbn [de_seq]; try discriminate. apply sbind_fuel; [|discriminate]. apply de_list_fuel. intros d I. apply H.
  cbn [doc_deep] in L. apply deep_in in I. clear - L I. lia.
Qed.
Lemma safe_opt k t : safe k t -> safe (S k) (TOpt t).
Proof. intros H hr d L. cbn [de]. destruct d; try discriminate. apply sbind_fuel; [|discriminate]. apply H. cbn [doc_deep] in L. clear - L. lia. Qed.
Lemma safe_struct k fs : Forall (fun f => safe k (snd f)) fs -> safe (S k) (TStruct fs).
Proof.
  intros H hr d L. cbn [de]. apply de_struct_fuel. intros f d' I D. apply in_map_iff in I as ([nm t] & <- & I). rewrite Forall_forall in H. apply (H _ I hr d').
  clear - L D. lia.
Qed.
Lemma safe_enum k vs : Forall (fun f => match snd f with Some t => safe k t | None => True end) vs -> safe (S k) (TEnum vs).
Proof.
  intros H hr d L. cbn [de]. destruct d as [| | | | | | |key p]; cbn [de_enum]; try discriminate. apply sbind_fuel; [apply variant_key_fuel|]. intros i.
  rewrite nth_error_map. destruct (nth_error vs i) as [[nm [t|]]|] eqn:E; cbn [option_map]; [|destruct p; discriminate|discriminate].
  destruct p as [d|]; [|discriminate]. apply sbind_fuel; [|discriminate]. rewrite Forall_forall in H. apply nth_error_In in E. apply (H _ E hr d). cbn [doc_deep] in L. clear - L. lia.
Qed.
Lemma de_rd_fuel d : de_rd d <> SFuel.
Proof. apply de_struct_fuel. intros f d' I _. destruct I as [<-|[<-|[]]]; apply de_uint_fuel. Qed.
Fixpoint fuel_free (t : ty) : bool :=
  match t with
  | TVec t | TSet t | TOpt t | TRd t | TLab t | TPid t => fuel_free t
  | TStruct fs => forallb (fun f => match f with (_, t) => fuel_free t end) fs
  | TEnum vs => forallb (fun f => match f with (_, Some t) => fuel_free t | (_, None) => true end) vs
  | TFlow ps => forallb fuel_free ps
  | TFuel => false
  | _ => true
  end.
Lemma always t : fuel_free t = true -> forall k, safe k t.
Proof.
  induction t as [|w| | | |n|t IH|t IH|t IH|fs IH|vs IH|t IH|t IH|t IH|ps IH| |] using ty_rect'; intros P k.
  - intros hr d _. cbn [de]. destruct d; discriminate.
  - intros hr d _. apply de_uint_fuel.
  - intros hr d _. cbn [de]. apply sbind_fuel; [apply de_ip4_fuel|discriminate].
  - intros hr d _. cbn [de]. apply sbind_fuel; [apply de_ip6_fuel|discriminate].
  - intros hr d _. cbn [de]. unfold de_ip. destruct hr.
    + destruct d; try discriminate. destruct (parse_ipv4 s); try discriminate; destruct (parse_ipv6 s); discriminate.
    + destruct d as [| | | | | | |key [d|]]; try discriminate. apply sbind_fuel; [apply variant_key_fuel|]. intros [|i]; (apply sbind_fuel; [|discriminate]); [apply de_ip4_fuel|apply de_ip6_fuel].
  - intros hr d _. cbn [de]. apply sbind_fuel; [apply de_octets_fuel|discriminate].
  - apply safe_mono with (S k); [lia|]. apply safe_vec. now apply IH.
  - apply safe_mono with (S k); [lia|]. apply safe_set. now apply IH.
  - apply safe_mono with (S k); [lia|]. apply safe_opt. now apply IH.
  - apply safe_mono with (S k); [lia|]. apply safe_struct. cbn [fuel_free] in P. induction IH as [|[nm t] fs Ht _ IHf]; constructor; cbn [forallb] in P; apply andb_true_iff in P as [P1 P2].
    + now apply Ht.
    + now apply IHf.
  - apply safe_mono with (S k); [lia|]. apply safe_enum. cbn [fuel_free] in P. induction IH as [|[nm [t|]] vs Ht _ IHf]; constructor; cbn [forallb] in P; try (apply andb_true_iff in P as [P1 P2]).
    + now apply Ht.
    + now apply IHf.
    + exact I.
    + now apply IHf.
  - intros hr d _. cbn [de]. apply pair_fuel; [intros d' _; apply de_rd_fuel|]. intros d' _. now apply (IH P (doc_deep d')).
  - intros hr d _. cbn [de]. apply pair_fuel; [|intros d' _; now apply (IH P (doc_deep d'))]. intros d' _. destruct d'; cbn [de_seq]; try discriminate.
    apply sbind_fuel; [|discriminate]. apply de_list_fuel. intros x _. apply de_uint_fuel.
  - intros hr d _. cbn [de]. apply pair_fuel; [intros d' _; apply de_uint_fuel|]. intros d' _. now apply (IH P (doc_deep d')).
  - intros hr d _. cbn [de]. destruct d as [| | | | | |[|[key d] es]|]; cbn [de_flow]; try discriminate. apply sbind_fuel.
    + destruct key; cbn [flow_key]; [|discriminate]. destruct (index_of s BFS_VARS); discriminate.
    + intros i. rewrite nth_error_map. destruct (nth_error ps i) as [t|] eqn:E; cbn [option_map]; [|discriminate]. apply sbind_fuel; [|intros v; destruct es; discriminate].
      rewrite Forall_forall in IH. apply nth_error_In in E. cbn [fuel_free] in P. rewrite forallb_forall in P. exact (IH t E (P t E) (doc_deep d) hr d (le_n _)).
  - intros hr d _. cbn [de]. destruct d; cbn [de_net]; try discriminate. destruct (net_parse s); discriminate.
  - discriminate P.
Qed.
Lemma safe_attr n : safe (3 * S n) (T_Attr n).
Proof.
  assert (G : forall k t, safe k t -> safe (S (S (S k))) (TA t)).
  { intros k t H. unfold TA, enum. apply safe_enum. cbn [map fst snd]. repeat (apply Forall_cons; [cbn [snd]; try (apply always; reflexivity)|]); [|apply Forall_nil].
    unfold struct. apply safe_struct. cbn [map fst snd]. apply Forall_cons; [now apply always|]. apply Forall_cons; [|apply Forall_nil]. cbn [snd]. now apply safe_vec. }
  induction n as [|n IH].
  - apply (G O TFuel). intros hr d L. pose proof (deep_pos d). lia.
  - replace (3 * S (S n))%nat with (S (S (S (3 * S n)))) by lia. exact (G _ _ IH).
Qed.
Lemma attr_fuel n hr d : (doc_deep d <= 3 * S n)%nat -> de hr (T_Attr n) d <> SFuel.
Proof. apply safe_attr. Qed.

(** ** Route lists and attributes *)
Lemma attr_read hr ix n a d : attr_any a -> (sets_deep a <= n)%nat -> (ix = true -> attr_lists wrapped_list a = false) ->
  presents ix (ser hr (T_Attr n) (g_attr a)) d -> de hr (T_Attr n) d = if attr_lists flow_list a then SErr InvalidType else SOk (g_attr a).
Proof.
  intros A L W P. rewrite (roundtrip _ (sound_attr n) ix hr (g_attr a) d); [|intros E; rewrite attr_wrapped by exact L; now apply W|now apply rep_attr|exact P].
  rewrite attr_flow by exact L. now destruct (attr_lists flow_list a).
Qed.
Lemma attr_numbers hr n a : attr_any a -> (sets_deep a <= n)%nat ->
  de hr (T_Attr n) (num_doc (ser hr (T_Attr n) (g_attr a))) = if (attr_lists flow_list a || attr_lists wrapped_list a)%bool then SErr InvalidType else SOk (g_attr a).
Proof.
  intros A L. rewrite (numbers _ (sound_attr n) hr (g_attr a)) by now apply rep_attr. rewrite attr_flow, attr_wrapped by exact L.
  now destruct (attr_lists flow_list a || attr_lists wrapped_list a)%bool.
Qed.
Lemma attr_sound hr n d v : de hr (T_Attr n) d = SOk v -> exists a, v = g_attr a /\ attr_any a /\ (sets_deep a <= n)%nat.
Proof. intros H. apply well_typed in H; [|apply sound_attr]. now apply rep_attr in H. Qed.
Lemma addrs_read hr ix a d : addrs_any a -> (ix = true -> wrapped_list a = false) ->
  presents ix (ser hr T_Addrs (g_addrs a)) d -> de hr T_Addrs d = if flow_list a then SErr InvalidType else SOk (g_addrs a).
Proof.
  intros A W P. rewrite (roundtrip _ sound_addrs ix hr (g_addrs a) d); [|intros E; rewrite addrs_wrapped; now apply W|now apply rep_addrs|exact P].
  rewrite addrs_flow. now destruct (flow_list a).
Qed.
Lemma addrs_sound hr d v : de hr T_Addrs d = SOk v -> exists a, v = g_addrs a /\ addrs_any a.
Proof. intros H. apply well_typed in H; [|apply sound_addrs]. now apply rep_addrs in H. Qed.
Lemma net_read hr ix n d : net_any n -> presents ix (ser hr TNet (GNet n)) d -> de hr TNet d = SOk (GNet n).
Proof. intros A P. exact (roundtrip TNet I ix hr (GNet n) d (fun _ => eq_refl) A P). Qed.

(** ** The wrappers: what they accept *)
Lemma text_eqb_neq a b : a <> b -> text_eqb a b = false.
Proof. intros H. destruct (text_eqb a b) eqn:E; [|reflexivity]. apply text_eqb_eq in E. contradiction. Qed.
Lemma pair_loop_full names fa fb es a b oa ob : pair_loop names fa fb (Some a) (Some b) es = SOk (oa, ob) -> es = [] /\ oa = Some a /\ ob = Some b.
Proof.
  destruct es as [|[k d] es]; cbn [pair_loop]; [intros H; injection H as <- <-; auto|]. intros H. apply sbind_ok in H as ([|] & _ & H); discriminate.
Qed.
Lemma pair_key_inv names k s : pair_key names k = SOk s -> k = KName (if s then snd names else fst names).
Proof.
  destruct k; cbn [pair_key]; [|discriminate]. destruct (text_eqb s0 (fst names)) eqn:E; [intros H; injection H as <-; apply text_eqb_eq in E; congruence|].
  destruct (text_eqb s0 (snd names)) eqn:E'; [|discriminate]. intros H. injection H as <-. apply text_eqb_eq in E'. congruence.
Qed.
Lemma pair_accepts na nb miss fa fb d v : na <> nb ->
  (de_pair (na, nb) miss fa fb d = SOk v <->
   exists da db a b, fa da = SOk a /\ fb db = SOk b /\ v = GPair a b /\
     (d = DSeq [da; db] \/ d = DMap [(KName na, da); (KName nb, db)] \/ d = DMap [(KName nb, db); (KName na, da)])).
Proof.
  intros NE. split.
  - destruct d as [| | | | |ds|es|]; cbn [de_pair]; try discriminate.
    + destruct ds as [|x ds]; [discriminate|]. intros H. apply sbind_ok in H as (a & A & H). destruct ds as [|y [|z ds]]; [discriminate| |];
        apply sbind_ok in H as (b & B & H); [|discriminate]. injection H as <-. exists x, y, a, b. auto.
    + intros H. apply sbind_ok in H as ([oa ob] & E & H). cbn [fst snd] in H. apply sbind_ok in H as (a & A & H). apply sbind_ok in H as (b & B & H). injection H as <-.
      destruct oa as [a'|]; [|discriminate]. destruct ob as [b'|]; [|discriminate]. injection A as <-. injection B as <-.
      destruct es as [|[k1 d1] es]; cbn [pair_loop] in E; [discriminate|]. apply sbind_ok in E as (s1 & K1 & E). apply pair_key_inv in K1 as ->. cbn [fst snd] in E.
      destruct s1; apply sbind_ok in E as (v1 & V1 & E); (destruct es as [|[k2 d2] es]; cbn [pair_loop] in E; [discriminate|]);
        apply sbind_ok in E as (s2 & K2 & E); apply pair_key_inv in K2 as ->; destruct s2; try discriminate E;
        apply sbind_ok in E as (v2 & V2 & E); apply pair_loop_full in E as (-> & Ea & Eb).
      * exists d2, d1, a', b'. repeat split; try congruence. right. right. reflexivity.
      * exists d1, d2, a', b'. repeat split; try congruence. right. left. reflexivity.
  - intros (da & db & a & b & A & B & -> & [->|[->| ->]]).
    + cbn [de_pair]. rewrite A. cbn [sbind]. now rewrite B.
    + cbn [de_pair pair_loop pair_key fst snd]. rewrite text_eqb_refl, (text_eqb_neq nb na) by congruence. rewrite text_eqb_refl. cbn [sbind]. rewrite A. cbn [sbind]. now rewrite B.
    + cbn [de_pair pair_loop pair_key fst snd]. rewrite text_eqb_refl, (text_eqb_neq nb na) by congruence. rewrite text_eqb_refl. cbn [sbind]. rewrite B. cbn [sbind]. now rewrite A.
Qed.
(** a key that is neither name: never accepted, wherever it is *)
Lemma pair_unknown na nb miss fa fb es1 k d es2 v : na <> nb -> k <> KName na -> k <> KName nb -> de_pair (na, nb) miss fa fb (DMap (es1 ++ (k, d) :: es2)) <> SOk v.
Proof.
  intros NE N1 N2 H. apply (pair_accepts na nb miss fa fb _ v NE) in H. destruct H as (da & db & a & b & _ & _ & _ & [E|[E|E]]); [discriminate| |].
  - assert (I : In (k, d) [(KName na, da); (KName nb, db)]) by (injection E as <-; apply in_or_app; right; now left). destruct I as [I|[I|[]]]; congruence.
  - assert (I : In (k, d) [(KName nb, db); (KName na, da)]) by (injection E as <-; apply in_or_app; right; now left). destruct I as [I|[I|[]]]; congruence.
Qed.
(** which field is said to be missing *)
Lemma pair_missing na nb miss fa fb da db a b : na <> nb -> fa da = SOk a -> fb db = SOk b ->
  de_pair (na, nb) miss fa fb (DMap []) = SErr (MissingField (fst miss)) /\
  de_pair (na, nb) miss fa fb (DMap [(KName nb, db)]) = SErr (MissingField (fst miss)) /\
  de_pair (na, nb) miss fa fb (DMap [(KName na, da)]) = SErr (MissingField (snd miss)).
Proof.
  intros NE A B. split; [reflexivity|]. split; cbn [de_pair pair_loop pair_key fst snd]; rewrite ?text_eqb_refl.
  - rewrite (text_eqb_neq nb na) by congruence. cbn [sbind]. now rewrite B.
  - cbn [sbind]. now rewrite A.
Qed.
Lemma pair_duplicate na nb miss fa fb d1 d2 es a : na <> nb ->
  (fa d1 = SOk a -> de_pair (na, nb) miss fa fb (DMap ((KName na, d1) :: (KName na, d2) :: es)) = SErr (DuplicateField na)) /\
  (fb d1 = SOk a -> de_pair (na, nb) miss fa fb (DMap ((KName nb, d1) :: (KName nb, d2) :: es)) = SErr (DuplicateField nb)).
Proof.
  intros NE. split; intros A; cbn [de_pair pair_loop pair_key fst snd]; rewrite ?text_eqb_refl.
  - cbn [sbind]. now rewrite A.
  - rewrite (text_eqb_neq nb na) by congruence. cbn [sbind]. now rewrite A.
Qed.

(** ** Unknown fields of derived structs *)
Lemma struct_unknown fs es1 k d es2 : field_key (map fld_name fs) k = None -> de_struct fs (DMap (es1 ++ (k, d) :: es2)) = de_struct fs (DMap (es1 ++ es2)).
Proof.
  intros U. cbn [de_struct]. f_equal. generalize (map (fun _ : fld => @None gval) fs). induction es1 as [|[k1 d1] es1 IH]; intros acc; cbn [app map_loop].
  - now rewrite U.
  - destruct (field_key (map fld_name fs) k1) as [i|]; [|apply IH]. destruct (nth_error fs i) as [f|]; [|reflexivity]. destruct (nth i acc None); [reflexivity|].
    destruct (fld_de f d1); cbn [sbind]; [apply IH|reflexivity|reflexivity].
Qed.
Lemma index_of_None s names : index_of s names = None <-> ~ In s names.
Proof.
  induction names as [|n names IH]; cbn [index_of In]; [tauto|]. destruct (text_eqb s n) eqn:E.
  - apply text_eqb_eq in E. split; [discriminate|]. intros H. exfalso. apply H. now left.
  - assert (NE : n <> s) by (intros ->; rewrite text_eqb_refl in E; discriminate). destruct (index_of s names) as [i|]; cbn [option_map].
    + split; [discriminate|]. intros H. exfalso. assert (X : ~ In s names) by tauto. apply IH in X. discriminate.
    + split; [|reflexivity]. intros _ [H|H]; [congruence|]. now apply (proj1 IH eq_refl).
Qed.
Lemma unknown_ignored hr fs es1 s d es2 : ~ In s (map fst fs) -> de hr (TStruct fs) (DMap (es1 ++ (KName s, d) :: es2)) = de hr (TStruct fs) (DMap (es1 ++ es2)).
Proof.
  intros U. cbn [de]. apply struct_unknown. cbn [field_key]. apply index_of_None. intros H. apply U. clear - H.
  induction fs as [|[nm t] fs IH]; [contradiction|]. cbn [map fld_name fst] in *. destruct H as [H|H]; [now left|right; auto].
Qed.

(** ** Flow specifications *)
Lemma flow_accepts hr ps d v : length ps = 13%nat ->
  (de hr (TFlow ps) d = SOk v <-> exists i nm t d' w, nth_error BFS_VARS i = Some nm /\ nth_error ps i = Some t /\ d = DMap [(KName nm, d')] /\ de hr t d' = SOk w /\ v = GVariant i (Some w)).
Proof.
  intros L. cbn [de]. split.
  - destruct d as [| | | | | |[|[k d] es]|]; cbn [de_flow]; try discriminate. intros H. apply sbind_ok in H as (i & K & H).
    destruct k as [s|]; cbn [flow_key] in K; [|discriminate]. destruct (index_of s BFS_VARS) as [j|] eqn:J; [|discriminate]. injection K as ->.
    rewrite nth_error_map in H. destruct (nth_error ps i) as [t|] eqn:E; cbn [option_map] in H; [|discriminate]. apply sbind_ok in H as (w & W & H).
    destruct es; [|discriminate]. injection H as <-. apply index_of_inv in J. exists i, s, t, d, w. auto.
  - intros (i & nm & t & d' & w & N1 & N2 & -> & D & ->). cbn [de_flow flow_key]. rewrite (index_of_nth BFS_VARS i nm); [|now apply nodupb_ok|exact N1].
    cbn [sbind]. rewrite nth_error_map, N2. cbn [option_map]. now rewrite D.
Qed.

(** ** Lengths of prefixes are not checked *)
Lemma v4_any_len hr ix a l d : a < 2 ^ 32 -> l < 256 -> presents ix (ser hr T_V4 (g_v4 (mkV4 a l))) d -> de hr T_V4 d = SOk (g_v4 (mkV4 a l)).
Proof. intros A L P. exact (roundtrip T_V4 sound_v4 ix hr (g_v4 (mkV4 a l)) d (fun _ => eq_refl) (proj1 rep_v4 (mkV4 a l) (conj A L)) P). Qed.
Lemma v6_any_len hr ix a l d : a < 2 ^ 128 -> l < 256 -> presents ix (ser hr T_V6 (g_v6 (mkV6 a l))) d -> de hr T_V6 d = SOk (g_v6 (mkV6 a l)).
Proof. intros A L P. exact (roundtrip T_V6 sound_v6 ix hr (g_v6 (mkV6 a l)) d (fun _ => eq_refl) (proj1 rep_v6 (mkV6 a l) (conj A L)) P). Qed.
Lemma v4_range_panics a l : 32 < l -> v4_range_first true (mkV4 a l) = Panic.
Proof.
  intros L. unfold v4_range_first, v4_norm_subnet, v4_hostsize, usub. cbn [v4_len v4_addr]. destruct (getn_u32_cases (octets4 a)) as [(x & -> & _)|(-> & _)]; [|reflexivity]. cbn [bind].
  destruct (N.leb_spec l 32) as [H|_]; [lia|]. reflexivity.
Qed.
Lemma bits_bytes_big oc l k : N.of_nat k * 8 < l -> l < 249 -> exists n, bits_bytes oc l = Ok n /\ (k < n)%nat.
Proof.
  intros L H. unfold bits_bytes, uadd. replace (l + 7 <? 2 ^ 8) with true by (symmetry; apply N.ltb_lt; change (2 ^ 8) with 256; lia). cbn [bind].
  eexists. split; [reflexivity|]. assert (N.of_nat k < (l + 7) / 8); [|lia]. apply N.lt_le_trans with (N.of_nat k + 1); [lia|]. apply N.div_le_lower_bound; lia.
Qed.
Lemma v4_enc_panics oc a l b : 32 < l -> l < 249 -> v4_to_bits oc (mkV4 a l) b = Panic.
Proof.
  intros L H. unfold v4_to_bits. cbn [v4_len v4_addr]. destruct (N.eqb_spec l 0) as [E|_]; [lia|]. destruct (bits_bytes_big oc l 4) as (n & -> & K); [lia|exact H|].
  unfold ebind, elift. cbn [bind]. unfold rslice. change (length (octets4 a)) with 4%nat. destruct (Nat.leb_spec n 4) as [X|_]; [lia|]. rewrite andb_false_r. reflexivity.
Qed.

(** ** Forms for the theorems *)
Lemma no_ix {P : Prop} : false = true -> P. Proof. discriminate. Qed.
Lemma attr_rt hr n a d : attr_any a -> (sets_deep a <= n)%nat -> attr_lists flow_list a = false ->
  presents false (ser hr (T_Attr n) (g_attr a)) d -> de hr (T_Attr n) d = SOk (g_attr a).
Proof. intros A L F P. rewrite (attr_read hr false n a d A L no_ix P). now rewrite F. Qed.
Lemma attr_rt_flow hr n a d : attr_any a -> (sets_deep a <= n)%nat -> attr_lists flow_list a = true ->
  presents false (ser hr (T_Attr n) (g_attr a)) d -> de hr (T_Attr n) d = SErr InvalidType.
Proof. intros A L F P. rewrite (attr_read hr false n a d A L no_ix P). now rewrite F. Qed.
Lemma addrs_rt hr a d : addrs_any a -> flow_list a = false -> presents false (ser hr T_Addrs (g_addrs a)) d -> de hr T_Addrs d = SOk (g_addrs a).
Proof. intros A F P. rewrite (addrs_read hr false a d A no_ix P). now rewrite F. Qed.
Lemma addrs_rt_flow hr a d : addrs_any a -> flow_list a = true -> presents false (ser hr T_Addrs (g_addrs a)) d -> de hr T_Addrs d = SErr InvalidType.
Proof. intros A F P. rewrite (addrs_read hr false a d A no_ix P). now rewrite F. Qed.
Lemma attr_num hr n a d : attr_any a -> (sets_deep a <= n)%nat -> attr_lists flow_list a = false -> attr_lists wrapped_list a = false ->
  presents true (ser hr (T_Attr n) (g_attr a)) d -> de hr (T_Attr n) d = SOk (g_attr a).
Proof. intros A L F W P. rewrite (attr_read hr true n a d A L (fun _ => W) P). now rewrite F. Qed.
Lemma attr_num_bad hr n a : attr_any a -> (sets_deep a <= n)%nat -> (attr_lists flow_list a || attr_lists wrapped_list a)%bool = true ->
  presents true (ser hr (T_Attr n) (g_attr a)) (num_doc (ser hr (T_Attr n) (g_attr a))) /\
  de hr (T_Attr n) (num_doc (ser hr (T_Attr n) (g_attr a))) = SErr InvalidType.
Proof. intros A L F. split; [apply num_presents|]. rewrite (attr_numbers hr n a A L). now rewrite F. Qed.
Lemma flow_reads hr t d v :
  de hr (T_Flow t) d = SOk v <->
  exists i nm d' w, nth_error BFS_VARS i = Some nm /\ d = DMap [(KName nm, d')] /\
    de hr (match i with O | 1%nat => t | 8%nat | 11%nat => TVec T_FsMask | _ => TVec T_FsVal end) d' = SOk w /\ v = GVariant i (Some w).
Proof.
  unfold T_Flow. rewrite flow_accepts by reflexivity. split.
  - intros (i & nm & u & d' & w & N1 & N2 & D & W & V). exists i, nm, d', w. repeat split; trivial.
    do 13 (destruct i as [|i]; [cbn in N2; injection N2 as <-; exact W|]). cbn in N1. destruct i; discriminate.
  - intros (i & nm & d' & w & N1 & D & W & V).
    do 13 (destruct i as [|i]; [eexists _, nm, _, d', w; repeat split; [exact N1|reflexivity|exact D|exact W|exact V]|]). cbn in N1. destruct i; discriminate.
Qed.
Lemma flow_fails {A} hr ix t (g : A -> gval) P f d : rep t g P -> sound_ty t -> flow_any P f ->
  presents ix (ser hr (T_Flow t) (g_flow g f)) d -> de hr (T_Flow t) d = SErr InvalidType.
Proof.
  intros R ST F Pr. exact (roundtrip (T_Flow t) (sound_flow t ST) ix hr (g_flow g f) d (fun _ => eq_refl) (proj1 (rep_flow t g P R) f F) Pr).
Qed.
Lemma flow_fails4 hr ix f d : flow_any v4_any f -> presents ix (ser hr (T_Flow T_V4) (g_flow g_v4 f)) d -> de hr (T_Flow T_V4) d = SErr InvalidType.
Proof. apply flow_fails; [apply rep_v4|apply sound_v4]. Qed.
Lemma flow_fails6 hr ix f d : flow_any fs6_any f -> presents ix (ser hr (T_Flow T_Fs6) (g_flow g_fs6 f)) d -> de hr (T_Flow T_Fs6) d = SErr InvalidType.
Proof. apply flow_fails; [apply rep_fs6|apply sound_fs6]. Qed.
Lemma flow_fails_vpn hr ix f d : flow_any (wrd_any v4_any) f -> presents ix (ser hr (T_Flow (TRd T_V4)) (g_flow (g_wrd g_v4) f)) d -> de hr (T_Flow (TRd T_V4)) d = SErr InvalidType.
Proof. apply flow_fails; [apply rep_wrd, rep_v4|apply sound_v4]. Qed.

Lemma rd_accepts hr t d v : de hr (TRd t) d = SOk v <->
  exists da db a b, de hr T_RD da = SOk a /\ de hr t db = SOk b /\ v = GPair a b /\
    (d = DSeq [da; db] \/ d = DMap [(KName (txt "rd"), da); (KName (txt "prefix"), db)] \/ d = DMap [(KName (txt "prefix"), db); (KName (txt "rd"), da)]).
Proof. apply pair_accepts. discriminate. Qed.
Lemma lab_accepts hr t d v : de hr (TLab t) d = SOk v <->
  exists da db a b, de hr T_Labels da = SOk a /\ de hr t db = SOk b /\ v = GPair a b /\
    (d = DSeq [da; db] \/ d = DMap [(KName (txt "labels"), da); (KName (txt "prefix"), db)] \/ d = DMap [(KName (txt "prefix"), db); (KName (txt "labels"), da)]).
Proof. apply pair_accepts. discriminate. Qed.
Lemma pid_accepts hr t d v : de hr (TPid t) d = SOk v <->
  exists da db a b, de hr (TUint 32) da = SOk a /\ de hr t db = SOk b /\ v = GPair a b /\
    (d = DSeq [da; db] \/ d = DMap [(KName (txt "pathid"), da); (KName (txt "nlri"), db)] \/ d = DMap [(KName (txt "nlri"), db); (KName (txt "pathid"), da)]).
Proof. apply pair_accepts. discriminate. Qed.
Lemma rd_missing hr t da db a b : de hr T_RD da = SOk a -> de hr t db = SOk b ->
  de hr (TRd t) (DMap []) = SErr (MissingField (txt "rd")) /\
  de hr (TRd t) (DMap [(KName (txt "prefix"), db)]) = SErr (MissingField (txt "rd")) /\
  de hr (TRd t) (DMap [(KName (txt "rd"), da)]) = SErr (MissingField (txt "prefix")).
Proof. intros A B. apply (pair_missing (txt "rd") (txt "prefix") WITHRD_FIELDS de_rd (de hr t) da db a b); [discriminate|exact A|exact B]. Qed.
Lemma lab_missing hr t da db a b : de hr T_Labels da = SOk a -> de hr t db = SOk b ->
  de hr (TLab t) (DMap []) = SErr (MissingField (txt "labels")) /\
  de hr (TLab t) (DMap [(KName (txt "prefix"), db)]) = SErr (MissingField (txt "labels")) /\
  de hr (TLab t) (DMap [(KName (txt "labels"), da)]) = SErr (MissingField (txt "prefix")).
Proof. intros A B. apply (pair_missing (txt "labels") (txt "prefix") LABELED_FIELDS (de hr T_Labels) (de hr t) da db a b); [discriminate|exact A|exact B]. Qed.
Lemma pid_missing hr t da db a b : de hr (TUint 32) da = SOk a -> de hr t db = SOk b ->
  de hr (TPid t) (DMap []) = SErr (MissingField (txt "rd")) /\
  de hr (TPid t) (DMap [(KName (txt "nlri"), db)]) = SErr (MissingField (txt "rd")) /\
  de hr (TPid t) (DMap [(KName (txt "pathid"), da)]) = SErr (MissingField (txt "prefix")).
Proof. intros A B. apply (pair_missing (txt "pathid") (txt "nlri") WITHRD_FIELDS (de_uint 32) (de hr t) da db a b); [discriminate|exact A|exact B]. Qed.
Lemma wrappers_unknown hr t es1 s d es2 v :
  (s <> txt "rd" -> s <> txt "prefix" -> de hr (TRd t) (DMap (es1 ++ (KName s, d) :: es2)) <> SOk v) /\
  (s <> txt "labels" -> s <> txt "prefix" -> de hr (TLab t) (DMap (es1 ++ (KName s, d) :: es2)) <> SOk v) /\
  (s <> txt "pathid" -> s <> txt "nlri" -> de hr (TPid t) (DMap (es1 ++ (KName s, d) :: es2)) <> SOk v).
Proof. repeat split; intros N1 N2; apply pair_unknown; congruence || discriminate. Qed.
Lemma wrappers_unknown_first hr t s d es :
  (s <> txt "rd" -> s <> txt "prefix" -> de hr (TRd t) (DMap ((KName s, d) :: es)) = SErr (UnknownField s)) /\
  (s <> txt "labels" -> s <> txt "prefix" -> de hr (TLab t) (DMap ((KName s, d) :: es)) = SErr (UnknownField s)) /\
  (s <> txt "pathid" -> s <> txt "nlri" -> de hr (TPid t) (DMap ((KName s, d) :: es)) = SErr (UnknownField s)).
Proof.
  repeat split; intros N1 N2; cbn [de de_pair pair_loop pair_key WITHRD_FIELDS LABELED_FIELDS WITHPATHID_FIELDS fst snd]; now rewrite !text_eqb_neq by assumption.
Qed.
