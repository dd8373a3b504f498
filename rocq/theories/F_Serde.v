From Coq Require Import Ascii String Permutation.
From Verif Require Import Base BaseFacts S_Attr S_Text F_Attr F_Text F_Text2 M_Util M_Prefix M_Nlri M_Addrs M_Attr M_Text M_Text2 M_Serde S_Serde.
Ltac Zify.zify_post_hook ::= idtac.

(** induction over types with their nested lists *)
Lemma ty_rect' (P : ty -> Prop) :
  P TBool -> (forall w, P (TUint w)) -> P TIp4 -> P TIp6 -> P TIp -> (forall n, P (TArr n)) ->
  (forall t, P t -> P (TVec t)) -> (forall t, P t -> P (TSet t)) -> (forall t, P t -> P (TOpt t)) ->
  (forall fs, Forall (fun f => P (snd f)) fs -> P (TStruct fs)) ->
  (forall vs, Forall (fun f => match snd f with Some t => P t | None => True end) vs -> P (TEnum vs)) ->
  (forall t, P t -> P (TRd t)) -> (forall t, P t -> P (TLab t)) -> (forall t, P t -> P (TPid t)) ->
  (forall ps, Forall P ps -> P (TFlow ps)) -> P TNet -> P TFuel -> forall t, P t.
Proof.
  intros Hb Hu H4 H6 Hi Ha Hv Hs Ho Hst He Hr Hl Hp Hf Hn Hx.
  fix IH 1. intros [|w| | | |n|t|t|t|fs|vs|t|t|t|ps| |];
    [exact Hb|apply Hu|exact H4|exact H6|exact Hi|apply Ha|apply Hv, IH|apply Hs, IH|apply Ho, IH| | |apply Hr, IH|apply Hl, IH|apply Hp, IH| |exact Hn|exact Hx].
  - apply Hst. induction fs as [|[nm t] fs IHf]; constructor; [apply IH|exact IHf].
  - apply He. induction vs as [|[nm [t|]] vs IHf]; constructor; try exact IHf; [apply IH|exact I].
  - apply Hf. induction ps as [|t ps IHf]; constructor; [apply IH|exact IHf].
Qed.

(** ** Keys *)
Lemma text_eqb_refl s : text_eqb s s = true.
Proof. now apply text_eqb_eq. Qed.
Lemma index_of_nth names : forall i s, NoDup names -> nth_error names i = Some s -> index_of s names = Some i.
Proof.
  induction names as [|n names IH]; intros [|i] s ND E; cbn [nth_error] in E; try discriminate; cbn [index_of].
  - injection E as ->. now rewrite text_eqb_refl.
  - inversion ND as [|? ? Hn Hd]; subst. destruct (text_eqb s n) eqn:Q.
    + apply text_eqb_eq in Q as ->. apply nth_error_In in E. contradiction.
    + now rewrite (IH i s Hd E).
Qed.
Lemma index_of_inv names : forall s i, index_of s names = Some i -> nth_error names i = Some s.
Proof.
  induction names as [|n names IH]; intros s i; cbn [index_of]; [discriminate|].
  destruct (text_eqb s n) eqn:Q.
  - intros E. injection E as <-. apply text_eqb_eq in Q as ->. reflexivity.
  - destruct (index_of s names) as [j|] eqn:J; cbn [option_map]; [|discriminate]. intros E. injection E as <-. cbn [nth_error]. now apply IH.
Qed.
Lemma field_key_lt names k i : field_key names k = Some i -> (i < length names)%nat.
Proof.
  destruct k as [s|j]; cbn [field_key].
  - intros E. apply index_of_inv in E. apply nth_error_Some. congruence.
  - destruct (Nat.ltb j (length names)) eqn:L; [|discriminate]. intros E. injection E as <-. now apply Nat.ltb_lt.
Qed.
Lemma variant_key_ok names i nm k : NoDup names -> nth_error names i = Some nm -> k = KName nm \/ k = KIndex i -> variant_key names k = SOk i.
Proof.
  intros ND E [->| ->]; unfold variant_key; cbn [field_key].
  - now rewrite (index_of_nth names i nm ND E).
  - assert (L : (i < length names)%nat) by (apply nth_error_Some; congruence). apply Nat.ltb_lt in L. now rewrite L.
Qed.
Lemma field_keys_ok ix names ks : NoDup names -> field_keys ix names ks ->
  length ks = length names /\ forall i k, nth_error ks i = Some k -> field_key names k = Some i.
Proof.
  intros ND [|_].
  - split; [apply map_length|]. intros i k E. rewrite nth_error_map in E. destruct (nth_error names i) as [s|] eqn:N1; [|discriminate].
    injection E as <-. cbn [field_key]. now apply index_of_nth.
  - split; [now rewrite map_length, seq_length|]. intros i k E. rewrite nth_error_map in E.
    destruct (nth_error (seq 0 (length names)) i) as [j|] eqn:N1; [|discriminate]. injection E as <-. cbn [field_key].
    assert (L : (i < length names)%nat) by (rewrite <- (seq_length (length names) 0); apply nth_error_Some; congruence).
    rewrite (nth_error_nth' (seq 0 (length names)) 0%nat), seq_nth in N1; [|exact L|now rewrite seq_length].
    injection N1 as <-. cbn [plus]. apply Nat.ltb_lt in L. now rewrite L.
Qed.

(** ** Structs *)
Lemma put_length l : forall i v, length (put l i v) = length l.
Proof. induction l as [|x l IH]; intros [|i] v; cbn [put length]; auto. Qed.
Lemma put_nth l : forall i v j, (i < length l)%nat -> nth j (put l i v) None = if Nat.eqb j i then Some v else nth j l None.
Proof.
  induction l as [|x l IH]; intros i v j L; [inversion L|]. destruct i as [|i], j as [|j]; cbn [put nth Nat.eqb]; auto.
  apply IH. cbn [length] in L. lia.
Qed.

(** the loop over the entries, when every entry is for a known field and no two are for the same *)
Lemma map_loop_run fs (R : nat -> sres gval) : forall es acc,
  length acc = length fs ->
  NoDup (map (fun e => field_key (map fld_name fs) (fst e)) es) ->
  (forall k d, In (k, d) es -> exists i f, field_key (map fld_name fs) k = Some i /\ nth_error fs i = Some f /\ fld_de f d = R i /\
     nth i acc None = None /\ ((exists v, R i = SOk v) \/ R i = SErr InvalidType)) ->
  ((exists k d i, In (k, d) es /\ field_key (map fld_name fs) k = Some i /\ R i = SErr InvalidType) /\ map_loop fs acc es = SErr InvalidType) \/
  (exists acc', map_loop fs acc es = SOk acc' /\ length acc' = length fs /\
     (forall k d, In (k, d) es -> exists i v, field_key (map fld_name fs) k = Some i /\ R i = SOk v) /\
     forall j, (forall k d, In (k, d) es -> field_key (map fld_name fs) k = Some j -> exists v, R j = SOk v /\ nth j acc' None = Some v) /\
               ((forall k d, In (k, d) es -> field_key (map fld_name fs) k <> Some j) -> nth j acc' None = nth j acc None)).
Proof.
  induction es as [|[k d] es IH]; intros acc Lacc ND H.
  - right. exists acc. cbn [map_loop]. repeat split; auto; intros; contradiction.
  - destruct (H k d (or_introl eq_refl)) as (i & f & Ki & Fi & Di & Ni & Ri).
    cbn [map fst] in ND. inversion ND as [|? ? Hn Hd]; subst.
    cbn [map_loop]. rewrite Ki, Fi, Ni, Di.
    destruct Ri as [(v & Rv)|Re].
    2:{ left. split; [|now rewrite Re]. exists k, d, i. repeat split; auto. now left. }
    rewrite Rv. cbn [sbind].
    assert (Li : (i < length acc)%nat).
    { rewrite Lacc. apply nth_error_Some. congruence. }
    destruct (IH (put acc i v)) as [((k' & d' & i' & I1 & I2 & I3) & E)|(acc' & E & L' & A & B)].
    + now rewrite put_length.
    + exact Hd.
    + intros k' d' I'. destruct (H k' d' (or_intror I')) as (i' & f' & K' & F' & D' & N' & R').
      exists i', f'. repeat split; auto. rewrite put_nth by exact Li. destruct (Nat.eqb i' i) eqn:Q; [|exact N'].
      apply Nat.eqb_eq in Q as ->. exfalso. apply Hn. rewrite Ki; rewrite <- K'. exact (in_map (fun e => field_key (map fld_name fs) (fst e)) es (k', d') I').
    + left. split; [|exact E]. exists k', d', i'. repeat split; auto. now right.
    + right. exists acc'. split; [exact E|]. split; [exact L'|]. split.
      * intros k' d' [I'|I']; [injection I' as <- <-; exists i, v; auto|now apply (A k' d')].
      * intros j. split.
        { intros k' d' [I'|I'] K'.
          - injection I' as <- <-. assert (j = i) by congruence. subst j. exists v. split; [exact Rv|].
            rewrite (proj2 (B i)); [rewrite put_nth, Nat.eqb_refl by exact Li; reflexivity|].
            intros k'' d'' I'' K''. apply Hn. rewrite Ki, <- K''. exact (in_map (fun e => field_key (map fld_name fs) (fst e)) es (k'', d'') I'').
          - now apply (proj1 (B j) k' d'). }
        { intros Hj. rewrite (proj2 (B j)) by (intros k' d' I'; apply (Hj k' d'); now right).
          rewrite put_nth by exact Li. destruct (Nat.eqb j i) eqn:Q; [|reflexivity]. apply Nat.eqb_eq in Q as ->.
          exfalso. exact (Hj k d (or_introl eq_refl) Ki). }
Qed.
Lemma finish_some fs : forall vs, length vs = length fs -> finish fs (map Some vs) = SOk vs.
Proof.
  induction fs as [|f fs IH]; intros [|v vs] L; cbn [length] in L; try discriminate; [reflexivity|].
  cbn [map finish sbind]. now rewrite IH by congruence.
Qed.
Lemma list_of_nth (acc : list (option gval)) : forall vs, length acc = length vs ->
  (forall j v, nth_error vs j = Some v -> nth j acc None = Some v) -> acc = map Some vs.
Proof.
  induction acc as [|a acc IH]; intros [|v vs] L H; cbn [length] in L; try discriminate; [reflexivity|].
  cbn [map]. f_equal; [exact (H 0%nat v eq_refl)|]. apply IH; [congruence|]. intros j w E. exact (H (S j) w E).
Qed.

(** a field together with the value it reads, and whether it fails instead *)
Definition rfld : Type := fld * gval * bool.
Definition rf_f (x : rfld) : fld := fst (fst x).
Definition rf_v (x : rfld) : gval := snd (fst x).
Definition rf_b (x : rfld) : bool := snd x.
Definition reads (x : rfld) (d : doc) : Prop := fld_de (rf_f x) d = if rf_b x then SErr InvalidType else SOk (rf_v x).
Lemma seq_loop_run : forall xs ds i, Forall2 reads xs ds ->
  seq_loop i (map fld_de (map rf_f xs)) ds = if existsb rf_b xs then SErr InvalidType else SOk (map rf_v xs).
Proof.
  induction xs as [|x xs IH]; intros ds i H; inversion H as [|? d ? ds' H1 H2]; subst; cbn [map seq_loop existsb]; [reflexivity|].
  unfold reads in H1. rewrite H1. destruct (rf_b x); [reflexivity|]. cbn [sbind orb]. rewrite (IH ds' (S i) H2). now destruct (existsb rf_b xs).
Qed.
Lemma Forall2_nth {A B} (R : A -> B -> Prop) l m : Forall2 R l m -> forall i x y, nth_error l i = Some x -> nth_error m i = Some y -> R x y.
Proof. induction 1 as [|a b l m H _ IH]; intros [|i] x y E1 E2; cbn in *; try discriminate; [congruence|eauto]. Qed.
Lemma Forall2_len {A B} (R : A -> B -> Prop) l m : Forall2 R l m -> length l = length m.
Proof. induction 1; cbn; congruence. Qed.
Lemma In_combine_nth {A B} (l : list A) : forall (m : list B) a b, In (a, b) (combine l m) -> exists i, nth_error l i = Some a /\ nth_error m i = Some b.
Proof.
  induction l as [|x l IH]; intros [|y m] a b I; cbn [combine In] in I; try contradiction. destruct I as [E|I].
  - injection E as -> ->. now exists 0%nat.
  - destruct (IH m a b I) as (i & E1 & E2). now exists (S i).
Qed.
Lemma nth_combine_In {A B} (l : list A) : forall (m : list B) i a b, nth_error l i = Some a -> nth_error m i = Some b -> In (a, b) (combine l m).
Proof.
  induction l as [|x l IH]; intros [|y m] [|i] a b E1 E2; cbn in *; try discriminate; [left; congruence|right; eauto].
Qed.
Lemma map_some_seq {A} (f : A -> option nat) l : (forall i k, nth_error l i = Some k -> f k = Some i) -> map f l = map Some (seq 0 (length l)).
Proof.
  intros H. apply nth_ext with (d := None) (d' := None); [now rewrite !map_length, seq_length|].
  intros i Hi. rewrite map_length in Hi. destruct (nth_error l i) as [k|] eqn:E.
  - rewrite (nth_error_nth (map f l) i None (x := f k)) by now rewrite nth_error_map, E.
    rewrite (H i k E). symmetry. apply nth_error_nth. rewrite nth_error_map.
    rewrite (nth_error_nth' (seq 0 (length l)) 0%nat) by now rewrite seq_length. now rewrite seq_nth by exact Hi.
  - apply nth_error_None in E. lia.
Qed.
Definition struct_answer (ix : bool) (names : list text) (ds : list doc) (d : doc) : Prop :=
  d = DSeq ds \/ exists ks es, d = DMap es /\ field_keys ix names ks /\ Permutation es (combine ks ds).
Lemma de_struct_run ix xs ds d : NoDup (map fld_name (map rf_f xs)) -> Forall2 reads xs ds ->
  struct_answer ix (map fld_name (map rf_f xs)) ds d ->
  de_struct (map rf_f xs) d = if existsb rf_b xs then SErr InvalidType else SOk (GList (map rf_v xs)).
Proof.
  intros ND H [->|(ks & es & -> & FK & P)]; cbn [de_struct].
  - rewrite (seq_loop_run xs ds 0 H). now destruct (existsb rf_b xs).
  - destruct (field_keys_ok ix _ ks ND FK) as (LK & K).
    pose proof (Forall2_len _ _ _ H) as LD. rewrite !map_length in LK.
    set (R := fun i => match nth_error xs i with Some x => if rf_b x then SErr InvalidType else SOk (rf_v x) | None => SErr InvalidType end).
    assert (IN : forall k e, In (k, e) es -> exists i x, field_key (map fld_name (map rf_f xs)) k = Some i /\ nth_error xs i = Some x /\ reads x e).
    { intros k e I. apply (Permutation_in _ P) in I. apply In_combine_nth in I as (i & E1 & E2).
      destruct (nth_error xs i) as [x|] eqn:EX.
      - exists i, x. split; [now apply K|split; [exact EX|]]. exact (Forall2_nth _ _ _ H i x e EX E2).
      - apply nth_error_None in EX. assert (i < length ds)%nat by (apply nth_error_Some; congruence). lia. }
    assert (OUT : forall i x, nth_error xs i = Some x -> exists k e, In (k, e) es /\ field_key (map fld_name (map rf_f xs)) k = Some i).
    { intros i x EX. assert (Li : (i < length xs)%nat) by (apply nth_error_Some; congruence).
      destruct (nth_error ks i) as [k|] eqn:EK; [|apply nth_error_None in EK; lia].
      destruct (nth_error ds i) as [e|] eqn:ED; [|apply nth_error_None in ED; lia].
      exists k, e. split; [|now apply K]. apply (Permutation_in _ (Permutation_sym P)). now apply (nth_combine_In ks ds i). }
    destruct (map_loop_run (map rf_f xs) R es (map (fun _ => None) (map rf_f xs))) as [((k & e & i & I1 & I2 & I3) & E)|(acc & E & LA & A & B)].
    + now rewrite map_length.
    + apply Permutation_NoDup with (l := map (fun e => field_key (map fld_name (map rf_f xs)) (fst e)) (combine ks ds)).
      * apply Permutation_map. now apply Permutation_sym.
      * rewrite <- (map_map fst). replace (map fst (combine ks ds)) with ks.
        { rewrite (map_some_seq _ ks K). apply FinFun.Injective_map_NoDup; [intros ? ? Q; congruence|apply seq_NoDup]. }
        symmetry. clear - LK LD. assert (L : length ks = length ds) by congruence. clear LK LD. revert ds L.
        induction ks as [|k ks IH]; intros [|e ds] L; cbn in *; try discriminate; [reflexivity|]. now rewrite IH by congruence.
    + intros k e I. destruct (IN k e I) as (i & x & K1 & X1 & R1). exists i, (rf_f x). repeat split.
      * exact K1.
      * rewrite nth_error_map, X1. reflexivity.
      * unfold R. rewrite X1. exact R1.
      * clear. generalize (map rf_f xs). intros l. revert i. induction l as [|? ? IH]; intros [|i]; cbn; auto.
      * unfold R. rewrite X1. destruct (rf_b x); [right; reflexivity|left; eauto].
    + rewrite E. cbn [sbind]. unfold R in I3. destruct (IN k e I1) as (i' & x & K1 & X1 & R1).
      assert (i' = i) by congruence. subst i'. rewrite X1 in I3. destruct (rf_b x) eqn:BX; [|discriminate].
      assert (EX : existsb rf_b xs = true) by (apply existsb_exists; exists x; split; [now apply nth_error_In with i|exact BX]). now rewrite EX.
    + rewrite E. cbn [sbind].
      assert (EX : existsb rf_b xs = false).
      { destruct (existsb rf_b xs) eqn:Q; [|reflexivity]. apply existsb_exists in Q as (x & I & BX). apply In_nth_error in I as (i & EX).
        destruct (OUT i x EX) as (k & e & I1 & K1). destruct (A k e I1) as (i' & v & K2 & R2). assert (i' = i) by congruence. subst i'.
        unfold R in R2. rewrite EX, BX in R2. discriminate. }
      rewrite EX.
      rewrite (list_of_nth acc (map rf_v xs)), finish_some; [reflexivity|now rewrite !map_length|rewrite LA; now rewrite !map_length|].
      intros j v EV. rewrite nth_error_map in EV. destruct (nth_error xs j) as [x|] eqn:EJ; [|discriminate]. injection EV as <-.
      destruct (OUT j x EJ) as (k & e & I1 & K1). destruct (proj1 (B j) k e I1 K1) as (v & R1 & N1). unfold R in R1. rewrite EJ in R1.
      destruct (rf_b x); [discriminate|]. congruence.
Qed.
Lemma presents_struct ix fs d : presents ix (VStruct fs) d -> exists ds, Forall2 (presents ix) (map snd fs) ds /\ struct_answer ix (map fst fs) ds d.
Proof.
  intros H. inversion H as [| | | | | | |? ds F|? ks ds es K F P| |]; subst; exists ds; (split; [exact F|]); [now left|right; exists ks, es; auto].
Qed.

(** ** Hand-written pairs *)
Definition rd_result (b : bool) (v : gval) : sres gval := if b then SErr InvalidType else SOk v.
Lemma de_pair_run names miss fa fb d da db a b (ba bb : bool) :
  text_eqb (fst names) (snd names) = false -> fa da = rd_result ba a -> fb db = rd_result bb b ->
  d = DSeq [da; db] \/ (exists es, d = DMap es /\ Permutation es [(KName (fst names), da); (KName (snd names), db)]) ->
  de_pair names miss fa fb d = rd_result (ba || bb) (GPair a b).
Proof.
  intros NE A B [->|(es & -> & P)]; cbn [de_pair].
  - rewrite A. destruct ba; [reflexivity|]. cbn [rd_result sbind orb]. rewrite B. now destruct bb.
  - assert (NE' : text_eqb (snd names) (fst names) = false).
    { destruct (text_eqb (snd names) (fst names)) eqn:Q; [|reflexivity]. apply text_eqb_eq in Q. rewrite Q, text_eqb_refl in NE. discriminate. }
    apply Permutation_sym in P. apply Permutation_length_2_inv in P as [->| ->]; cbn [pair_loop pair_key];
      rewrite ?text_eqb_refl, ?NE, ?NE'; cbn [sbind].
    + rewrite A. destruct ba; [reflexivity|]. cbn [rd_result sbind orb]. rewrite B. now destruct bb.
    + rewrite B. destruct bb; [now rewrite orb_true_r|]. cbn [rd_result sbind]. rewrite A. now destruct ba.
Qed.

(** ** Scalars *)
Lemma presents_nums ix l ds : Forall2 (presents ix) (map VNum l) ds -> ds = map DNum l.
Proof.
  revert ds. induction l as [|x l IH]; intros ds H; inversion H as [|? d ? ds' H1 H2]; subst; [reflexivity|].
  inversion H1; subst. cbn [map]. now rewrite (IH ds' H2).
Qed.
Lemma de_uint_ok w n : n < 2 ^ w -> de_uint w (DNum n) = SOk (GNum n).
Proof. intros H. cbn [de_uint]. apply N.ltb_lt in H. now rewrite H. Qed.
Lemma octets_loop l : bytes_ok l -> forall i, seq_loop i (repeat (de_uint 8) (length l)) (map DNum l) = SOk (map GNum l).
Proof.
  induction 1 as [|x l Hx _ IH]; intros i; [reflexivity|]. cbn [length repeat map seq_loop].
  rewrite de_uint_ok by exact Hx. cbn [sbind]. now rewrite IH.
Qed.
Lemma gnum_map l : map gnum (map GNum l) = l.
Proof. rewrite map_map. cbn [gnum]. apply map_id. Qed.
Lemma de_octets_ok ix l d : bytes_ok l -> presents ix (ser_octets l) d -> de_octets (length l) d = SOk (map GNum l).
Proof. intros B H. inversion H as [| | | | | |? ds F| | | |]; subst. apply presents_nums in F as ->. cbn [de_octets]. now apply octets_loop. Qed.
Lemma de_ip4_ok ix hr a d : a < 2 ^ 32 -> presents ix (ser_ip4 hr a) d -> de_ip4 hr d = SOk a.
Proof.
  intros L H. unfold ser_ip4 in H. destruct hr; cbn [de_ip4].
  - inversion H; subst. now rewrite ipv4_rt.
  - apply de_octets_ok in H; [|apply be_bytes_ok]. unfold octets4 in H. rewrite length_be_bytes in H. unfold de_ip4. rewrite H. cbn [sbind].
    unfold octets_val. now rewrite gnum_map, be_val_be_bytes.
Qed.
Lemma de_ip6_ok ix hr a d : a < 2 ^ 128 -> presents ix (ser_ip6 hr a) d -> de_ip6 hr d = SOk a.
Proof.
  intros L H. unfold ser_ip6 in H. destruct hr; cbn [de_ip6].
  - inversion H; subst. now rewrite ipv6_rt.
  - apply de_octets_ok in H; [|apply be_bytes_ok]. unfold octets16 in H. rewrite length_be_bytes in H. unfold de_ip6. rewrite H. cbn [sbind].
    unfold octets_val. now rewrite gnum_map, be_val_be_bytes.
Qed.
Lemma v6_not_v4 a : parse_ipv4 (fmt_ipv6 a) = Err EOther.
Proof. destruct (fmt_ipv6_shape a) as (h & r & -> & F & Q). now apply hex_not_v4. Qed.
Lemma de_ip_ok ix hr a d : ip_any a -> presents ix (ser_ip hr a) d -> de_ip hr d = SOk (GIp a).
Proof.
  intros L H. unfold ser_ip in H. destruct hr; unfold de_ip.
  - inversion H; subst. destruct a as [a|a]; cbn [ip_fmt ip_any] in *.
    + now rewrite ipv4_rt.
    + now rewrite v6_not_v4, ipv6_rt.
  - destruct a as [a|a]; cbn [ip_any] in L; inversion H as [| | | | | | | | | |i nm k v d' K P]; subst.
    + rewrite (variant_key_ok [txt "V4"; txt "V6"] 0 (txt "V4") k); [|constructor; [intros [Q|[]]; discriminate|constructor; [intros []|constructor]]|reflexivity|exact K].
      cbn [sbind]. now rewrite (de_ip4_ok ix false a d' L P).
    + rewrite (variant_key_ok [txt "V4"; txt "V6"] 1 (txt "V6") k); [|constructor; [intros [Q|[]]; discriminate|constructor; [intros []|constructor]]|reflexivity|exact K].
      cbn [sbind]. now rewrite (de_ip6_ok ix false a d' L P).
Qed.
Lemma de_list_run (f : doc -> sres gval) (P : gval -> bool) : forall l ds, Forall2 (fun v d => f d = rd_result (P v) v) l ds ->
  de_list f ds = if existsb P l then SErr InvalidType else SOk l.
Proof.
  induction 1 as [|v d l ds H _ IH]; [reflexivity|]. cbn [de_list existsb]. rewrite H. destruct (P v); [reflexivity|]. cbn [rd_result sbind orb].
  rewrite IH. now destruct (existsb P l).
Qed.

(** ** Order *)
Lemma gcmp_opp : forall a b, gcmp b a = CompOpp (gcmp a b).
Proof.
  fix IH 1. intros [x|x|x|x|x|l|x x'|  |x|x x'|x] [y|y|y|y|y|m|y y'|  |y|y y'|y]; try reflexivity.
  - apply N.compare_antisym.
  - cbn [gcmp]. revert m. induction l as [|x l IHl]; intros [|y m]; try reflexivity.
    rewrite (IH x y), IHl. destruct (gcmp x y); reflexivity.
Qed.
Lemma ginsert_last x l : Forall (fun y => gcmp y x = Lt) l -> bset_insert gcmp x l = l ++ [x].
Proof. induction 1 as [|y l H _ IH]; [reflexivity|]. cbn [bset_insert app]. now rewrite (gcmp_opp y x), H, IH. Qed.
Lemma gset_ascending l : ascending gcmp l -> bset_of gcmp l = l.
Proof.
  unfold bset_of. assert (G : forall v acc, ascending gcmp (acc ++ v) -> fold_left (fun s x => bset_insert gcmp x s) v acc = acc ++ v).
  { induction v as [|x v IH]; intros acc H; cbn [fold_left]; [now rewrite app_nil_r|].
    apply ascending_app in H as H'. destruct H' as (_ & _ & H'). rewrite ginsert_last.
    - rewrite IH; rewrite <- app_assoc; [reflexivity|exact H].
    - eapply Forall_impl; [|exact H']. intros y Hy. now inversion Hy. }
  intros H. now rewrite (G l []).
Qed.

(** ** The round trip *)
Definition ser_fs hr := fix go (fs : list (text * ty)) (l : list gval) {struct fs} : list (text * sval) :=
  match fs, l with
  | (nm, t) :: fs', v :: l' => (nm, ser hr t v) :: go fs' l'
  | _, _ => []
  end.
Definition typed_fs := fix go (fs : list (text * ty)) (l : list gval) {struct fs} : Prop :=
  match fs, l with
  | [], [] => True
  | (_, t) :: fs', v :: l' => typed t v /\ go fs' l'
  | _, _ => False
  end.
Definition flow_fs := fix go (fs : list (text * ty)) (l : list gval) {struct fs} : bool :=
  match fs, l with
  | (_, t) :: fs', v :: l' => flow_in t v || go fs' l'
  | _, _ => false
  end.
Definition wrapped_fs := fix go (fs : list (text * ty)) (l : list gval) {struct fs} : bool :=
  match fs, l with
  | (_, t) :: fs', v :: l' => wrapped_in t v || go fs' l'
  | _, _ => false
  end.
Definition sound_fs := fix go (fs : list (text * ty)) := match fs with [] => True | (_, t) :: fs' => sound_ty t /\ go fs' end.
Definition rfs hr := fix go (fs : list (text * ty)) (l : list gval) {struct fs} : list rfld :=
  match fs, l with
  | (nm, t) :: fs', v :: l' => (nm, de hr t, dflt t, v, flow_in t v) :: go fs' l'
  | _, _ => []
  end.
Lemma rfs_fields hr fs : forall l, typed_fs fs l ->
  map rf_f (rfs hr fs l) = map (fun f => match f with (nm, t) => (nm, de hr t, dflt t) end) fs /\ map rf_v (rfs hr fs l) = l /\
  existsb rf_b (rfs hr fs l) = flow_fs fs l /\ map fst (ser_fs hr fs l) = map fst fs /\
  map fld_name (map rf_f (rfs hr fs l)) = map fst fs.
Proof.
  induction fs as [|[nm t] fs IH]; intros [|v l] T; cbn [typed_fs] in T; try contradiction; [repeat split|].
  destruct T as [_ T]. destruct (IH l T) as (E1 & E2 & E3 & E4 & E5). cbn [rfs map existsb flow_fs ser_fs rf_f rf_v rf_b fst snd fld_name].
  rewrite E1, E2, E3, E4. repeat split. f_equal. rewrite <- E5, E1. reflexivity.
Qed.
Definition rt_ok (t : ty) : Prop := sound_ty t -> forall ix hr v d, (ix = true -> wrapped_in t v = false) -> typed t v -> presents ix (ser hr t v) d ->
  de hr t d = rd_result (flow_in t v) v.
Lemma rfs_reads ix hr fs : Forall (fun f => rt_ok (snd f)) fs -> sound_fs fs -> forall l ds,
  (ix = true -> wrapped_fs fs l = false) -> typed_fs fs l ->
  Forall2 (presents ix) (map snd (ser_fs hr fs l)) ds -> Forall2 reads (rfs hr fs l) ds.
Proof.
  induction 1 as [|[nm t] fs H _ IH]; intros Sd [|v l] ds HW T F; cbn [typed_fs] in T; try contradiction; cbn [ser_fs map] in F;
    inversion F as [|? d ? ds' F1 F2]; subst; cbn [rfs]; constructor.
  - cbn [snd] in *. unfold reads. cbn [rf_f rf_v rf_b fld_de fst snd]. cbn [sound_fs] in Sd.
    apply (H (proj1 Sd) ix hr v d); [|apply T|exact F1]. intros I. specialize (HW I). cbn [wrapped_fs] in HW. now apply orb_false_iff in HW.
  - apply IH; [apply Sd| |apply T|exact F2]. intros I. specialize (HW I). cbn [wrapped_fs] in HW. now apply orb_false_iff in HW.
Qed.

Definition ser_vs hr (i : nat) (p : option gval) := fix go (vs : list (text * option ty)) (k : nat) {struct vs} : sval :=
  match vs, k with
  | (nm, Some t) :: _, O => match p with Some v => VVariant i nm (Some (ser hr t v)) | None => VNone end
  | (nm, None) :: _, O => VVariant i nm None
  | _ :: vs', S k' => go vs' k'
  | [], _ => VNone
  end.
Definition typed_vs (p : option gval) := fix go (vs : list (text * option ty)) (k : nat) {struct vs} : Prop :=
  match vs, k with
  | (_, Some t) :: _, O => match p with Some v => typed t v | None => False end
  | (_, None) :: _, O => p = None
  | _ :: vs', S k' => go vs' k'
  | [], _ => False
  end.
Definition flow_vs (v : gval) := fix go (vs : list (text * option ty)) (k : nat) {struct vs} : bool :=
  match vs, k with
  | (_, Some t) :: _, O => flow_in t v
  | _ :: vs', S k' => go vs' k'
  | _, _ => false
  end.
Definition wrapped_vs (v : gval) := fix go (vs : list (text * option ty)) (k : nat) {struct vs} : bool :=
  match vs, k with
  | (_, Some t) :: _, O => wrapped_in t v
  | _ :: vs', S k' => go vs' k'
  | _, _ => false
  end.
Definition sound_vs := fix go (vs : list (text * option ty)) := match vs with [] => True | (_, Some t) :: vs' => sound_ty t /\ go vs' | (_, None) :: vs' => go vs' end.
Lemma vs_case hr i p : forall vs k, typed_vs p vs k ->
  exists nm ot, nth_error vs k = Some (nm, ot) /\
    match ot, p with
    | Some t, Some v => typed t v /\ ser_vs hr i p vs k = VVariant i nm (Some (ser hr t v)) /\ flow_vs v vs k = flow_in t v /\ wrapped_vs v vs k = wrapped_in t v
    | None, None => ser_vs hr i p vs k = VVariant i nm None
    | _, _ => False
    end.
Proof.
  induction vs as [|[nm [t|]] vs IH]; intros [|k] T; cbn [typed_vs] in T; try contradiction.
  - exists nm, (Some t). destruct p as [v|]; [|contradiction]. repeat split; auto.
  - destruct (IH k T) as (nm' & ot & E & H). exists nm', ot. split; [exact E|exact H].
  - subst p. exists nm, None. repeat split.
  - destruct (IH k T) as (nm' & ot & E & H). exists nm', ot. split; [exact E|exact H].
Qed.
Lemma sound_vs_nth vs : forall k nm t, sound_vs vs -> nth_error vs k = Some (nm, Some t) -> sound_ty t.
Proof.
  induction vs as [|[nm [t|]] vs IH]; intros [|k] nm' t' Sd E; cbn in E; try discriminate; cbn [sound_vs] in Sd.
  - injection E as -> ->. apply Sd.
  - exact (IH k nm' t' (proj2 Sd) E).
  - exact (IH k nm' t' Sd E).
Qed.
Lemma pair_answer ix a b va vb d : presents ix (VStruct [(a, va); (b, vb)]) d -> ix = false ->
  exists da db, presents ix va da /\ presents ix vb db /\
    (d = DSeq [da; db] \/ exists es, d = DMap es /\ Permutation es [(KName a, da); (KName b, db)]).
Proof.
  intros H E. apply presents_struct in H as (ds & F & A). cbn [map snd fst] in *.
  inversion F as [|? da ? ds1 F1 F2]; subst. inversion F2 as [|? db ? ds2 F3 F4]; subst. inversion F4; subst.
  exists da, db. split; [exact F1|split; [exact F3|]]. destruct A as [->|(ks & es & -> & K & P)]; [now left|right].
  exists es. split; [reflexivity|]. inversion K as [K1|E' K1]; [subst; exact P|discriminate].
Qed.
Lemma presents_list ix hr t l ds : rt_ok t -> sound_ty t -> (ix = true -> existsb (wrapped_in t) l = false) -> Forall (typed t) l ->
  Forall2 (presents ix) (map (ser hr t) l) ds -> Forall2 (fun v d => de hr t d = rd_result (flow_in t v) v) l ds.
Proof.
  intros R Sd HW T. revert ds. induction T as [|v l Tv _ IH]; intros ds F; inversion F as [|? d ? ds' F1 F2]; subst; constructor.
  - apply (R Sd ix hr v d); auto. intros E. specialize (HW E). cbn [existsb] in HW. now apply orb_false_iff in HW.
  - apply IH; auto. intros E. specialize (HW E). cbn [existsb] in HW. now apply orb_false_iff in HW.
Qed.
Lemma num_belows b l : Forall (num_below b) l -> exists ns, l = map GNum ns /\ Forall (fun n => n < b) ns.
Proof.
  induction 1 as [|x l (n & -> & Hn) _ (ns & -> & F)]; [now exists []|]. exists (n :: ns). split; [reflexivity|now constructor].
Qed.
Lemma de_labels_ok ix ns d : Forall (fun n => n < 2 ^ 32) ns -> presents ix (ser_labels (GList (map GNum ns))) d ->
  de_seq GList (de_uint 32) d = SOk (GList (map GNum ns)).
Proof.
  intros B H. cbn [ser_labels] in H. rewrite map_map in H. cbn [gnum] in H. inversion H as [| | | | |? ds F| | | | |]; subst.
  apply presents_nums in F as ->. cbn [de_seq]. rewrite (de_list_run (de_uint 32) (fun _ => false) (map GNum ns)).
  - replace (existsb (fun _ : gval => false) (map GNum ns)) with false; [reflexivity|]. clear. induction ns; auto.
  - clear - B. induction B as [|n ns Hn _ IH]; constructor; auto. now rewrite de_uint_ok.
Qed.
Lemma de_rd_ok ix h l d : h < 2 ^ 32 -> l < 2 ^ 32 -> presents ix (ser_rd (GList [GNum h; GNum l])) d ->
  de_rd d = SOk (GList [GNum h; GNum l]).
Proof.
  intros Hh Hl H. cbn [ser_rd gnum] in H. apply presents_struct in H as (ds & F & A). cbn [map snd fst] in *.
  apply (presents_nums ix [h; l]) in F as ->.
  refine (de_struct_run ix [(txt "rdh", de_uint 32, None, GNum h, false); (txt "rdl", de_uint 32, None, GNum l, false)] _ d _ _ A).
  - constructor; [intros [Q|[]]; discriminate|constructor; [intros []|constructor]].
  - constructor; [|constructor; [|constructor]]; unfold reads; cbn [rf_f rf_v rf_b fld_de fst snd]; now rewrite de_uint_ok.
Qed.
Lemma existsb_false_fun {A} (l : list A) : existsb (fun _ => false) l = false.
Proof. induction l; auto. Qed.
Lemma roundtrip t : rt_ok t.
Proof.
  induction t as [|w| | | |n|t IH|t IH|t IH|fs IH|vs IH|t IH|t IH|t IH|ps IH| |] using ty_rect'; intros Sd ix hr v d HW T P;
    try (destruct v; cbn [typed] in T; contradiction).
  - destruct v; cbn [typed] in T; try contradiction. cbn [ser] in P. inversion P; subst. reflexivity.
  - destruct v; cbn [typed] in T; try contradiction. cbn [ser] in P. inversion P; subst. now apply de_uint_ok.
  - destruct v; cbn [typed] in T; try contradiction. cbn [ser] in P. cbn [de flow_in rd_result]. now rewrite (de_ip4_ok ix hr a d T P).
  - destruct v; cbn [typed] in T; try contradiction. cbn [ser] in P. cbn [de flow_in rd_result]. now rewrite (de_ip6_ok ix hr a d T P).
  - destruct v; cbn [typed] in T; try contradiction. cbn [ser] in P. cbn [de flow_in rd_result]. now apply (de_ip_ok ix hr a d).
  - destruct v; cbn [typed] in T; try contradiction. destruct T as [L F]. apply num_belows in F as (ns & -> & F).
    cbn [ser] in P. rewrite map_map in P. cbn [gnum] in P. rewrite map_length in L. subst n. cbn [de flow_in rd_result].
    now rewrite (de_octets_ok ix ns d F P).
  - destruct v; cbn [typed] in T; try contradiction. cbn [ser] in P. inversion P as [| | | | |? ds F| | | | |]; subst.
    cbn [de de_seq flow_in]. rewrite (de_list_run (de hr t) (flow_in t) l ds); [now destruct (existsb (flow_in t) l)|].
    now apply (presents_list ix).
  - destruct v; cbn [typed] in T; try contradiction. destruct T as [T Asc]. cbn [ser] in P. inversion P as [| | | | |? ds F| | | | |]; subst.
    cbn [de de_seq flow_in].
    assert (Sd' : sound_ty t).
    { destruct Sd as [(w & ->)|(fs & -> & ND & F')]; [exact I|]. split; [exact ND|]. clear - F'.
      induction F' as [|[nm t] fs (w & E) _ IH]; [exact I|]. cbn [snd] in E. subst t. split; [exact I|exact IH]. }
    rewrite (de_list_run (de hr t) (flow_in t) l ds) by now apply (presents_list ix).
    destruct (existsb (flow_in t) l); [reflexivity|]. cbn [sbind rd_result]. now rewrite gset_ascending.
  - destruct v; cbn [typed] in T; try contradiction; cbn [ser] in P; inversion P as [| | | |? d' P'| | | | | |]; subst; [reflexivity|].
    cbn [de flow_in]. rewrite (IH Sd ix hr v d' HW T P'). now destruct (flow_in t v).
  - destruct v; cbn [typed] in T; try contradiction. change (typed_fs fs l) in T. change (presents ix (VStruct (ser_fs hr fs l)) d) in P.
    apply presents_struct in P as (ds & F & A). destruct Sd as [ND Sd]. change (sound_fs fs) in Sd.
    destruct (rfs_fields hr fs l T) as (E1 & E2 & E3 & E4 & E5). cbn [de]. rewrite <- E1.
    rewrite (de_struct_run ix (rfs hr fs l) ds d).
    + rewrite E2, E3. change (flow_in (TStruct fs) (GList l)) with (flow_fs fs l). now destruct (flow_fs fs l).
    + now rewrite E5.
    + apply (rfs_reads ix); auto.
    + rewrite E5, <- E4. exact A.
  - destruct v; cbn [typed] in T; try contradiction. change (typed_vs p vs i) in T. change (presents ix (ser_vs hr i p vs i) d) in P.
    destruct (vs_case hr i p vs i T) as (nm & ot & E & H). destruct Sd as [ND Sd]. change (sound_vs vs) in Sd.
    cbn [de]. set (g := fun v0 : text * option ty => match v0 with (nm0, Some t) => (nm0, Some (de hr t)) | (nm0, None) => (nm0, None) end).
    assert (EN : map fst (map g vs) = map fst vs) by (rewrite map_map; apply map_ext; intros [? [?|]]; reflexivity).
    assert (EG : nth_error (map g vs) i = Some (g (nm, ot))) by (rewrite nth_error_map, E; reflexivity).
    assert (EF : nth_error (map fst vs) i = Some nm) by (rewrite nth_error_map, E; reflexivity).
    destruct ot as [t|], p as [v|]; try contradiction.
    + destruct H as (Tv & ES & FL & WR). rewrite ES in P. inversion P as [| | | | | | | | | |? ? k ? d' K P']; subst.
      cbn [de_enum]. rewrite EN, (variant_key_ok _ i nm k ND EF K). cbn [sbind]. rewrite EG. cbn [g].
      assert (IHt : rt_ok t).
      { rewrite Forall_forall in IH. apply nth_error_In in E. exact (IH _ E). }
      rewrite (IHt (sound_vs_nth vs i nm t Sd E) ix hr v d').
      * change (flow_in (TEnum vs) (GVariant i (Some v))) with (flow_vs v vs i). rewrite FL. now destruct (flow_in t v).
      * intros I0. specialize (HW I0). change (wrapped_vs v vs i = false) in HW. congruence.
      * exact Tv.
      * exact P'.
    + rewrite H in P. inversion P as [| | | | | | | | |? ? k K|]; subst.
      cbn [de_enum]. rewrite EN, (variant_key_ok _ i nm k ND EF K). cbn [sbind]. rewrite EG. reflexivity.
  - destruct v; cbn [typed] in T; try contradiction. destruct T as ((h & l & -> & Hh & Hl) & T).
    assert (X : ix = false) by (destruct ix; [specialize (HW eq_refl); discriminate|reflexivity]).
    cbn [ser] in P. apply pair_answer in P as (da & db & P1 & P2 & A); [|exact X]. cbn [de flow_in].
    rewrite (de_pair_run WITHRD_FIELDS WITHRD_FIELDS de_rd (de hr t) d da db (GList [GNum h; GNum l]) v2 false (flow_in t v2)); auto.
    + now apply (de_rd_ok ix).
    + apply (IH Sd ix hr v2 db); auto. congruence.
  - destruct v; cbn [typed] in T; try contradiction. destruct T as ((l & -> & F) & T). apply num_belows in F as (ns & -> & F).
    assert (X : ix = false) by (destruct ix; [specialize (HW eq_refl); discriminate|reflexivity]).
    cbn [ser] in P. apply pair_answer in P as (da & db & P1 & P2 & A); [|exact X]. cbn [de flow_in].
    rewrite (de_pair_run LABELED_FIELDS LABELED_FIELDS (de_seq GList (de_uint 32)) (de hr t) d da db (GList (map GNum ns)) v2 false (flow_in t v2)); auto.
    + now apply (de_labels_ok ix).
    + apply (IH Sd ix hr v2 db); auto. congruence.
  - destruct v; cbn [typed] in T; try contradiction. destruct T as ((n & -> & Hn) & T).
    assert (X : ix = false) by (destruct ix; [specialize (HW eq_refl); discriminate|reflexivity]).
    cbn [ser gnum] in P. apply pair_answer in P as (da & db & P1 & P2 & A); [|exact X]. cbn [de flow_in].
    rewrite (de_pair_run WITHPATHID_FIELDS WITHRD_FIELDS (de_uint 32) (de hr t) d da db (GNum n) v2 false (flow_in t v2)); auto.
    + inversion P1; subst. now apply de_uint_ok.
    + apply (IH Sd ix hr v2 db); auto. congruence.
  - destruct v; cbn [typed] in T; try contradiction. destruct p as [v|]; [|contradiction]. cbn [flow_in rd_result].
    assert (exists k dv, d = DEnum k (Some dv)) as (k & dv & ->); [|reflexivity].
    clear HW. cbn [ser] in P. generalize dependent i. intros i T P. revert T P. generalize i at 1 4. clear. revert ps.
    induction ps as [|t ps IH]; intros [|j] T P; try contradiction; [|now apply (IH j)].
    inversion P; subst. eauto.
  - destruct v; cbn [typed] in T; try contradiction. cbn [ser] in P. inversion P; subst. cbn [de de_net flow_in rd_result]. now rewrite net_text_rt.
Qed.
