(** Proofs about path attributes. *)
From Verif Require Import Base BaseFacts M_Util S_Wire F_Util M_Prefix M_Nlri S_Nlri F_Nlri M_Vpls S_Vpls F_Lay F_Vpls
  M_Mvpn S_Mvpn F_Mvpn M_Cap M_Open M_Session M_Addrs S_Addrs F_Fuel F_Addrs M_Attr S_Attr.
Ltac Zify.zify_post_hook ::= idtac.

(** ** Ordered sets *)
Record cmp_laws {A} (cmp : A -> A -> comparison) : Prop := {
  cl_eq : forall x y, cmp x y = Eq <-> x = y;
  cl_opp : forall x y, cmp y x = CompOpp (cmp x y);
  cl_trans : forall x y z, cmp x y = Lt -> cmp y z = Lt -> cmp x z = Lt }.
Lemma N_laws : cmp_laws N.compare.
Proof.
  constructor; intros.
  - apply N.compare_eq_iff.
  - apply N.compare_antisym.
  - rewrite N.compare_lt_iff in *. now apply N.lt_trans with y.
Qed.
Definition lex {A B} (ca : A -> A -> comparison) (cb : B -> B -> comparison) (x y : A * B) : comparison :=
  cmp_then (ca (fst x) (fst y)) (cb (snd x) (snd y)).
Lemma lex_laws {A B} (ca : A -> A -> comparison) (cb : B -> B -> comparison) : cmp_laws ca -> cmp_laws cb -> cmp_laws (lex ca cb).
Proof.
  intros Ha Hb. constructor.
  - intros [a b] [a' b']. unfold lex, cmp_then. cbn [fst snd].
    destruct (ca a a') eqn:E.
    + apply (cl_eq _ Ha) in E as ->. rewrite (cl_eq _ Hb). split; [now intros ->|congruence].
    + split; [discriminate|]. intros H. injection H as -> ->. rewrite (proj2 (cl_eq _ Ha a' a') eq_refl) in E. discriminate.
    + split; [discriminate|]. intros H. injection H as -> ->. rewrite (proj2 (cl_eq _ Ha a' a') eq_refl) in E. discriminate.
  - intros [a b] [a' b']. unfold lex, cmp_then. cbn [fst snd]. rewrite (cl_opp _ Ha a a'), (cl_opp _ Hb b b').
    destruct (ca a a'); reflexivity.
  - intros [a b] [a' b'] [a'' b'']. unfold lex, cmp_then. cbn [fst snd].
    destruct (ca a a') eqn:E1; try discriminate.
    + apply (cl_eq _ Ha) in E1 as ->. intros H1. destruct (ca a' a''); try discriminate; auto.
      intros H2. now apply (cl_trans _ Hb b b' b'').
    + intros _. destruct (ca a' a'') eqn:E2; try discriminate.
      * apply (cl_eq _ Ha) in E2 as ->. intros _. now rewrite E1.
      * intros _. now rewrite (cl_trans _ Ha a a' a'' E1 E2).
Qed.
Lemma map_laws {A B} (f : A -> B) (c : B -> B -> comparison) (cA : A -> A -> comparison) :
  (forall x y, f x = f y -> x = y) -> (forall x y, cA x y = c (f x) (f y)) -> cmp_laws c -> cmp_laws cA.
Proof.
  intros Hf Hc H. constructor; intros *; rewrite !Hc.
  - rewrite (cl_eq _ H). split; [apply Hf|now intros ->].
  - apply (cl_opp _ H).
  - apply (cl_trans _ H).
Qed.
Lemma ecomm_laws : cmp_laws ecomm_cmp.
Proof.
  apply (map_laws (fun x => (ec_type x, (ec_subtype x, (ec_a x, ec_b x)))) (lex N.compare (lex N.compare (lex N.compare N.compare)))).
  - intros [] [] H. cbn in H. congruence.
  - reflexivity.
  - repeat apply lex_laws; apply N_laws.
Qed.
Lemma lcomm_laws : cmp_laws lcomm_cmp.
Proof.
  apply (map_laws (fun x => (lc_ga x, (lc_1 x, lc_2 x))) (lex N.compare (lex N.compare N.compare))).
  - intros [] [] H. cbn in H. congruence.
  - reflexivity.
  - repeat apply lex_laws; apply N_laws.
Qed.

Section Sets.
  Context {A : Type} (cmp : A -> A -> comparison) (L : cmp_laws cmp).
  Lemma insert_last x l : Forall (fun y => cmp y x = Lt) l -> bset_insert cmp x l = l ++ [x].
  Proof.
    induction 1 as [|y l H _ IH]; [reflexivity|]. cbn [bset_insert app].
    now rewrite (cl_opp _ L y x), H, IH.
  Qed.
  Lemma ascending_app l1 l2 : ascending cmp (l1 ++ l2) <->
    ascending cmp l1 /\ ascending cmp l2 /\ Forall (fun x => Forall (fun y => cmp x y = Lt) l2) l1.
  Proof.
    induction l1 as [|x l1 IH]; cbn [app ascending].
    - split; [intros H; repeat split; auto|intros (_ & H & _); exact H].
    - rewrite IH, Forall_app. split.
      + intros ((H1 & H2) & H3 & H4 & H5). repeat split; auto.
      + intros ((H1 & H2) & H3 & H4). inversion H4; subst. repeat split; auto.
  Qed.
  Lemma fold_insert v : forall acc, ascending cmp (acc ++ v) -> fold_left (fun s x => bset_insert cmp x s) v acc = acc ++ v.
  Proof.
    induction v as [|x v IH]; intros acc H; cbn [fold_left]; [now rewrite app_nil_r|].
    apply ascending_app in H as H'. destruct H' as (_ & _ & H').
    rewrite insert_last.
    - rewrite IH; rewrite <- app_assoc; [reflexivity|exact H].
    - eapply Forall_impl; [|exact H']. intros y Hy. now inversion Hy.
  Qed.
  Lemma bset_of_ascending v : ascending cmp v -> bset_of cmp v = v.
  Proof. intros H. unfold bset_of. now rewrite fold_insert. Qed.
  Lemma insert_in x l y : In y (bset_insert cmp x l) <-> y = x \/ In y l.
  Proof.
    induction l as [|z l IH]; cbn [bset_insert In].
    - split; intros [->|[]]; auto.
    - destruct (cmp x z) eqn:E; cbn [In].
      + apply (cl_eq _ L) in E as ->. split; [auto|intros [->|H]; auto].
      + split; intros [->|H]; auto.
      + rewrite IH. split; [intros [->|[->|H]]|intros [->|[->|H]]]; auto.
  Qed.
  Lemma insert_asc x l : ascending cmp l -> ascending cmp (bset_insert cmp x l).
  Proof.
    induction l as [|z l IH]; cbn [bset_insert ascending]; [split; auto|].
    intros (H1 & H2). destruct (cmp x z) eqn:E; cbn [ascending]; auto.
    - split; [|now split]. constructor; auto. eapply Forall_impl; [|exact H1]. intros y Hy. now apply (cl_trans _ L x z y).
    - split; [|now apply IH]. apply Forall_forall. intros y Hy. apply insert_in in Hy as [->|Hy].
      + now rewrite (cl_opp _ L x z), E.
      + rewrite Forall_forall in H1. now apply H1.
  Qed.
  Lemma bset_of_spec v : ascending cmp (bset_of cmp v) /\ forall y, In y (bset_of cmp v) <-> In y v.
  Proof.
    unfold bset_of.
    assert (G : forall v acc, ascending cmp acc -> ascending cmp (fold_left (fun s x => bset_insert cmp x s) v acc) /\
      forall y, In y (fold_left (fun s x => bset_insert cmp x s) v acc) <-> In y acc \/ In y v).
    { clear v. induction v as [|x v IH]; intros acc H; cbn [fold_left].
      - split; [exact H|]. intros y. cbn [In]. tauto.
      - destruct (IH (bset_insert cmp x acc) (insert_asc x acc H)) as (H1 & H2). split; [exact H1|].
        intros y. rewrite H2, insert_in. cbn [In]. split; [intros [[->|?]|?]|intros [?|[->|?]]]; auto. }
    destruct (G v [] I) as (H1 & H2). split; [exact H1|]. intros y. rewrite H2. cbn [In]. tauto.
  Qed.
  (** a strictly ascending list is determined by its elements *)
  Lemma ascending_ext l1 : forall l2, ascending cmp l1 -> ascending cmp l2 -> (forall x, In x l1 <-> In x l2) -> l1 = l2.
  Proof.
    assert (NL : forall x, cmp x x <> Lt). { intros x. rewrite (proj2 (cl_eq _ L x x) eq_refl). discriminate. }
    assert (AS : forall x y, cmp x y = Lt -> cmp y x <> Lt). { intros x y H. rewrite (cl_opp _ L x y), H. discriminate. }
    induction l1 as [|x l1 IH]; intros [|y l2] H1 H2 H; auto.
    - exfalso. now apply (proj2 (H y)); left.
    - exfalso. now apply (proj1 (H x)); left.
    - cbn [ascending] in H1, H2. destruct H1 as (H1a & H1b), H2 as (H2a & H2b). rewrite Forall_forall in H1a, H2a.
      assert (E : x = y).
      { destruct (proj1 (H x) (or_introl eq_refl)) as [E|E]; [auto|].
        destruct (proj2 (H y) (or_introl eq_refl)) as [E'|E']; [auto|]. exfalso. eapply AS; [apply H1a, E'|apply H2a, E]. }
      subst y. f_equal. apply IH; auto. intros z. split; intros Hz.
      + destruct (proj1 (H z) (or_intror Hz)) as [<-|E]; auto. exfalso. apply (NL x), H1a, Hz.
      + destruct (proj2 (H z) (or_intror Hz)) as [<-|E]; auto. exfalso. apply (NL x), H2a, Hz.
  Qed.
End Sets.

(** the order of communities is the order of their octets read as numbers *)
Lemma ecomm_cmp_num x y : ecomm_wf x -> ecomm_wf y -> ecomm_cmp x y = (be_val (ecomm_wire x) ?= be_val (ecomm_wire y)).
Proof.
  assert (W : forall x, ecomm_wf x -> be_val (ecomm_wire x) = ec_type x * 2 ^ 56 + (ec_subtype x * 2 ^ 48 + (ec_a x * 2 ^ 32 + ec_b x))).
  { clear. intros [t s a b] (H1 & H2 & H3 & H4). cbn [ec_type ec_subtype ec_a ec_b] in *. unfold ecomm_wire.
    cbn [ec_type ec_subtype ec_a ec_b]. cbn [app].
    rewrite !be_val_cons, be_val_app. cbn [length]. rewrite app_length, !length_be_bytes, !be_val_be_bytes by assumption.
    cbn [Nat.add N.of_nat Pos.of_succ_nat Pos.succ N.mul Pos.mul]. reflexivity. }
  intros Hx Hy. rewrite !W by assumption. clear W.
  destruct x as [t s a b], y as [t' s' a' b'], Hx as (H1 & H2 & H3 & H4), Hy as (H1' & H2' & H3' & H4').
  unfold ecomm_cmp, cmp_then. cbn [ec_type ec_subtype ec_a ec_b] in *.
  change (2 ^ 56) with 72057594037927936. change (2 ^ 48) with 281474976710656. change (2 ^ 32) with 4294967296 in *. change (2 ^ 16) with 65536 in *.
  destruct (N.compare_spec t t'); [subst t'|symmetry; apply N.compare_lt_iff; lia|symmetry; apply N.compare_gt_iff; lia].
  destruct (N.compare_spec s s'); [subst s'|symmetry; apply N.compare_lt_iff; lia|symmetry; apply N.compare_gt_iff; lia].
  destruct (N.compare_spec a a'); [subst a'|symmetry; apply N.compare_lt_iff; lia|symmetry; apply N.compare_gt_iff; lia].
  destruct (N.compare_spec b b'); [subst b'; symmetry; now apply N.compare_refl|symmetry; apply N.compare_lt_iff; lia|symmetry; apply N.compare_gt_iff; lia].
Qed.
Lemma lcomm_cmp_num x y : lcomm_wf x -> lcomm_wf y -> lcomm_cmp x y = (be_val (lcomm_wire x) ?= be_val (lcomm_wire y)).
Proof.
  assert (W : forall x, lcomm_wf x -> be_val (lcomm_wire x) = lc_ga x * 2 ^ 64 + (lc_1 x * 2 ^ 32 + lc_2 x)).
  { clear. intros [a b c] (H1 & H2 & H3). cbn [lc_ga lc_1 lc_2] in *. unfold lcomm_wire. cbn [lc_ga lc_1 lc_2].
    rewrite !be_val_app, !app_length, !length_be_bytes, !be_val_be_bytes by assumption. reflexivity. }
  intros Hx Hy. rewrite !W by assumption. clear W.
  destruct x as [a b c], y as [a' b' c'], Hx as (H1 & H2 & H3), Hy as (H1' & H2' & H3').
  unfold lcomm_cmp, cmp_then. cbn [lc_ga lc_1 lc_2] in *.
  change (2 ^ 64) with 18446744073709551616. change (2 ^ 32) with 4294967296 in *.
  destruct (N.compare_spec a a'); [subst a'|symmetry; apply N.compare_lt_iff; lia|symmetry; apply N.compare_gt_iff; lia].
  destruct (N.compare_spec b b'); [subst b'|symmetry; apply N.compare_lt_iff; lia|symmetry; apply N.compare_gt_iff; lia].
  destruct (N.compare_spec c c'); [subst c'; symmetry; now apply N.compare_refl|symmetry; apply N.compare_lt_iff; lia|symmetry; apply N.compare_gt_iff; lia].
Qed.

(** ** What the encoders write *)
Lemma writes_ltb_guard {A} p k (e : err) (m : Enc A) bs a :
  (k <= p + length bs)%nat -> writes_at p m bs a ->
  writes_at p (len <~ elen ;; if Nat.leb k len then m else eerr e) bs a.
Proof.
  intros Hk H buf Hb. unfold ebind, elen.
  replace (Nat.leb k (length buf)) with true by (symmetry; apply Nat.leb_le; lia). now apply H.
Qed.
Lemma writes_then_ret {A B} p (m : Enc A) bs a (b c : B) : writes_at p m bs a -> b = c -> writes_at p (m ;;; eret b) bs c.
Proof. intros H ->. eapply writes_at_map; [exact H|]. reflexivity. Qed.

Lemma origin_writes o : writes (origin_encode o) [match o with Igp => 0 | Egp => 1 | Incomplete => 2 end] 1%nat.
Proof.
  unfold origin_encode. intros buf H. unfold ebind at 1, elen. cbn [length] in H.
  destruct (Nat.eqb_spec (length buf) 0); [lia|]. apply (writes_then_ret 0 _ _ tt 1%nat 1%nat (writes_at_set_idx 0 _) eq_refl).
  cbn [length]. lia.
Qed.
Lemma as_write_writes as32 v : forall pos, writes_at pos (as_write as32 v pos)
  (flat_map (be_bytes (if as32 then 4%nat else 2%nat)) v) (pos + length (flat_map (be_bytes (if as32 then 4%nat else 2%nat)) v))%nat.
Proof.
  induction v as [|x v IH]; intros pos; cbn [as_write flat_map].
  - apply writes_ret_nil. cbn [length]. lia.
  - destruct as32.
    + eapply writes_next; [apply writes_on_slice; [| |apply writes_setn_u32]|reflexivity|]; rewrite ?length_be_bytes; try lia.
      eapply writes_at_eq; [apply IH|..]; try reflexivity. rewrite app_length, length_be_bytes. lia.
    + replace (be_bytes 2 x) with (be_bytes 2 (cast 16 x)) by (apply be_bytes_mod; lia).
      eapply writes_next; [apply writes_on_slice; [| |apply writes_setn_u16]|reflexivity|]; rewrite ?length_be_bytes; try lia.
      eapply writes_at_eq; [apply IH|..]; try reflexivity. rewrite app_length, length_be_bytes. lia.
Qed.
Lemma length_flat_map_const {A} (f : A -> list N) k v : (forall x, length (f x) = k) -> length (flat_map f v) = (length v * k)%nat.
Proof. intros H. induction v as [|x v IH]; [reflexivity|]. cbn [flat_map length]. rewrite app_length, H, IH. lia. Qed.
Lemma aspath_writes p v : writes (aspath_encode p v) (aspath_wire p v) (length (aspath_wire p v)).
Proof.
  unfold aspath_encode, aspath_wire, as_octets. destruct v as [|x v]; [apply (writes_ret_nil 0); reflexivity|].
  set (w := x :: v). clearbody w. set (k := if sp_as32 p then 4%nat else 2%nat).
  assert (L : length (flat_map (be_bytes k) w) = (length w * k)%nat) by (apply length_flat_map_const; intros; apply length_be_bytes).
  apply writes_elen_guard; [rewrite app_length, L; cbn [length]; lia|].
  change ([2; N.of_nat (length w) mod 256] ++ flat_map (be_bytes k) w) with ([2] ++ [N.of_nat (length w) mod 256] ++ flat_map (be_bytes k) w).
  eapply writes_next; [apply writes_at_set_idx|reflexivity|].
  eapply writes_next; [apply writes_at_set_idx|reflexivity|].
  eapply writes_at_eq; [apply as_write_writes|..]; try reflexivity.
Qed.
Lemma u32_writes v : writes (u32_encode v) (be_bytes 4 v) 4%nat.
Proof.
  unfold u32_encode. apply writes_ltb_guard; [rewrite length_be_bytes; lia|].
  eapply writes_then_ret; [apply writes_setn_u32|reflexivity].
Qed.
Lemma nexthop_writes p a : of_mode (sp_mode p) a -> writes (nexthop_encode p a) (ip_bytes a) (length (ip_bytes a)).
Proof.
  unfold nexthop_encode. intros H buf Hb. unfold ebind, elen.
  destruct a as [a|a], (sp_mode p); cbn [of_mode ip_bytes] in *; try contradiction; rewrite length_be_bytes in *.
  - replace (Nat.leb 4 (length buf)) with true by (symmetry; apply Nat.leb_le; lia). apply writes_encode_addrv4. now rewrite length_be_bytes.
  - replace (Nat.leb 16 (length buf)) with true by (symmetry; apply Nat.leb_le; lia). apply writes_encode_addrv6. now rewrite length_be_bytes.
Qed.
Lemma originator_writes p a : of_mode (sp_mode p) a -> writes (originator_encode p a) (ip_bytes a) (length (ip_bytes a)).
Proof.
  unfold originator_encode. intros H. destruct a as [a|a], (sp_mode p); cbn [of_mode ip_bytes] in *; try contradiction.
  - apply writes_encode_addrv4.
  - apply writes_encode_addrv6.
Qed.
Lemma connector_writes asn a o : writes (connector_encode asn a o) (attr_wire (params_new 0 0 ModeV4 0 []) (AConnector asn a o)) 14%nat.
Proof.
  unfold connector_encode. cbn [attr_wire]. apply writes_ltb_guard; [cbn [Nat.add app length be_bytes]; lia|].
  eapply writes_next; [apply writes_setn_u16|reflexivity|].
  eapply writes_next; [apply writes_on_slice; [reflexivity|cbn; lia|apply writes_setn_u32]|reflexivity|].
  eapply writes_next; [apply writes_on_slice; [reflexivity|cbn; lia|apply writes_encode_addrv4]|reflexivity|].
  rewrite <- (app_nil_r (be_bytes 4 o)).
  eapply writes_next; [apply writes_on_slice; [reflexivity|cbn; lia|apply writes_encode_addrv4]|reflexivity|].
  now apply writes_ret_nil.
Qed.
Lemma comm_writes v : writes (comm_encode v) (be_bytes 4 v) (length (be_bytes 4 v)).
Proof.
  unfold comm_encode. apply writes_elen_guard; [rewrite length_be_bytes; lia|].
  eapply writes_then_ret; [apply writes_setn_u32|reflexivity].
Qed.
Lemma community_writes v : writes (community_encode v) (flat_map (be_bytes 4) v) (length (flat_map (be_bytes 4) v)).
Proof.
  unfold community_encode. apply writes_elen_guard.
  - rewrite (length_flat_map_const _ 4) by (intros; apply length_be_bytes). lia.
  - apply writes_addritems. intros; apply comm_writes.
Qed.
Lemma ecomm_writes x : writes (ecomm_encode x) (ecomm_wire x) (length (ecomm_wire x)).
Proof.
  unfold ecomm_encode, ecomm_wire. apply writes_elen_guard; [cbn [Nat.add app length be_bytes]; lia|].
  change ([ec_type x; ec_subtype x] ++ be_bytes 2 (ec_a x) ++ be_bytes 4 (ec_b x)) with
    ([ec_type x] ++ [ec_subtype x] ++ be_bytes 2 (ec_a x) ++ be_bytes 4 (ec_b x)).
  eapply writes_next; [apply writes_at_set_idx|reflexivity|].
  eapply writes_next; [apply writes_at_set_idx|reflexivity|].
  eapply writes_next; [apply writes_on_slice; [reflexivity|cbn; lia|apply writes_setn_u16]|reflexivity|].
  rewrite <- (app_nil_r (be_bytes 4 (ec_b x))) at 1.
  eapply writes_next; [apply writes_on_slice; [reflexivity|cbn; lia|apply writes_setn_u32]|reflexivity|].
  now apply writes_ret_nil.
Qed.
Lemma lcomm_writes x : writes (lcomm_encode x) (lcomm_wire x) (length (lcomm_wire x)).
Proof.
  unfold lcomm_encode, lcomm_wire. apply writes_elen_guard; [cbn [Nat.add app length be_bytes]; lia|].
  eapply writes_next; [apply writes_setn_u32|reflexivity|].
  eapply writes_next; [apply writes_on_slice; [reflexivity|cbn; lia|apply writes_setn_u32]|reflexivity|].
  rewrite <- (app_nil_r (be_bytes 4 (lc_2 x))) at 1.
  eapply writes_next; [apply writes_on_slice; [reflexivity|cbn; lia|apply writes_setn_u32]|reflexivity|].
  now apply writes_ret_nil.
Qed.

(** a field in front written after the field behind it *)
Lemma writes_back {A B C} p (m : Enc A) (s : A -> Enc B) (g : A -> Enc C) b1 b2 b3 a u c q r :
  q = (p + length b1)%nat -> r = (q + length b2)%nat ->
  writes_at q m b2 a -> writes_at p (s a) b1 u -> writes_at r (g a) b3 c ->
  writes_at p (x <~ m ;; s x ;;; g x) (b1 ++ b2 ++ b3) c.
Proof.
  intros -> -> Hm Hs Hg.
  assert (G : writes_at p (x <~ (x <~ m ;; s x ;;; eret x) ;; g x) ((b1 ++ b2) ++ b3) c).
  { eapply writes_at_bind.
    - eapply writes_at_bind_rev; [exact Hm|]. eapply writes_then_ret; [exact Hs|reflexivity].
    - eapply writes_at_eq; [exact Hg|..]; try reflexivity. rewrite app_length. lia. }
  rewrite <- app_assoc in G. intros buf Hb. rewrite <- G by exact Hb. unfold ebind, eret.
  destruct (m buf) as [[x b']| | |]; auto. destruct (s x b') as [[y b'']| | |]; auto.
Qed.
Lemma writes_v4rd rd a : writes (v4rd_encode rd a) (rd_wire rd ++ be_bytes 4 a) 12%nat.
Proof.
  unfold v4rd_encode. rewrite <- (app_nil_r (be_bytes 4 a)).
  eapply writes_next; [apply writes_encode_rd|rewrite length_rd_wire; reflexivity|].
  eapply writes_next; [apply writes_on_from, writes_encode_addrv4|reflexivity|]. now apply writes_ret_nil.
Qed.
Lemma writes_v6rd rd a : writes (v6rd_encode rd a) (rd_wire rd ++ be_bytes 16 a) 24%nat.
Proof.
  unfold v6rd_encode. rewrite <- (app_nil_r (be_bytes 16 a)).
  eapply writes_next; [apply writes_encode_rd|rewrite length_rd_wire; reflexivity|].
  eapply writes_next; [apply writes_on_from, writes_encode_addrv6|reflexivity|]. now apply writes_ret_nil.
Qed.
Lemma writes_put_nexthop nh : bgpaddr_wf nh -> writes_at 4 (mp_put_nexthop nh) (bgpaddr_wire nh) (length (bgpaddr_wire nh)).
Proof.
  destruct nh; cbn [bgpaddr_wf bgpaddr_wire mp_put_nexthop]; intros H; try contradiction; rewrite ?app_length, ?length_rd_wire, ?length_be_bytes.
  - now apply writes_ret_nil.
  - apply writes_on_from, writes_encode_addrv4.
  - apply writes_on_from, writes_encode_addrv6.
  - apply writes_on_from, writes_v4rd.
  - apply writes_on_from, writes_v6rd.
Qed.
Lemma nexthop_len nh : (length (bgpaddr_wire nh) <= 24)%nat.
Proof. destruct nh; cbn [bgpaddr_wire]; rewrite ?app_length, ?length_rd_wire, ?length_be_bytes; cbn [length]; lia. Qed.
Lemma mpupdates_writes oc nh a : bgpaddr_wf nh -> addrs_wf a ->
  writes (mpupdates_encode oc nh a) (mp_reach_wire nh a) (length (mp_reach_wire nh a)).
Proof.
  intros Hn Ha. unfold mpupdates_encode, mp_reach_wire. pose proof (nexthop_len nh) as Hl.
  eapply writes_next; [apply writes_on_slice; [| |apply writes_setn_u16]|reflexivity|]; rewrite ?length_be_bytes; try lia.
  eapply writes_next; [apply writes_at_set_idx|reflexivity|].
  eapply (writes_back 3 (mp_put_nexthop nh) (fun nhl => set_idx 3 (cast 8 (N.of_nat nhl)))
    (fun nhl => set_idx (4 + nhl) 0 ;;; ps <~ on_from (4 + nhl + 1) (addrs_encode oc a) ;; eret (4 + nhl + 1 + ps)%nat)
    [N.of_nat (length (bgpaddr_wire nh))] (bgpaddr_wire nh) ([0] ++ addrs_wire a)); [reflexivity|reflexivity|apply writes_put_nexthop, Hn|..].
  - eapply writes_at_eq; [apply writes_at_set_idx|..]; try reflexivity. unfold cast. now rewrite N.mod_small by lia.
  - eapply writes_next; [apply writes_at_set_idx|reflexivity|].
    rewrite <- (app_nil_r (addrs_wire a)) at 1.
    eapply writes_next; [|reflexivity|apply writes_ret_nil].
    + eapply writes_at_eq; [apply writes_on_from, addrs_encode_wire, Ha|..]; try reflexivity; cbn [length]; lia.
    + cbn beta. repeat (rewrite ?app_length, ?length_be_bytes; cbn [length]). lia.
Qed.
Lemma mpwithdraws_writes oc a : addrs_wf a -> writes (mpwithdraws_encode oc a) (mp_unreach_wire a) (length (mp_unreach_wire a)).
Proof.
  intros Ha. unfold mpwithdraws_encode, mp_unreach_wire.
  eapply writes_next; [apply writes_on_slice; [| |apply writes_setn_u16]|reflexivity|]; rewrite ?length_be_bytes; try lia.
  eapply writes_next; [apply writes_at_set_idx|reflexivity|].
  rewrite <- (app_nil_r (addrs_wire a)) at 1.
  eapply writes_next; [apply writes_on_from, addrs_encode_wire, Ha|reflexivity|apply writes_ret_nil].
  repeat (rewrite ?app_length, ?length_be_bytes; cbn [length]). lia.
Qed.

Lemma attr_put_writes oc p a : attr_wf p a -> writes (attr_put oc p a) (attr_wire p a) (length (attr_wire p a)).
Proof.
  destruct a; cbn [attr_wf attr_put attr_wire]; intros H; try contradiction.
  - apply origin_writes.
  - apply aspath_writes.
  - now apply nexthop_writes.
  - apply u32_writes.
  - apply u32_writes.
  - apply writes_encode_addr.
  - apply community_writes.
  - now apply originator_writes.
  - apply writes_addritems. intros; apply writes_encode_addr.
  - now apply mpupdates_writes.
  - now apply mpwithdraws_writes.
  - apply writes_addritems. intros; apply ecomm_writes.
  - apply writes_addritems. intros; apply lcomm_writes.
  - apply connector_writes.
  - eapply writes_then_ret; [apply writes_at_write_at|reflexivity].
Qed.

(** ** Framing *)
Lemma ext_bit f : (0 <? N.land f 16) = fl_extended f.
Proof.
  unfold fl_extended. destruct (N.testbit f 4) eqn:E.
  - apply N.ltb_lt. assert (N.land f 16 <> 0); [|lia]. intros H.
    assert (T : N.testbit (N.land f 16) 4 = true) by (rewrite N.land_spec, E; reflexivity). rewrite H in T. discriminate.
  - apply N.ltb_ge. assert (N.land f 16 = 0); [|lia]. apply N.bits_inj_0. intros i. rewrite N.land_spec.
    destruct (N.eq_dec i 4) as [->|Hi]; [now rewrite E|]. change 16 with (2 ^ 4). rewrite N.pow2_bits_false by auto. now rewrite andb_false_r.
Qed.
Lemma params_code a : attr_params a = (attr_code a, attr_flags a).
Proof. unfold attr_flags. destruct a; reflexivity. Qed.
Lemma length_frame f tc b : length (frame f tc b) = (2 + len_octets f + length b)%nat.
Proof. unfold frame. rewrite !app_length, length_be_bytes. reflexivity. Qed.

(** the encoder, with the length field and the payload made explicit *)
Lemma attr_encode_eq oc p a : attr_encode oc p a =
  (set_idx 0 (attr_flags a) ;;; set_idx 1 (attr_code a) ;;;
   n <~ on_from (2 + len_octets (attr_flags a)) (attr_put oc p a) ;;
   (if len_max (attr_flags a) <? N.of_nat n then eerr EOther
    else if fl_extended (attr_flags a) then on_slice 2 4 (setn_u16 (cast 16 (N.of_nat n))) else set_idx 2 (cast 8 (N.of_nat n))) ;;;
   eret (2 + len_octets (attr_flags a) + n)%nat).
Proof.
  unfold attr_encode, len_octets, len_max. rewrite params_code. rewrite ext_bit. cbn [fst snd]. destruct (fl_extended (attr_flags a)); reflexivity.
Qed.
Lemma len_field_writes f n : N.of_nat n <= len_max f ->
  writes_at 2 (if len_max f <? N.of_nat n then eerr EOther
    else if fl_extended f then on_slice 2 4 (setn_u16 (cast 16 (N.of_nat n))) else set_idx 2 (cast 8 (N.of_nat n)))
    (be_bytes (len_octets f) (N.of_nat n)) tt.
Proof.
  unfold len_max, len_octets. intros H. destruct (fl_extended f).
  - replace (65535 <? N.of_nat n) with false by (symmetry; apply N.ltb_ge; exact H).
    replace (be_bytes 2 (N.of_nat n)) with (be_bytes 2 (cast 16 (N.of_nat n))) by (apply be_bytes_mod; lia).
    apply writes_on_slice; [reflexivity|lia|apply writes_setn_u16].
  - replace (255 <? N.of_nat n) with false by (symmetry; apply N.ltb_ge; exact H).
    eapply writes_at_eq; [apply writes_at_set_idx|..]; try reflexivity.
    cbn [be_bytes]. rewrite N.mul_0_r, N.pow_0_r, N.div_1_r. reflexivity.
Qed.
Lemma attr_encode_writes oc p a : attr_wf p a -> N.of_nat (length (attr_wire p a)) <= len_max (attr_flags a) ->
  writes (attr_encode oc p a) (attr_full p a) (length (attr_full p a)).
Proof.
  intros H HL. rewrite attr_encode_eq. unfold attr_full, frame.
  set (f := attr_flags a) in *. set (w := attr_wire p a) in *.
  change ([f; attr_code a] ++ be_bytes (len_octets f) (N.of_nat (length w)) ++ w) with
    ([f] ++ [attr_code a] ++ be_bytes (len_octets f) (N.of_nat (length w)) ++ w).
  eapply writes_next; [apply writes_at_set_idx|reflexivity|].
  eapply writes_next; [apply writes_at_set_idx|reflexivity|].
  eapply (writes_at_bind_rev 2); [|].
  - rewrite length_be_bytes. apply writes_on_from. apply attr_put_writes, H.
  - eapply writes_then_ret; [now apply len_field_writes|].
    rewrite !app_length, length_be_bytes. cbn [length]. fold w. lia.
Qed.

Lemma rslice_head {A} (a b : list A) k : length a = k -> rslice (a ++ b) 0 k = Ok a.
Proof.
  intros <-. rewrite rslice_ok by (rewrite ?app_length; lia). f_equal.
  apply (sub_app_exact [] a b); [reflexivity|now rewrite Nat.sub_0_r].
Qed.
(** Exact behaviour of the framing, for every attribute and buffer. *)
Lemma attr_encode_exact oc p a buf :
  let f := attr_flags a in
  let h := (2 + len_octets f)%nat in
  attr_encode oc p a buf =
  if Nat.ltb (length buf) h then Panic else
  match attr_put oc p a (skipn h buf) with
  | Ok (k, b) => if len_max f <? N.of_nat k then Err EOther
                 else Ok ((h + k)%nat, [f; attr_code a] ++ be_bytes (len_octets f) (N.of_nat k) ++ b)
  | Err e => Err e
  | Panic => Panic
  | OutOfFuel => OutOfFuel
  end.
Proof.
  intros f h. rewrite attr_encode_eq. fold f. fold h.
  assert (Hlo : (len_octets f = 1 \/ len_octets f = 2)%nat) by (unfold len_octets; destruct (fl_extended f); auto).
  destruct buf as [|b0 buf]; [destruct Hlo as [E|E]; unfold h; rewrite E; reflexivity|].
  destruct buf as [|b1 buf]; [destruct Hlo as [E|E]; unfold h; rewrite E; reflexivity|].
  unfold ebind at 1. change (set_idx 0 f (b0 :: b1 :: buf)) with (Ok (tt, f :: b1 :: buf)). cbv iota beta.
  unfold ebind at 1. change (set_idx 1 (attr_code a) (f :: b1 :: buf)) with (Ok (tt, f :: attr_code a :: buf)). cbv iota beta.
  unfold ebind at 1. unfold on_from. cbn [length].
  destruct (Nat.ltb_spec (S (S (length buf))) h) as [Hs|Hs].
  - replace (Nat.leb h (S (S (length buf)))) with false by (symmetry; apply Nat.leb_gt; exact Hs). reflexivity.
  - replace (Nat.leb h (S (S (length buf)))) with true by (symmetry; apply Nat.leb_le; exact Hs).
    assert (SK : skipn h (f :: attr_code a :: buf) = skipn h (b0 :: b1 :: buf)) by (destruct Hlo as [E|E]; unfold h; rewrite E; reflexivity).
    rewrite SK. clear SK.
    destruct (attr_put oc p a (skipn h (b0 :: b1 :: buf))) as [[k b]| | |]; auto.
    destruct (N.ltb_spec (len_max f) (N.of_nat k)) as [Hm|Hm].
    + unfold ebind, eerr. reflexivity.
    + pose proof (len_field_writes f k Hm) as W. replace (len_max f <? N.of_nat k) with false in W by (symmetry; apply N.ltb_ge; exact Hm).
      unfold ebind at 1. rewrite W.
      * unfold eret. do 2 f_equal. unfold splice. rewrite length_be_bytes. fold h.
        rewrite skipn_app_exact by (rewrite firstn_length; cbn [length]; lia).
        assert (E : firstn 2 (firstn h (f :: attr_code a :: buf) ++ b) = [f; attr_code a]).
        { destruct Hlo as [E|E]; unfold h; rewrite E; reflexivity. }
        rewrite E. reflexivity.
      * rewrite length_be_bytes, app_length, firstn_length. cbn [length]. unfold h in *. lia.
Qed.

(** ** Decoding *)
Lemma win_loop_concat {A} k (dec : list N -> res A) (E : A -> list N) v : (0 < k)%nat ->
  (forall x, In x v -> length (E x) = k /\ dec (E x) = Ok x) ->
  forall pre fuel, (length (flat_map E v) < fuel)%nat -> win_loop k dec fuel (pre ++ flat_map E v) (length pre) = Ok v.
Proof.
  intros Hk. induction v as [|x v IH]; intros H pre fuel Hf; (destruct fuel as [|fuel]; [lia|]); cbn [win_loop flat_map] in *.
  - rewrite app_nil_r. replace (Nat.leb (length pre + k) (length pre)) with false by (symmetry; apply Nat.leb_gt; lia). reflexivity.
  - destruct (H x (or_introl eq_refl)) as [Lx Dx]. rewrite app_length in Hf.
    replace (Nat.leb (length pre + k) (length (pre ++ E x ++ flat_map E v))) with true by (symmetry; apply Nat.leb_le; rewrite !app_length; lia).
    rewrite rslice_ok by (rewrite ?app_length; lia). rewrite bind_ok.
    rewrite sub_app_exact by lia. rewrite Dx, bind_ok.
    rewrite app_assoc. replace (length pre + k)%nat with (length (pre ++ E x)) by (rewrite app_length; lia).
    rewrite IH; [reflexivity| |lia]. intros; apply H; now right.
Qed.
Lemma win_loop_all {A} k (dec : list N -> res A) (E : A -> list N) v : (0 < k)%nat ->
  (forall x, In x v -> length (E x) = k /\ dec (E x) = Ok x) ->
  win_loop k dec (S (length (flat_map E v))) (flat_map E v) 0 = Ok v.
Proof. intros Hk H. apply (win_loop_concat k dec E v Hk H [] (S (length (flat_map E v)))). lia. Qed.

Lemma aspath_decode_wire p v : sp_as32 p = true \/ v = [] -> Forall (fun x => x < 256 ^ N.of_nat (as_octets p)) v ->
  aspath_decode p (aspath_wire p v) = Ok v.
Proof.
  intros H Hv. unfold aspath_decode, aspath_wire, as_octets in *. destruct v as [|x v]; [reflexivity|]. destruct H as [H|H]; [|discriminate].
  rewrite H in *. set (w := x :: v) in *. clearbody w.
  assert (L : length (flat_map (be_bytes 4) w) = (length w * 4)%nat) by (apply length_flat_map_const; intros; apply length_be_bytes).
  set (hd := [2; N.of_nat (length w) mod 256]). rewrite app_length, L. change (length hd) with 2%nat. cbn [Nat.add Nat.ltb Nat.leb].
  replace (Nat.modulo (S (S (length w * 4))) 4) with (length hd).
  2: { cbn [length hd]. change (S (S (length w * 4))) with (2 + length w * 4)%nat. now rewrite Nat.mod_add by lia. }
  rewrite (dec_loop_concat (as_step true) (be_bytes 4) (fun x => x)); [now rewrite map_id| | |rewrite L; lia].
  - intros y rest Hy. rewrite Forall_forall in Hv. unfold as_step.
    rewrite rslice_head by apply length_be_bytes. rewrite bind_ok.
    rewrite getn_u32_exact by (apply Hv, Hy). reflexivity.
  - intros y _. rewrite length_be_bytes. lia.
Qed.
Lemma comm_step_be x rest : x < 2 ^ 32 -> comm_step (be_bytes 4 x ++ rest) = Ok (x, 4%nat).
Proof.
  intros H. unfold comm_step. rewrite rslice_head by apply length_be_bytes. rewrite bind_ok, length_be_bytes. cbn [Nat.eqb].
  now rewrite getn_u32_exact.
Qed.
Lemma community_decode_flat v : Forall (fun x => x < 2 ^ 32) v -> community_decode (flat_map (be_bytes 4) v) = Ok (bset_of N.compare v).
Proof.
  intros H. rewrite Forall_forall in H. unfold community_decode.
  pose proof (dec_loop_concat comm_step (be_bytes 4) (fun x => x) v) as G.
  specialize (G ltac:(intros x rest Hx; rewrite length_be_bytes; apply comm_step_be, H, Hx) ltac:(intros; rewrite length_be_bytes; lia) [] (S (length (flat_map (be_bytes 4) v))) ltac:(lia)).
  cbn [app length] in G. rewrite G, bind_ok, map_id. reflexivity.
Qed.
Lemma lcomm_step_wire x rest : lcomm_wf x -> lcomm_step (lcomm_wire x ++ rest) = Ok (x, 12%nat).
Proof.
  destruct x as [a b c]. intros (H1 & H2 & H3). cbn [lc_ga lc_1 lc_2] in *. unfold lcomm_step.
  assert (L : length (lcomm_wire (mkLC a b c)) = 12%nat) by reflexivity.
  rewrite rslice_head by exact L. rewrite bind_ok, L. cbn [Nat.eqb]. unfold lcomm_wire. cbn [lc_ga lc_1 lc_2].
  replace (be_bytes 4 a ++ be_bytes 4 b ++ be_bytes 4 c) with (concat [be_bytes 4 a; be_bytes 4 b; be_bytes 4 c]) by (cbn [concat]; now rewrite app_nil_r).
  rewrite (rslice_seg _ 0 0 4 (be_bytes 4 a)) by reflexivity. rewrite bind_ok, getn_u32_exact, bind_ok by exact H1.
  rewrite (rslice_seg _ 1 4 8 (be_bytes 4 b)) by reflexivity. rewrite bind_ok, getn_u32_exact, bind_ok by exact H2.
  rewrite (rslice_seg _ 2 8 12 (be_bytes 4 c)) by reflexivity. rewrite bind_ok, getn_u32_exact, bind_ok by exact H3.
  reflexivity.
Qed.
Lemma large_decode_flat v : Forall lcomm_wf v -> large_decode (flat_map lcomm_wire v) = Ok (bset_of lcomm_cmp v).
Proof.
  intros H. rewrite Forall_forall in H. unfold large_decode.
  pose proof (dec_loop_concat lcomm_step lcomm_wire (fun x => x) v) as G.
  specialize (G ltac:(intros x rest Hx; apply lcomm_step_wire, H, Hx) ltac:(intros x _; change (length (lcomm_wire x)) with 12%nat; lia) [] (S (length (flat_map lcomm_wire v))) ltac:(lia)).
  cbn [app length] in G. rewrite G, bind_ok, map_id. reflexivity.
Qed.
Lemma ecomm_decode_wire x : ecomm_wf x -> ecomm_decode (ecomm_wire x) = Ok x.
Proof.
  destruct x as [t s a b]. intros (H1 & H2 & H3 & H4). cbn [ec_type ec_subtype ec_a ec_b] in *. unfold ecomm_decode, ecomm_wire. cbn [ec_type ec_subtype ec_a ec_b].
  replace ([t; s] ++ be_bytes 2 a ++ be_bytes 4 b) with (concat [[t]; [s]; be_bytes 2 a; be_bytes 4 b]) by (cbn [concat]; now rewrite app_nil_r).
  change (length (concat [[t]; [s]; be_bytes 2 a; be_bytes 4 b])) with 8%nat. cbn [Nat.eqb].
  rewrite (idx_seg _ 0 0 t) by reflexivity. rewrite bind_ok.
  rewrite (idx_seg _ 1 1 s) by reflexivity. rewrite bind_ok.
  rewrite (rslice_seg _ 2 2 4 (be_bytes 2 a)) by reflexivity. rewrite bind_ok, getn_u16_exact, bind_ok by exact H3.
  rewrite (rslice_seg _ 3 4 8 (be_bytes 4 b)) by reflexivity. rewrite bind_ok, getn_u32_exact, bind_ok by exact H4.
  reflexivity.
Qed.
Lemma ext_decode_flat v : Forall ecomm_wf v -> ext_decode (flat_map ecomm_wire v) = Ok (bset_of ecomm_cmp v).
Proof.
  intros H. rewrite Forall_forall in H. unfold ext_decode. rewrite (win_loop_all 8 ecomm_decode ecomm_wire); [reflexivity|lia|].
  intros x Hx. split; [reflexivity|apply ecomm_decode_wire, H, Hx].
Qed.
Lemma of_mode_wf m a : of_mode m a -> ip_wf a.
Proof. destruct m, a; cbn; auto; contradiction. Qed.
Lemma cluster_decode_wire p v : Forall (of_mode (sp_mode p)) v -> cluster_decode p (flat_map ip_bytes v) = Ok v.
Proof.
  intros H. rewrite Forall_forall in H. unfold cluster_decode. apply win_loop_all; [destruct (sp_mode p); lia|].
  intros x Hx. specialize (H x Hx). split.
  - destruct (sp_mode p), x; try contradiction; reflexivity.
  - now apply decode_addr_be, of_mode_wf with (sp_mode p).
Qed.
Lemma nexthop_decode_wire p a : of_mode (sp_mode p) a -> nexthop_decode p (ip_bytes a) = Ok a.
Proof.
  intros H. unfold nexthop_decode. destruct (sp_mode p), a as [a|a]; cbn [of_mode ip_bytes] in *; try contradiction; rewrite length_be_bytes; cbn [Nat.leb].
  - rewrite <- (app_nil_r (be_bytes 4 a)). now rewrite decode_addrv4_be.
  - rewrite <- (app_nil_r (be_bytes 16 a)). now rewrite decode_addrv6_be.
Qed.
Lemma originator_decode_wire p a : of_mode (sp_mode p) a -> originator_decode p (ip_bytes a) = Ok a.
Proof.
  intros H. apply of_mode_wf in H as W. apply decode_addr_be in W. unfold originator_decode.
  destruct (sp_mode p), a as [a|a]; cbn [of_mode] in *; try contradiction.
  - rewrite <- (app_nil_r (ip_bytes (IPv4 a))). rewrite rslice_head by reflexivity. exact W.
  - change (Nat.ltb (length (ip_bytes (IPv6 a))) 16) with false. cbv iota.
    rewrite <- (app_nil_r (ip_bytes (IPv6 a))). rewrite rslice_head by reflexivity. exact W.
Qed.
Lemma atomic_decode_wire a : ip_wf a -> atomic_decode (ip_bytes a) = Ok a.
Proof. intros H. apply decode_addr_be in H. destruct a; exact H. Qed.
Lemma connector_decode_wire asn a o : asn < 2 ^ 32 -> a < 2 ^ 32 -> o < 2 ^ 32 ->
  connector_decode (be_bytes 2 1 ++ be_bytes 4 asn ++ be_bytes 4 a ++ be_bytes 4 o) = Ok (asn, a, o).
Proof.
  intros H1 H2 H3. unfold connector_decode.
  replace (be_bytes 2 1 ++ be_bytes 4 asn ++ be_bytes 4 a ++ be_bytes 4 o) with (concat [be_bytes 2 1; be_bytes 4 asn; be_bytes 4 a; be_bytes 4 o])
    by (cbn [concat]; now rewrite app_nil_r).
  change (Nat.leb 14 (length (concat [be_bytes 2 1; be_bytes 4 asn; be_bytes 4 a; be_bytes 4 o]))) with true. cbv iota.
  change (getn_u16 (concat [be_bytes 2 1; be_bytes 4 asn; be_bytes 4 a; be_bytes 4 o])) with (Ok 1). rewrite bind_ok. cbn [negb N.eqb Pos.eqb].
  rewrite (rslice_seg _ 1 2 6 (be_bytes 4 asn)) by reflexivity. rewrite bind_ok, getn_u32_exact, bind_ok by exact H1.
  rewrite (rslice_seg _ 2 6 10 (be_bytes 4 a)) by reflexivity. rewrite bind_ok. rewrite <- (app_nil_r (be_bytes 4 a)), decode_addrv4_be, bind_ok by exact H2.
  rewrite app_nil_r, (rslice_seg _ 3 10 14 (be_bytes 4 o)) by reflexivity. rewrite bind_ok. rewrite <- (app_nil_r (be_bytes 4 o)), decode_addrv4_be, bind_ok by exact H3.
  reflexivity.
Qed.
Lemma u32_decode_be v rest : v < 2 ^ 32 -> u32_decode (be_bytes 4 v ++ rest) = Ok v.
Proof. intros H. unfold u32_decode. replace (Nat.leb 4 _) with true by (symmetry; apply Nat.leb_le; rewrite app_length, length_be_bytes; lia). now apply getn_u32_be. Qed.

(** multiprotocol *)
Lemma v4rd_decode_wire rd a rest : rd_wf rd -> a < 2 ^ 32 -> v4rd_decode ((rd_wire rd ++ be_bytes 4 a) ++ rest) = Ok (rd, a, 12%nat).
Proof.
  intros H1 H2. unfold v4rd_decode. rewrite <- app_assoc.
  replace (Nat.leb 12 _) with true by (symmetry; apply Nat.leb_le; rewrite !app_length, length_rd_wire, length_be_bytes; lia).
  rewrite rslice_head by apply length_rd_wire. rewrite bind_ok, decode_rd_exact, bind_ok by exact H1.
  rewrite rslice_ok by (rewrite ?app_length, ?length_rd_wire, ?length_be_bytes; lia). rewrite bind_ok, sub_app_exact by (rewrite ?length_rd_wire, ?length_be_bytes; reflexivity).
  change (be_bytes 4 a) with (ip_bytes (IPv4 a)). rewrite decode_addr_be by exact H2. reflexivity.
Qed.
Lemma v6rd_decode_wire rd a rest : rd_wf rd -> a < 2 ^ 128 -> v6rd_decode ((rd_wire rd ++ be_bytes 16 a) ++ rest) = Ok (rd, a, 24%nat).
Proof.
  intros H1 H2. unfold v6rd_decode. rewrite <- app_assoc.
  replace (Nat.leb 24 _) with true by (symmetry; apply Nat.leb_le; rewrite !app_length, length_rd_wire, length_be_bytes; lia).
  rewrite rslice_head by apply length_rd_wire. rewrite bind_ok, decode_rd_exact, bind_ok by exact H1.
  rewrite rslice_ok by (rewrite ?app_length, ?length_rd_wire, ?length_be_bytes; lia). rewrite bind_ok, sub_app_exact by (rewrite ?length_rd_wire, ?length_be_bytes; reflexivity).
  change (be_bytes 16 a) with (ip_bytes (IPv6 a)). rewrite decode_addr_be by exact H2. reflexivity.
Qed.
Lemma mp_nexthop_wire a nh h rest : nexthop_ok a nh -> length h = 4%nat ->
  mp_nexthop (fst (get_afi_safi a)) (snd (get_afi_safi a)) (length (bgpaddr_wire nh)) (h ++ bgpaddr_wire nh ++ rest) =
  Ok (nh, (4 + length (bgpaddr_wire nh))%nat).
Proof.
  intros (Hw & H) Hh.
  assert (SL : rslice (h ++ bgpaddr_wire nh ++ rest) 4 (4 + length (bgpaddr_wire nh)) = Ok (bgpaddr_wire nh)).
  { rewrite rslice_ok by (rewrite ?app_length; lia). f_equal. apply sub_app_exact; lia. }
  assert (SF : rfrom (h ++ bgpaddr_wire nh ++ rest) 4 = Ok (bgpaddr_wire nh ++ rest)).
  { rewrite rfrom_ok by (rewrite ?app_length; lia). f_equal. now apply skipn_app_exact. }
  unfold mp_nexthop.
  destruct a, nh; cbn [get_afi_safi fst snd] in *; try contradiction; cbn [N.eqb Pos.eqb orb]; cbn [bgpaddr_wf] in Hw.
  all: rewrite ?SL, ?SF, ?bind_ok; cbn [bgpaddr_wire].
  all: first
   [ rewrite <- (app_nil_r (be_bytes 4 _)), decode_addrv4_be, app_nil_r by exact Hw; reflexivity
   | rewrite <- (app_nil_r (be_bytes 16 _)), decode_addrv6_be, app_nil_r by exact Hw; reflexivity
   | rewrite v4rd_decode_wire by apply Hw; rewrite app_length, length_rd_wire, length_be_bytes; reflexivity
   | rewrite v6rd_decode_wire by apply Hw; rewrite app_length, length_rd_wire, length_be_bytes; reflexivity
   | rewrite decode_addrv4_be by exact Hw; reflexivity ].
Qed.
Lemma afi_small a : fst (get_afi_safi a) < 65536.
Proof. destruct a; reflexivity. Qed.
Lemma session_pathid p a : session_form p a -> pathid_form p a.
Proof. exact (fun H => H). Qed.
Lemma mpupdates_decode_wire oc p nh a : addrs_wf a -> nexthop_ok a nh -> session_form p a ->
  mpupdates_decode oc p (mp_reach_wire nh a) = Ok (nh, addrs_trunc a).
Proof.
  intros Ha Hn Hs. unfold mpupdates_decode, mp_reach_wire. set (afi := fst (get_afi_safi a)) in *. set (sf := snd (get_afi_safi a)) in *.
  pose proof (nexthop_len nh) as Hl. set (w := bgpaddr_wire nh) in *.
  rewrite getn_u16_be by apply afi_small. rewrite bind_ok.
  replace (be_bytes 2 afi ++ [sf] ++ [N.of_nat (length w)] ++ w ++ [0] ++ addrs_wire a) with
    (concat [be_bytes 2 afi; [sf]; [N.of_nat (length w)]; w; [0]; addrs_wire a]) by (cbn [concat]; now rewrite app_nil_r).
  rewrite (idx_seg _ 1 2 sf) by reflexivity. rewrite bind_ok.
  rewrite (idx_seg _ 2 3 (N.of_nat (length w))) by reflexivity. rewrite bind_ok, Nat2N.id.
  replace (concat [be_bytes 2 afi; [sf]; [N.of_nat (length w)]; w; [0]; addrs_wire a]) with
    ((be_bytes 2 afi ++ [sf] ++ [N.of_nat (length w)]) ++ w ++ [0] ++ addrs_wire a) at 1 by (cbn [concat]; rewrite app_nil_r, <- !app_assoc; reflexivity).
  unfold w at 1 3, afi at 1, sf at 1. rewrite mp_nexthop_wire by (auto; reflexivity). rewrite bind_ok. fold w.
  rewrite (idx_seg _ 4 (4 + length w) 0) by (try reflexivity; cbn [concat firstn]; rewrite !app_length, length_be_bytes; cbn [length]; lia).
  rewrite bind_ok. cbn [N.to_nat snpa_skip]. rewrite bind_ok.
  rewrite (rfrom_seg _ 5 (4 + length w + 1)) by (cbn [concat firstn]; rewrite !app_length, length_be_bytes; cbn [length]; lia).
  rewrite bind_ok. cbn [skipn concat]. rewrite app_nil_r. unfold afi, sf. rewrite addrs_decode_wire by (auto using session_pathid). reflexivity.
Qed.
Lemma mpwithdraws_decode_wire oc p a : addrs_wf a -> session_form p a -> mpwithdraws_decode oc p (mp_unreach_wire a) = Ok (addrs_trunc a).
Proof.
  intros Ha Hs. unfold mpwithdraws_decode, mp_unreach_wire. set (afi := fst (get_afi_safi a)) in *. set (sf := snd (get_afi_safi a)) in *.
  rewrite getn_u16_be by apply afi_small. rewrite bind_ok.
  replace (be_bytes 2 afi ++ [sf] ++ addrs_wire a) with (concat [be_bytes 2 afi; [sf]; addrs_wire a]) by (cbn [concat]; now rewrite app_nil_r).
  rewrite (idx_seg _ 1 2 sf) by reflexivity. rewrite bind_ok.
  rewrite (rfrom_seg _ 2 3) by reflexivity. rewrite bind_ok. cbn [skipn concat]. rewrite app_nil_r.
  unfold afi, sf. rewrite addrs_decode_wire by (auto using session_pathid). reflexivity.
Qed.

Lemma known_not tc k : ~ In tc known_codes -> In k known_codes -> (tc =? k) = false.
Proof. intros H K. apply N.eqb_neq. intros ->. auto. Qed.
Lemma attr_decode_unknown fuel oc p tc f n buf : ~ In tc known_codes ->
  attr_decode_n (S fuel) oc p tc f n buf = unknown_decode tc f n buf.
Proof.
  intros H. cbn [attr_decode_n].
  rewrite !(known_not tc) by (auto; cbn [known_codes In]; tauto). reflexivity.
Qed.
Lemma attr_decode_wire oc p a : attr_wf p a -> attr_rt p a ->
  attr_decode oc p (attr_code a) (attr_flags a) (length (attr_wire p a)) (attr_wire p a) = Ok (attr_trunc a).
Proof.
  intros H R. unfold attr_decode.
  destruct a; cbn [attr_wf attr_rt attr_code attr_flags attr_params snd attr_trunc] in *; try contradiction.
  1-14: cbn [attr_decode_n N.eqb Pos.eqb]; cbn [attr_wire].
  - destruct o; reflexivity.
  - now rewrite aspath_decode_wire.
  - now rewrite nexthop_decode_wire.
  - rewrite <- (app_nil_r (be_bytes 4 v)), u32_decode_be by exact H. reflexivity.
  - rewrite <- (app_nil_r (be_bytes 4 v)), u32_decode_be by exact H. reflexivity.
  - now rewrite atomic_decode_wire.
  - rewrite community_decode_flat by apply H. rewrite bind_ok, bset_of_ascending; [reflexivity|apply N_laws|apply H].
  - now rewrite originator_decode_wire.
  - now rewrite cluster_decode_wire.
  - rewrite mpupdates_decode_wire by apply H || apply R. reflexivity.
  - now rewrite mpwithdraws_decode_wire.
  - rewrite ext_decode_flat by apply H. rewrite bind_ok, bset_of_ascending; [reflexivity|apply ecomm_laws|apply H].
  - rewrite large_decode_flat by apply H. rewrite bind_ok, bset_of_ascending; [reflexivity|apply lcomm_laws|apply H].
  - rewrite connector_decode_wire by apply H. reflexivity.
  - rewrite attr_decode_unknown by apply H. unfold unknown_decode. cbn [attr_wire].
    pose proof (rslice_head v [] (length v) eq_refl) as E. rewrite app_nil_r in E. now rewrite E.
Qed.
