(** Proofs about path attributes: termination, panics, and where the round trip fails. *)
From Verif Require Import Base BaseFacts M_Util S_Wire F_Util M_Prefix M_Nlri S_Nlri F_Nlri M_Vpls S_Vpls F_Lay F_Vpls
  M_Mvpn S_Mvpn F_Mvpn M_Cap M_Open M_Session M_Addrs S_Addrs F_Fuel F_Addrs M_Attr S_Attr F_Attr.
Ltac Zify.zify_post_hook ::= idtac.

(** ** Termination *)
Lemma nf_win {A} k (dec : list N -> res A) : (0 < k)%nat -> (forall b, nf (dec b)) ->
  forall fuel buf pos, (length buf - pos < fuel)%nat -> nf (win_loop k dec fuel buf pos).
Proof.
  intros Hk Hd. induction fuel as [|fuel IH]; intros buf pos Hf; [lia|]. cbn [win_loop].
  destruct (Nat.leb_spec (pos + k) (length buf)); [|nf1].
  apply nf_bind; [nf1|intros s]. apply nf_bind; [apply Hd|intros x]. apply nf_bind; [apply IH; lia|intros; nf1].
Qed.
Lemma nf_dec_loop {T} (step : list N -> res (T * nat)) fuel buf pos :
  (forall b x n, step b = Ok (x, n) -> (1 <= n)%nat) -> (forall b, nf (step b)) -> (length buf - pos < fuel)%nat ->
  nf (dec_loop step fuel buf pos).
Proof. intros H1 H2 H3. apply dec_loop_fuel; auto. Qed.
Lemma nf_aspath p buf : nf (aspath_decode p buf).
Proof.
  unfold aspath_decode. destruct (Nat.ltb _ _); [nf1|]. apply nf_bind; [|intros [? ?]; nf1].
  apply nf_dec_loop.
  - intros b x n. unfold as_step. destruct (sp_as32 p); intros H; do 2 binv H; injection H as _ <-; lia.
  - intros b. unfold as_step. nfx fail.
  - lia.
Qed.
Lemma nf_community buf : nf (community_decode buf).
Proof.
  unfold community_decode. apply nf_bind; [|intros [? ?]; nf1]. apply nf_dec_loop; [| |lia].
  - intros b x n. unfold comm_step. intros H. binv H. destruct (Nat.eqb _ _); [|discriminate]. binv H. injection H as _ <-. lia.
  - intros b. unfold comm_step. nfx fail.
Qed.
Lemma nf_large buf : nf (large_decode buf).
Proof.
  unfold large_decode. apply nf_bind; [|intros [? ?]; nf1]. apply nf_dec_loop; [| |lia].
  - intros b x n. unfold lcomm_step. intros H. binv H. destruct (Nat.eqb _ _); [|discriminate]. do 6 binv H. injection H as _ <-. lia.
  - intros b. unfold lcomm_step. nfx fail.
Qed.
Lemma nf_snpa count : forall buf pos, nf (snpa_skip count buf pos).
Proof. induction count as [|c IH]; intros buf pos; cbn [snpa_skip]; [nf1|]. apply nf_bind; [nf1|intros; apply IH]. Qed.
Lemma nf_mpupdates oc p buf : nf (mpupdates_decode oc p buf).
Proof.
  unfold mpupdates_decode.
  apply nf_bind; [nf1|intros afi]. apply nf_bind; [nf1|intros sf]. apply nf_bind; [nf1|intros nhl].
  apply nf_bind; [unfold mp_nexthop, v4rd_decode, v6rd_decode; nfx fail|intros [nh cur]].
  apply nf_bind; [nf1|intros c]. apply nf_bind; [apply nf_snpa|intros q]. apply nf_bind; [nf1|intros s].
  apply nf_bind; [apply addrs_decode_nf|intros [? ?]; nf1].
Qed.
Lemma nf_mpwithdraws oc p buf : nf (mpwithdraws_decode oc p buf).
Proof.
  unfold mpwithdraws_decode. apply nf_bind; [nf1|intros afi]. apply nf_bind; [nf1|intros sf]. apply nf_bind; [nf1|intros s].
  apply nf_bind; [apply addrs_decode_nf|intros [? ?]; nf1].
Qed.
Lemma nf_pmsi oc buf : nf (pmsi_decode oc buf).
Proof. unfold pmsi_decode, pmsi_tunnel, ip4_at. nfx fail. Qed.
Lemma nf_attrset dec p buf : (forall tc f n b, (length b < length buf)%nat -> nf (dec tc f n b)) -> nf (attrset_decode dec p buf).
Proof.
  intros Hd. unfold attrset_decode. destruct (negb _); [nf1|]. destruct (Nat.ltb_spec (length buf) 4); [nf1|].
  apply nf_bind; [|intros; apply nf_bind; [nf1|intros; nf1]].
  assert (G : forall fuel pos, (length buf - pos < fuel)%nat -> nf (attrset_loop dec fuel buf pos)).
  { induction fuel as [|fuel IH]; intros pos Hf; [lia|]. cbn [attrset_loop].
    destruct (Nat.ltb_spec pos (length buf)); [|nf1].
    apply nf_bind; [nf1|intros f]. apply nf_bind; [nf1|intros tc].
    apply nf_bind_ok; [nfx fail|]. intros [al cur] E.
    assert (C : (pos + 3 <= cur)%nat).
    { destruct (0 <? N.land f 16); repeat binv E; injection E as _ <-; lia. }
    destruct (Nat.ltb_spec (length buf) (cur + al)); [nf1|].
    apply nf_bind_ok; [nf1|]. intros s Hs. apply rslice_Ok_inv in Hs as (S1 & S2 & ->).
    apply nf_bind; [apply Hd; rewrite length_sub; lia|intros a]. apply nf_bind; [apply IH; lia|intros; nf1]. }
  apply G. lia.
Qed.
Lemma nf_attr fuel : forall oc p tc f n buf, (length buf < fuel)%nat -> nf (attr_decode_n fuel oc p tc f n buf).
Proof.
  induction fuel as [|fuel IH]; intros oc p tc f n buf H; [lia|]. cbn [attr_decode_n].
  repeat match goal with |- nf (if ?c then _ else _) => destruct c end.
  all: try (apply nf_bind; [|intros; try match goal with x : (_ * _)%type |- _ => destruct x end; try match goal with x : (_ * _)%type |- _ => destruct x end; nf1]).
  - unfold origin_decode. nfs.
  - apply nf_aspath.
  - unfold nexthop_decode. nfs.
  - unfold u32_decode. nfs.
  - unfold u32_decode. nfs.
  - unfold atomic_decode. nfx fail.
  - unfold aggregator_decode. nfs.
  - apply nf_community.
  - unfold originator_decode. nfx fail.
  - unfold cluster_decode. apply nf_win; [destruct (sp_mode p); lia|intros; apply nf_addr|lia].
  - apply nf_mpupdates.
  - apply nf_mpwithdraws.
  - unfold ext_decode. apply nf_bind; [|intros; nf1]. apply nf_win; [lia| |lia]. intros b. unfold ecomm_decode. nfs.
  - apply nf_pmsi.
  - unfold connector_decode. nfs.
  - apply nf_large.
  - apply nf_attrset. intros. apply IH. lia.
  - unfold unknown_decode. nfs.
Qed.
Lemma attr_decode_nf oc p tc f n buf : attr_decode oc p tc f n buf <> OutOfFuel.
Proof. change (nf (attr_decode oc p tc f n buf)). unfold attr_decode. apply nf_attr. apply Nat.lt_succ_diag_r. Qed.

(** ** Panics *)
Definition np {A} (r : res A) : Prop := r <> Panic.
Lemma np_bind {A B} (x : res A) (f : A -> res B) : np x -> (forall a, x = Ok a -> np (f a)) -> np (bind x f).
Proof. intros Hx Hf. destruct x; cbn [bind]; [apply Hf; reflexivity|discriminate|exfalso; now apply Hx|discriminate]. Qed.
Lemma np_ok {A} (a : A) : np (Ok a). Proof. discriminate. Qed.
Lemma np_err {A} e : np (@Err A e). Proof. discriminate. Qed.
Lemma np_idx {A} (l : list A) i : (i < length l)%nat -> np (idx l i).
Proof. intros H. destruct (idx_ok l i H) as (x & E & _). rewrite E. discriminate. Qed.
Lemma np_rslice {A} (l : list A) a b : (a <= b)%nat -> (b <= length l)%nat -> np (rslice l a b).
Proof. intros H1 H2. rewrite rslice_ok by auto. discriminate. Qed.
Lemma np_rfrom {A} (l : list A) a : (a <= length l)%nat -> np (rfrom l a).
Proof. intros H. rewrite rfrom_ok by auto. discriminate. Qed.
Lemma np_u16 l : (2 <= length l)%nat -> np (getn_u16 l).
Proof. intros H. unfold getn_u16. apply np_bind; [apply np_idx; lia|intros]. apply np_bind; [apply np_idx; lia|discriminate]. Qed.
Lemma np_u32 l : (4 <= length l)%nat -> np (getn_u32 l).
Proof. intros H. unfold getn_u32. do 4 (apply np_bind; [apply np_idx; lia|intros]). discriminate. Qed.
Lemma np_v4 l : np (decode_addrv4_from l).
Proof.
  unfold decode_addrv4_from. destruct (Nat.ltb_spec (length l) 4); [discriminate|].
  do 4 (apply np_bind; [apply np_idx; lia|intros]). discriminate.
Qed.
Lemma np_v6 l : np (decode_addrv6_from l).
Proof.
  unfold decode_addrv6_from. destruct (Nat.ltb_spec (length l) 16); [discriminate|].
  do 8 (apply np_bind; [apply np_rslice; lia|intros ? E; apply rslice_Ok_inv in E as (? & ? & ->)]; apply np_bind; [apply np_u16; rewrite length_sub; lia|intros ? _]).
  discriminate.
Qed.
Lemma np_addr l : np (decode_addr_from l).
Proof.
  unfold decode_addr_from.
  repeat match goal with |- np (match ?x with _ => _ end) => destruct x end; try discriminate.
  all: apply np_bind; [first [apply np_v4|apply np_v6]|discriminate].
Qed.
Ltac np1 := first [apply np_ok|apply np_err|apply np_v4|apply np_v6|apply np_addr|apply np_idx; lia|apply np_rslice; lia|apply np_rfrom; lia
  |apply np_u16; rewrite ?length_sub; lia|apply np_u32; rewrite ?length_sub; lia].
Ltac npb := apply np_bind; [np1|let E := fresh in intros ? E; try (apply rslice_Ok_inv in E as (? & ? & ->))].
Lemma np_win {A} k (dec : list N -> res A) : (forall b, length b = k -> np (dec b)) ->
  forall fuel buf pos, np (win_loop k dec fuel buf pos).
Proof.
  intros Hd. induction fuel as [|fuel IH]; intros buf pos; [discriminate|]. cbn [win_loop].
  destruct (Nat.leb_spec (pos + k) (length buf)); [|np1]. npb.
  apply np_bind; [apply Hd; rewrite length_sub; lia|intros]. apply np_bind; [apply IH|intros; np1].
Qed.
Lemma np_aspath p buf : np (aspath_decode p buf).
Proof.
  unfold aspath_decode. destruct (Nat.ltb _ _); [np1|]. apply np_bind; [|intros [? ?] _; np1].
  set (k := as_octets p).
  assert (Hk : (0 < k)%nat) by (unfold k, as_octets; destruct (sp_as32 p); lia).
  assert (G : forall fuel pos, (pos <= length buf)%nat -> Nat.modulo (length buf - pos) k = 0%nat -> np (dec_loop (as_step (sp_as32 p)) fuel buf pos)).
  { induction fuel as [|fuel IH]; intros pos Hp Hm; [discriminate|].
    destruct (Nat.ltb_spec pos (length buf)) as [Hl|Hl]; [|rewrite dec_loop_end by lia; discriminate].
    rewrite dec_loop_step by lia.
    assert (LK : (k <= length buf - pos)%nat).
    { destruct (Nat.lt_ge_cases (length buf - pos) k) as [Hs|Hs]; [|exact Hs]. rewrite Nat.mod_small in Hm by exact Hs. lia. }
    assert (S1 : exists x, as_step (sp_as32 p) (skipn pos buf) = Ok (x, k)).
    { unfold as_step, k, as_octets in *. destruct (sp_as32 p).
      - rewrite rslice_ok by (rewrite ?skipn_length; lia). rewrite bind_ok.
        destruct (getn_u32_cases (sub (skipn pos buf) 0 4)) as [(v & -> & _)|(_ & L)]; [now exists v|]. rewrite length_sub in L; rewrite ?skipn_length in *; lia.
      - rewrite rslice_ok by (rewrite ?skipn_length; lia). rewrite bind_ok.
        destruct (getn_u16_cases (sub (skipn pos buf) 0 2)) as [(v & -> & _)|(_ & L)]; [now exists v|]. rewrite length_sub in L; rewrite ?skipn_length in *; lia. }
    destruct S1 as [x ->]. rewrite bind_ok. apply np_bind; [|intros [? ?] _; np1]. apply IH; [lia|].
    replace (length buf - pos)%nat with (length buf - (pos + k) + 1 * k)%nat in Hm by lia. rewrite Nat.mod_add in Hm by lia. exact Hm. }
  assert (E : (if sp_as32 p then Nat.modulo (length buf) 4 else Nat.modulo (length buf) 2) = Nat.modulo (length buf) k)
    by (unfold k, as_octets; now destruct (sp_as32 p)).
  rewrite E. apply G.
  - apply Nat.mod_le. lia.
  - rewrite (Nat.div_mod (length buf) k) at 1 by lia.
    rewrite Nat.add_sub, Nat.mul_comm.
    apply Nat.mod_mul. lia.
Qed.
Lemma attr_decode_np oc p tc f buf : ~ In tc panicky -> np (attr_decode oc p tc f (length buf) buf).
Proof.
  intros H. unfold attr_decode. cbn [attr_decode_n].
  assert (K : forall k, In k panicky -> (tc =? k) = false) by (intros k Hk; apply N.eqb_neq; now intros ->).
  rewrite (K 8), (K 9), (K 14), (K 15), (K 22), (K 32), (K 128) by (cbn [panicky In]; tauto).
  repeat match goal with |- np (if ?c then _ else _) => destruct c end.
  all: try (apply np_bind; [|intros; try match goal with x : (_ * _)%type |- _ => destruct x end; try match goal with x : (_ * _)%type |- _ => destruct x end; np1]).
  - unfold origin_decode. destruct buf; [np1|]. repeat match goal with |- np (if ?c then _ else _) => destruct c end; np1.
  - apply np_aspath.
  - unfold nexthop_decode. destruct (sp_mode p), (Nat.leb _ _); try np1; npb; np1.
  - unfold u32_decode. destruct (Nat.leb_spec 4 (length buf)); np1.
  - unfold u32_decode. destruct (Nat.leb_spec 4 (length buf)); np1.
  - unfold atomic_decode. destruct buf; np1.
  - unfold aggregator_decode. destruct (Nat.eqb_spec (length buf) 8); [repeat npb; np1|]. destruct (Nat.eqb_spec (length buf) 6); [repeat npb; np1|np1].
  - unfold cluster_decode. apply np_win. intros; np1.
  - unfold ext_decode. apply np_bind; [|intros; np1]. apply np_win. intros b Hb. unfold ecomm_decode. rewrite Hb. cbn [Nat.eqb]. repeat npb. np1.
  - unfold connector_decode. destruct (Nat.leb_spec 14 (length buf)); [|np1]. npb. destruct (negb _); [np1|]. repeat npb. np1.
  - np1.
Qed.

Lemma fixed_loop {T} (step : list N -> res (T * nat)) k buf : (0 < k)%nat ->
  (forall b, (0 < length b < k)%nat -> step b = Panic) -> (forall b, (k <= length b)%nat -> exists x, step b = Ok (x, k)) ->
  forall fuel pos, (length buf - pos < fuel)%nat -> (pos <= length buf)%nat ->
  if Nat.eqb (Nat.modulo (length buf - pos) k) 0 then exists v, dec_loop step fuel buf pos = Ok (v, length buf)
  else dec_loop step fuel buf pos = Panic.
Proof.
  intros Hk Hs Ho. induction fuel as [|fuel IH]; intros pos Hf Hp; [lia|].
  destruct (Nat.ltb_spec pos (length buf)) as [Hl|Hl].
  2: { replace (length buf - pos)%nat with 0%nat by lia. rewrite Nat.mod_0_l by lia. cbn [Nat.eqb]. exists []. rewrite dec_loop_end by lia. do 2 f_equal. lia. }
  rewrite dec_loop_step by lia.
  destruct (Nat.lt_ge_cases (length buf - pos) k) as [Hlt|Hge].
  - rewrite Hs by (rewrite skipn_length; lia). rewrite Nat.mod_small by lia. destruct (Nat.eqb_spec (length buf - pos) 0); [lia|reflexivity].
  - destruct (Ho (skipn pos buf) ltac:(rewrite skipn_length; lia)) as [x ->]. rewrite bind_ok.
    specialize (IH (pos + k)%nat ltac:(lia) ltac:(lia)).
    replace (length buf - pos)%nat with (length buf - (pos + k) + 1 * k)%nat by lia. rewrite Nat.mod_add by lia.
    destruct (Nat.eqb _ 0).
    + destruct IH as [v ->]. now exists (x :: v).
    + now rewrite IH.
Qed.
Lemma comm_step_short b : (0 < length b < 4)%nat -> comm_step b = Panic.
Proof. intros H. unfold comm_step, rslice. replace (Nat.leb 4 (length b)) with false by (symmetry; apply Nat.leb_gt; lia). now rewrite andb_false_r. Qed.
Lemma comm_step_long b : (4 <= length b)%nat -> exists x, comm_step b = Ok (x, 4%nat).
Proof.
  intros H. unfold comm_step. rewrite rslice_ok by lia. rewrite bind_ok. assert (L : length (sub b 0 4) = 4%nat) by (rewrite length_sub; lia).
  rewrite L. cbn [Nat.eqb]. destruct (getn_u32_cases (sub b 0 4)) as [(v & -> & _)|(_ & G)]; [now exists v|lia].
Qed.
Lemma lcomm_step_short b : (0 < length b < 12)%nat -> lcomm_step b = Panic.
Proof. intros H. unfold lcomm_step, rslice. replace (Nat.leb 12 (length b)) with false by (symmetry; apply Nat.leb_gt; lia). now rewrite andb_false_r. Qed.
Lemma lcomm_step_long b : (12 <= length b)%nat -> exists x, lcomm_step b = Ok (x, 12%nat).
Proof.
  intros H. unfold lcomm_step. rewrite rslice_ok by lia. rewrite bind_ok. assert (L : length (sub b 0 12) = 12%nat) by (rewrite length_sub; lia).
  rewrite L. cbn [Nat.eqb]. set (s := sub b 0 12) in *.
  assert (U : forall i j, (i + 4 = j)%nat -> (j <= 12)%nat -> exists v, getn_u32 (sub s i j) = Ok v).
  { intros i j Hi Hj. destruct (getn_u32_cases (sub s i j)) as [(v & -> & _)|(_ & G)]; [now exists v|]. rewrite length_sub in G; lia. }
  destruct (U 0%nat 4%nat eq_refl ltac:(lia)) as [v0 E0], (U 4%nat 8%nat eq_refl ltac:(lia)) as [v1 E1], (U 8%nat 12%nat eq_refl ltac:(lia)) as [v2 E2].
  exists (mkLC v0 v1 v2). rewrite (rslice_ok s 0 4), bind_ok, E0, bind_ok by lia. rewrite (rslice_ok s 4 8), bind_ok, E1, bind_ok by lia.
  rewrite (rslice_ok s 8 12), bind_ok, E2, bind_ok by lia. reflexivity.
Qed.
(** standard and large communities: exact *)
Lemma community_exact buf : if Nat.eqb (Nat.modulo (length buf) 4) 0 then exists v, community_decode buf = Ok v else community_decode buf = Panic.
Proof.
  unfold community_decode.
  pose proof (fixed_loop comm_step 4 buf ltac:(lia) comm_step_short comm_step_long (S (length buf)) 0 ltac:(lia) ltac:(lia)) as G.
  rewrite Nat.sub_0_r in G. destruct (Nat.eqb _ 0); [destruct G as [v ->]; eexists; reflexivity|now rewrite G].
Qed.
Lemma large_exact buf : if Nat.eqb (Nat.modulo (length buf) 12) 0 then exists v, large_decode buf = Ok v else large_decode buf = Panic.
Proof.
  unfold large_decode.
  pose proof (fixed_loop lcomm_step 12 buf ltac:(lia) lcomm_step_short lcomm_step_long (S (length buf)) 0 ltac:(lia) ltac:(lia)) as G.
  rewrite Nat.sub_0_r in G. destruct (Nat.eqb _ 0); [destruct G as [v ->]; eexists; reflexivity|now rewrite G].
Qed.
Lemma u16_short_panic l : (length l < 2)%nat -> getn_u16 l = Panic.
Proof. destruct l as [|a [|b l]]; cbn [length]; intros H; try reflexivity. lia. Qed.
Lemma attr_decode_panics oc p tc f n buf : panics_on p tc buf -> attr_decode oc p tc f n buf = Panic.
Proof.
  intros H. unfold attr_decode.
  assert (C : In tc panicky).
  { destruct (in_dec N.eq_dec tc panicky) as [C|C]; [exact C|exfalso]. unfold panics_on in H.
    repeat match type of H with match ?x with _ => _ end => destruct x end; try contradiction; apply C; cbn [panicky In]; tauto. }
  cbn [panicky In] in C. destruct C as [<-|[<-|[<-|[<-|[<-|[<-|[<-|[]]]]]]]]; cbn [panics_on] in H; cbn [attr_decode_n N.eqb Pos.eqb].
  - pose proof (community_exact buf) as G. destruct (Nat.eqb_spec (Nat.modulo (length buf) 4) 0); [contradiction|now rewrite G].
  - unfold originator_decode.
    assert (E : rslice buf 0 4 = Panic). { unfold rslice. replace (Nat.leb 4 (length buf)) with false by (symmetry; apply Nat.leb_gt; lia). now rewrite andb_false_r. }
    destruct (sp_mode p); [now rewrite E|]. replace (Nat.ltb (length buf) 16) with true by (symmetry; apply Nat.ltb_lt; lia). now rewrite E.
  - unfold mpupdates_decode. destruct buf as [|a [|b [|c [|d buf]]]]; cbn [length] in H; try reflexivity. lia.
  - unfold mpwithdraws_decode. destruct buf as [|a [|b [|c buf]]]; cbn [length] in H; try reflexivity. lia.
  - destruct H as [g ->]. destruct oc; reflexivity.
  - pose proof (large_exact buf) as G. destruct (Nat.eqb_spec (Nat.modulo (length buf) 12) 0); [contradiction|now rewrite G].
  - destruct H as [H1 H2]. unfold attrset_decode. rewrite H1. destruct buf as [|a0 [|a1 [|a2 [|a3 [|a4 [|? ?]]]]]]; try discriminate. reflexivity.
Qed.

(** ** Where the round trip fails *)
Lemma as_step2_be x rest : x < 2 ^ 16 -> as_step false (be_bytes 2 x ++ rest) = Ok (x, 2%nat).
Proof. intros H. unfold as_step. rewrite rslice_head by apply length_be_bytes. rewrite bind_ok, getn_u16_exact by exact H. reflexivity. Qed.
Lemma as_step4_be x rest : x < 2 ^ 32 -> as_step true (be_bytes 4 x ++ rest) = Ok (x, 4%nat).
Proof. intros H. unfold as_step. rewrite rslice_head by apply length_be_bytes. rewrite bind_ok, getn_u32_exact by exact H. reflexivity. Qed.
(** in a 2-octet session the segment header becomes an AS number *)
Lemma aspath2_decode p v : sp_as32 p = false -> Forall (fun x => x < 65536) v -> v <> [] ->
  aspath_decode p (aspath_wire p v) = Ok ((512 + N.of_nat (length v) mod 256) :: v).
Proof.
  intros Hp Hv Hn. unfold aspath_wire, as_octets, aspath_decode. rewrite Hp. destruct v as [|x v]; [congruence|].
  set (w := x :: v) in *. clearbody w. clear x v Hn.
  set (c := N.of_nat (length w) mod 256). assert (Hc : c < 256) by (apply N.mod_lt; lia).
  assert (E : [2; c] ++ flat_map (be_bytes 2) w = flat_map (be_bytes 2) ((512 + c) :: w)).
  { cbn [flat_map be_bytes app]. rewrite N.mul_0_r, N.pow_0_r, N.div_1_r. change (2 ^ (8 * N.of_nat 1)) with 256. cbn [app]. f_equal; [|f_equal].
    - replace (512 + c) with (c + 2 * 256) by lia. rewrite N.div_add by lia. rewrite N.div_small by exact Hc. reflexivity.
    - replace (512 + c) with (c + 2 * 256) by lia. rewrite N.mod_add by lia. now rewrite N.mod_small. }
  rewrite E. set (u := (512 + c) :: w).
  assert (Hu : Forall (fun x => x < 65536) u) by (constructor; [clear - Hc; lia|exact Hv]).
  assert (L : length (flat_map (be_bytes 2) u) = (length u * 2)%nat) by (apply length_flat_map_const; intros; apply length_be_bytes).
  rewrite L. change (length u * 2)%nat with (S (S (length w * 2))). cbn [Nat.ltb Nat.leb]. change (S (S (length w * 2))) with (length u * 2)%nat.
  rewrite Nat.mod_mul by lia.
  pose proof (dec_loop_concat (as_step false) (be_bytes 2) (fun x => x) u) as G. rewrite Forall_forall in Hu.
  specialize (G ltac:(intros y rest Hy; apply as_step2_be, Hu, Hy) ltac:(intros; rewrite length_be_bytes; lia) [] (S (length u * 2)) ltac:(rewrite L; lia)).
  cbn [app length] in G. rewrite G, bind_ok, map_id. reflexivity.
Qed.
(** in a 4-octet session a path of two segments gains an AS number *)
Lemma aspath_two p t1 n1 v1 t2 n2 v2 r : sp_as32 p = true ->
  aspath_decode p (([t1; n1] ++ flat_map (be_bytes 4) v1) ++ [t2; n2] ++ flat_map (be_bytes 4) v2) = Ok r ->
  length r = (1 + length v1 + length v2)%nat.
Proof.
  intros Hp. unfold aspath_decode. rewrite Hp. set (buf := ([t1; n1] ++ _) ++ _).
  assert (L : length buf = ((1 + length v1 + length v2) * 4)%nat).
  { unfold buf. rewrite !app_length, !(length_flat_map_const (be_bytes 4) 4) by (intros; apply length_be_bytes). cbn [length]. lia. }
  destruct (Nat.ltb_spec (length buf) 2) as [H0|H0]; [rewrite L in H0; lia|]. clear H0. rewrite L, Nat.mod_mul, <- L by lia.
  assert (G : forall fuel pos v q k, dec_loop (as_step true) fuel buf pos = Ok (v, q) -> (length buf = pos + k * 4)%nat -> length v = k).
  { induction fuel as [|fuel IH]; intros pos v q k E Hk; [discriminate|].
    destruct (Nat.ltb_spec pos (length buf)) as [Hl|Hl].
    - rewrite dec_loop_step in E by lia. apply bind_Ok_inv in E as ([x n] & E1 & E). apply bind_Ok_inv in E as ([v' q'] & E2 & E).
      injection E as <- <-. cbn [length]. unfold as_step in E1. do 2 binv E1. injection E1 as _ <-.
      destruct k as [|k]; [lia|]. f_equal. apply (IH _ _ _ k E2). lia.
    - rewrite dec_loop_end in E by lia. injection E as <- _. cbn [length]. lia. }
  intros H. apply bind_Ok_inv in H as ([v q] & E & H). injection H as <-.
  apply (G _ _ _ _ (1 + length v1 + length v2)%nat E). rewrite L. lia.
Qed.
(** AGGREGATOR: the payload written is whatever the buffer held, of a length the decoder refuses *)
Lemma aggregator_broken oc p asn a buf : (7 <= length buf)%nat ->
  exists n b, attr_encode oc p (AAggregatorAS asn a) buf = Ok (n, b) /\ n = (3 + as_octets p)%nat /\
    sub b 3 n = sub buf 3 n /\ attr_decode oc p 7 64 (n - 3) (sub b 3 n) = Err EOther.
Proof.
  intros H. rewrite attr_encode_exact. cbn [attr_flags attr_params snd]. change (len_octets 64) with 1%nat. change (len_max 64) with 255. cbn [Nat.add attr_code].
  destruct (Nat.ltb_spec (length buf) 3); [lia|]. cbn [attr_put]. unfold aggregator_encode, eret.
  set (k := if sp_as32 p then 4%nat else 2%nat). assert (Hk : (k = 4 \/ k = 2)%nat) by (unfold k; destruct (sp_as32 p); auto).
  replace (255 <? N.of_nat k) with false by (symmetry; apply N.ltb_ge; clear - Hk; lia).
  do 2 eexists. split; [reflexivity|]. split; [reflexivity|].
  assert (E : sub ([64; 7] ++ be_bytes 1 (N.of_nat k) ++ skipn 3 buf) 3 (3 + k) = sub buf 3 (3 + k)) by reflexivity.
  split; [exact E|]. cbn [Nat.add] in *. rewrite E. unfold attr_decode. cbn [attr_decode_n N.eqb Pos.eqb]. unfold aggregator_decode.
  assert (L : length (sub buf 3 (S (S (S k)))) = k) by (rewrite length_sub; lia). rewrite L.
  destruct Hk as [-> | ->]; reflexivity.
Qed.
Lemma aggregator_decode_rfc oc p f n asn a : asn < 2 ^ (8 * N.of_nat (as_octets p)) -> a < 2 ^ 32 ->
  attr_decode oc p 7 f n (attr_wire p (AAggregatorAS asn a)) = Ok (AAggregatorAS asn a).
Proof.
  intros H1 H2. unfold attr_decode. cbn [attr_decode_n N.eqb Pos.eqb attr_wire]. unfold aggregator_decode, as_octets in *. destruct (sp_as32 p).
  - rewrite app_length, !length_be_bytes. cbn [Nat.add Nat.eqb]. rewrite getn_u32_be, bind_ok by exact H1.
    rewrite <- (app_nil_r (be_bytes 4 a)). rewrite rslice_ok by (rewrite ?app_length, ?length_be_bytes; cbn [length]; lia).
    rewrite bind_ok, sub_app_exact by (rewrite ?length_be_bytes; reflexivity). rewrite <- (app_nil_r (be_bytes 4 a)), decode_addrv4_be by exact H2. reflexivity.
  - rewrite app_length, !length_be_bytes. cbn [Nat.add Nat.eqb]. rewrite getn_u16_be, bind_ok by exact H1.
    rewrite <- (app_nil_r (be_bytes 4 a)). rewrite rslice_ok by (rewrite ?app_length, ?length_be_bytes; cbn [length]; lia).
    rewrite bind_ok, sub_app_exact by (rewrite ?length_be_bytes; reflexivity). rewrite <- (app_nil_r (be_bytes 4 a)), decode_addrv4_be by exact H2. reflexivity.
Qed.
(** families and next hops whose announcements are not understood *)
Lemma mp_reach_afi oc p nh a : mpupdates_decode oc p (mp_reach_wire nh a) =
  ('(nh', cur) <- mp_nexthop (fst (get_afi_safi a)) (snd (get_afi_safi a)) (length (bgpaddr_wire nh)) (mp_reach_wire nh a) ;;
   c <- idx (mp_reach_wire nh a) cur ;; cur <- snpa_skip (N.to_nat c) (mp_reach_wire nh a) (cur + 1) ;; s <- rfrom (mp_reach_wire nh a) cur ;;
   '(a', _) <- addrs_decode oc p (fst (get_afi_safi a)) (snd (get_afi_safi a)) s ;; Ok (nh', a')).
Proof.
  unfold mpupdates_decode. unfold mp_reach_wire at 1. rewrite getn_u16_be by apply afi_small. rewrite bind_ok.
  assert (E2 : idx (mp_reach_wire nh a) 2 = Ok (snd (get_afi_safi a))) by reflexivity.
  assert (E3 : idx (mp_reach_wire nh a) 3 = Ok (N.of_nat (length (bgpaddr_wire nh)))) by reflexivity.
  rewrite E2, bind_ok, E3, bind_ok, Nat2N.id. reflexivity.
Qed.
Lemma fs6_reach_refused oc p nh v : mpupdates_decode oc p (mp_reach_wire nh (FS6U v)) = Err EOther.
Proof. rewrite mp_reach_afi. reflexivity. Qed.
Lemma fs4_reach_no_nexthop oc p v : mpupdates_decode oc p (mp_reach_wire BANone (FS4U v)) = Err EOther.
Proof. rewrite mp_reach_afi. reflexivity. Qed.
Lemma s4vpnv6_reach oc p rd a x r : get_afi_safi x = (2, 128) \/ get_afi_safi x = (2, 129) ->
  mpupdates_decode oc p (mp_reach_wire (BAV4RD rd a) x) <> Ok (BAV4RD rd a, r).
Proof.
  intros H E. rewrite mp_reach_afi in E. apply bind_Ok_inv in E as ([nh c] & E1 & E).
  do 3 binv E. apply bind_Ok_inv in E as ([? ?] & _ & E). injection E as -> _.
  unfold mp_nexthop in E1. destruct H as [H|H]; rewrite H in E1; cbn [fst snd N.eqb Pos.eqb orb] in E1; binv E1; apply bind_Ok_inv in E1 as ([[? ?] ?] & _ & E1); discriminate.
Qed.

(** flags *)
Lemma attr_class a : (forall asn ad, a <> AAggregatorAS asn ad) -> (fl_optional (attr_flags a), fl_transitive (attr_flags a)) = rfc_class a.
Proof. intros H. destruct a; try reflexivity. now destruct (H asn addr). Qed.
Lemma attr_partial a : fl_partial (attr_flags a) = true -> (exists v, a = ALargeCommunityList v) \/ (exists s v, a = AAttrSet s v) \/ (exists tc f v, a = AUnknown tc f v).
Proof. intros H. destruct a; try discriminate; [left|right; left|right; right]; eauto. Qed.

(** route targets *)
Lemma lor_cat k q y : y < 2 ^ k -> N.lor (q * 2 ^ k) y = q * 2 ^ k + y.
Proof. intros H. apply (lor_disj k); [|exact H]. apply N.mod_mul. apply N.pow_nonzero. discriminate. Qed.
Lemma rt_ipn_facts ip n : ip < 2 ^ 32 -> n < 2 ^ 16 -> exists x, rt_ipn ip n = Ok x /\ get_ipv4 x = ip /\ get_num x = n /\
  ecomm_wf x /\ ecomm_wire x = [1; 2] ++ be_bytes 4 ip ++ be_bytes 2 n.
Proof.
  intros Hi Hn. unfold rt_ipn, octets4.
  assert (E : exists b0 b1 b2 b3, be_bytes 4 ip = [b0; b1; b2; b3]) by (cbn [be_bytes]; repeat eexists).
  destruct E as (b0 & b1 & b2 & b3 & E). pose proof (be_bytes_ok 4 ip) as B. pose proof (be_val_be_bytes 4 ip Hi) as V. rewrite E in *.
  cbn [idx nth_error bind]. assert (BB : b0 < 256 /\ b1 < 256 /\ b2 < 256 /\ b3 < 256).
  { inversion B as [|? ? B0 B']; subst. inversion B' as [|? ? B1 B'']; subst. inversion B'' as [|? ? B2 B''']; subst. inversion B''' as [|? ? B3 _]; subst. now repeat split. }
  clear B. destruct BB as (B0 & B1 & B2 & B3).
  assert (EA : N.lor (cast 16 (N.shiftl b0 8)) b1 = b0 * 256 + b1).
  { unfold cast. rewrite N.shiftl_mul_pow2. change (2 ^ 8) with 256. rewrite N.mod_small by (change (2 ^ 16) with 65536; lia). apply (lor_cat 8 b0 b1). exact B1. }
  assert (EB : N.lor (N.lor (cast 32 (N.shiftl b2 24)) (cast 32 (N.shiftl b3 16))) n = b2 * 16777216 + b3 * 65536 + n).
  { unfold cast. rewrite !N.shiftl_mul_pow2. change (2 ^ 24) with 16777216. change (2 ^ 16) with 65536 in *. rewrite !N.mod_small by (change (2 ^ 32) with 4294967296; lia).
    replace (b2 * 16777216) with ((b2 * 256) * 2 ^ 16) by (change (2 ^ 16) with 65536; lia).
    replace (b3 * 65536) with (b3 * 2 ^ 16) by reflexivity.
    assert (Q : N.lor (b2 * 256 * 2 ^ 16) (b3 * 2 ^ 16) = (b2 * 256 + b3) * 2 ^ 16).
    { rewrite <- !N.shiftl_mul_pow2, <- N.shiftl_lor. f_equal. apply (lor_cat 8 b2 b3). exact B3. }
    rewrite Q. rewrite (lor_cat 16 (b2 * 256 + b3) n) by exact Hn. change (2 ^ 16) with 65536. lia. }
  rewrite EA, EB. change (2 ^ 16) with 65536 in *.
  exists (mkEC 1 2 (b0 * 256 + b1) (b2 * 16777216 + b3 * 65536 + n)). split; [reflexivity|].
  assert (ND : forall q r d, r < d -> (q * d + r) / d = q) by (intros q r d Hr; rewrite N.div_add_l by lia; rewrite N.div_small by exact Hr; lia).
  assert (NM : forall q r d, r < d -> (q * d + r) mod d = r) by (intros q r d Hr; rewrite N.add_comm, N.mod_add by lia; now apply N.mod_small).
  assert (L8 : forall z, N.land z 255 = z mod 256) by (intros z; apply (N.land_ones z 8)).
  split.
  - unfold get_ipv4. cbn [ec_a ec_b]. rewrite !N.shiftr_div_pow2, !L8. change (2 ^ 8) with 256. change (2 ^ 24) with 16777216. change (2 ^ 16) with 65536.
    replace (b2 * 16777216 + b3 * 65536 + n) with (b2 * 16777216 + (b3 * 65536 + n)) by lia. rewrite (ND b2) by lia.
    replace (b2 * 16777216 + (b3 * 65536 + n)) with ((b2 * 256 + b3) * 65536 + n) by lia. rewrite (ND (b2 * 256 + b3)) by exact Hn.
    rewrite (ND b0), (NM b0) by exact B1. rewrite (NM b2) by exact B3. rewrite !N.mod_small by assumption. exact V.
  - split; [unfold get_num; cbn [ec_b]; rewrite (N.land_ones _ 16); change (2 ^ 16) with 65536; replace (b2 * 16777216 + b3 * 65536 + n) with ((b2 * 256 + b3) * 65536 + n) by lia; now apply NM|].
    split; [repeat split; cbn [ec_type ec_subtype ec_a ec_b]; change (2 ^ 16) with 65536; change (2 ^ 32) with 4294967296; lia|].
    unfold ecomm_wire. cbn [ec_type ec_subtype ec_a ec_b app]. do 2 f_equal.
    replace (be_bytes 2 (b0 * 256 + b1)) with [b0; b1].
    + replace (be_bytes 4 (b2 * 16777216 + b3 * 65536 + n)) with ([b2; b3] ++ be_bytes 2 n); [reflexivity|].
      rewrite (be_bytes_split 2 2). change (2 ^ (8 * N.of_nat 2)) with 65536.
      replace (b2 * 16777216 + b3 * 65536 + n) with ((b2 * 256 + b3) * 65536 + n) by lia. rewrite (ND _ n 65536) by exact Hn. f_equal.
      * cbn [be_bytes]. change (2 ^ (8 * N.of_nat 1)) with 256. rewrite N.mul_0_r, N.pow_0_r, N.div_1_r. rewrite ND, NM by exact B3. now rewrite N.mod_small.
      * rewrite <- (be_bytes_mod 2 ((b2 * 256 + b3) * 65536 + n) 16) by lia. change (2 ^ 16) with 65536. now rewrite NM.
    + cbn [be_bytes]. change (2 ^ (8 * N.of_nat 1)) with 256. rewrite N.mul_0_r, N.pow_0_r, N.div_1_r. rewrite ND, NM by exact B1. now rewrite N.mod_small.
Qed.
Lemma ecomm_from_u64_wire v : v < 2 ^ 64 -> exists x, ecomm_from_u64 v = Ok x /\ ecomm_wire x = be_bytes 8 v.
Proof.
  intros H. unfold ecomm_from_u64. cbv zeta. set (w := be_bytes 8 v).
  assert (E : exists b0 b1 b2 b3 b4 b5 b6 b7, w = [b0; b1; b2; b3; b4; b5; b6; b7]) by (unfold w; cbn [be_bytes]; repeat eexists).
  destruct E as (b0 & b1 & b2 & b3 & b4 & b5 & b6 & b7 & E). assert (B : bytes_ok w) by apply be_bytes_ok.
  rewrite E in *. clear E w.
  assert (B2 : bytes_ok [b2; b3]) by (apply Forall_forall; intros x Hx; unfold bytes_ok in B; rewrite Forall_forall in B; apply B; cbn [In] in *; tauto).
  assert (B4 : bytes_ok [b4; b5; b6; b7]) by (apply Forall_forall; intros x Hx; unfold bytes_ok in B; rewrite Forall_forall in B; apply B; cbn [In] in *; tauto).
  pose proof (be_bytes_be_val _ B2) as E2. pose proof (be_bytes_be_val _ B4) as E4. cbn [length] in E2, E4.
  pose proof (getn_u16_exact _ (be_val_bound _ B2)) as G2. pose proof (getn_u32_exact _ (be_val_bound _ B4)) as G4. rewrite E2 in G2. rewrite E4 in G4.
  change (rslice [b0; b1; b2; b3; b4; b5; b6; b7] 2 4) with (Ok [b2; b3]). change (rslice [b0; b1; b2; b3; b4; b5; b6; b7] 4 8) with (Ok [b4; b5; b6; b7]).
  cbn [idx nth_error bind]. rewrite G2. cbn [bind]. rewrite G4. cbn [bind].
  eexists. split; [reflexivity|]. unfold ecomm_wire. cbn [ec_type ec_subtype ec_a ec_b]. rewrite E2, E4. reflexivity.
Qed.

(** ** Round trips *)
Lemma attr_roundtrip oc p a buf : attr_wf p a -> attr_rt p a -> N.of_nat (length (attr_wire p a)) <= len_max (attr_flags a) ->
  (length (attr_full p a) <= length buf)%nat ->
  attr_encode oc p a buf = Ok (length (attr_full p a), attr_full p a ++ skipn (length (attr_full p a)) buf) /\
  attr_decode oc p (attr_code a) (attr_flags a) (length (attr_wire p a)) (attr_wire p a) = Ok (attr_trunc a).
Proof.
  intros H R HL Hb. split; [|now apply attr_decode_wire]. pose proof (attr_encode_writes oc p a H HL) as W. apply writes_spec in W. now apply W.
Qed.
Lemma scalar_roundtrip oc p a buf : scalar a -> attr_wf p a -> N.of_nat (length (attr_wire p a)) <= len_max (attr_flags a) ->
  (length (attr_full p a) <= length buf)%nat ->
  attr_encode oc p a buf = Ok (length (attr_full p a), attr_full p a ++ skipn (length (attr_full p a)) buf) /\
  attr_decode oc p (attr_code a) (attr_flags a) (length (attr_wire p a)) (attr_wire p a) = Ok a.
Proof.
  intros HS H HL Hb. assert (R : attr_rt p a) by (destruct a; try contradiction; exact I).
  assert (T : attr_trunc a = a) by (destruct a; try contradiction; reflexivity). pose proof (attr_roundtrip oc p a buf H R HL Hb) as G. now rewrite T in G.
Qed.
Lemma scalar_fits p a : scalar a -> attr_wf p a -> (forall v, a <> AClusterList v) -> N.of_nat (length (attr_wire p a)) <= len_max (attr_flags a).
Proof.
  intros HS H HC. destruct a as [o| |a|v|v|a| | |a|v| | | | | | |asn a o| ]; try contradiction; cbn [attr_wf] in *; try (destruct (HC v eq_refl)); try discriminate.
  - destruct a; discriminate.
  - destruct a; discriminate.
  - destruct a; discriminate.
Qed.
Lemma communities_roundtrip oc p a buf : communities a -> attr_wf p a -> N.of_nat (length (attr_wire p a)) <= len_max (attr_flags a) ->
  (length (attr_full p a) <= length buf)%nat ->
  attr_encode oc p a buf = Ok (length (attr_full p a), attr_full p a ++ skipn (length (attr_full p a)) buf) /\
  attr_decode oc p (attr_code a) (attr_flags a) (length (attr_wire p a)) (attr_wire p a) = Ok a.
Proof.
  intros HS H HL Hb. assert (R : attr_rt p a) by (destruct a; try contradiction; exact I).
  assert (T : attr_trunc a = a) by (destruct a; try contradiction; reflexivity). pose proof (attr_roundtrip oc p a buf H R HL Hb) as G. now rewrite T in G.
Qed.
Lemma ascending_map {A} (cmp : A -> A -> comparison) (P : A -> Prop) (w : A -> list N) l :
  (forall x y, P x -> P y -> cmp x y = (be_val (w x) ?= be_val (w y))) -> Forall P l -> ascending cmp l ->
  ascending (fun x y => be_val x ?= be_val y) (map w l).
Proof.
  intros H HP. induction HP as [|x l Hx Hl IH]; cbn [ascending map]; [auto|]. intros (H1 & H2). split; [|auto].
  rewrite Forall_forall in *. intros y Hy. apply in_map_iff in Hy as (z & <- & Hz). rewrite <- H; auto.
Qed.
(** on the wire: the communities' octets in ascending order *)
Lemma communities_ascending p a : communities a -> attr_wf p a ->
  exists ws, attr_wire p a = concat ws /\ ascending (fun x y => be_val x ?= be_val y) ws /\
    Forall (fun w => length w = match a with ACommunityList _ => 4 | AExtCommunityList _ => 8 | _ => 12 end)%nat ws.
Proof.
  destruct a; try contradiction; intros _ (H1 & H2); cbn [attr_wire]; rewrite flat_map_concat_map; eexists; (split; [reflexivity|]); split.
  - apply (ascending_map N.compare (fun x => x < 2 ^ 32)); auto. intros x y Hx Hy. now rewrite !be_val_be_bytes.
  - apply Forall_forall. intros w Hw. apply in_map_iff in Hw as (x & <- & _). apply length_be_bytes.
  - apply (ascending_map ecomm_cmp ecomm_wf); auto. apply ecomm_cmp_num.
  - apply Forall_forall. intros w Hw. apply in_map_iff in Hw as (x & <- & _). reflexivity.
  - apply (ascending_map lcomm_cmp lcomm_wf); auto. apply lcomm_cmp_num.
  - apply Forall_forall. intros w Hw. apply in_map_iff in Hw as (x & <- & _). reflexivity.
Qed.
(** whatever the order on the wire, and with repetitions *)
Lemma community_set oc p f n v : Forall (fun x => x < 2 ^ 32) v -> exists s,
  attr_decode oc p 8 f n (flat_map (be_bytes 4) v) = Ok (ACommunityList s) /\ ascending N.compare s /\ forall x, In x s <-> In x v.
Proof.
  intros H. exists (bset_of N.compare v). split; [|apply bset_of_spec, N_laws]. unfold attr_decode. cbn [attr_decode_n N.eqb Pos.eqb]. now rewrite community_decode_flat.
Qed.
Lemma ext_set oc p f n v : Forall ecomm_wf v -> exists s,
  attr_decode oc p 16 f n (flat_map ecomm_wire v) = Ok (AExtCommunityList s) /\ ascending ecomm_cmp s /\ forall x, In x s <-> In x v.
Proof.
  intros H. exists (bset_of ecomm_cmp v). split; [|apply bset_of_spec, ecomm_laws]. unfold attr_decode. cbn [attr_decode_n N.eqb Pos.eqb]. now rewrite ext_decode_flat.
Qed.
Lemma large_set oc p f n v : Forall lcomm_wf v -> exists s,
  attr_decode oc p 32 f n (flat_map lcomm_wire v) = Ok (ALargeCommunityList s) /\ ascending lcomm_cmp s /\ forall x, In x s <-> In x v.
Proof.
  intros H. exists (bset_of lcomm_cmp v). split; [|apply bset_of_spec, lcomm_laws]. unfold attr_decode. cbn [attr_decode_n N.eqb Pos.eqb]. now rewrite large_decode_flat.
Qed.
Lemma unknown_verbatim oc p tc f body : ~ In tc known_codes -> tc < 256 -> f < 256 -> bytes_ok body -> N.of_nat (length body) <= len_max f ->
  attr_decode oc p tc f (length body) body = Ok (AUnknown tc f body) /\
  forall buf, (length (frame f tc body) <= length buf)%nat ->
    attr_encode oc p (AUnknown tc f body) buf = Ok (length (frame f tc body), frame f tc body ++ skipn (length (frame f tc body)) buf).
Proof.
  intros H1 H2 H3 H4 H5. assert (W : attr_wf p (AUnknown tc f body)) by (repeat split; assumption).
  split; [exact (attr_decode_wire oc p _ W I)|]. intros buf Hb.
  pose proof (attr_encode_writes oc p _ W H5) as G. apply writes_spec in G. now apply G.
Qed.
Lemma refused oc p a buf : attr_wf p a -> len_max (attr_flags a) < N.of_nat (length (attr_wire p a)) ->
  (length (attr_full p a) <= length buf)%nat -> attr_encode oc p a buf = Err EOther.
Proof.
  intros H HL Hb. unfold attr_full in Hb. rewrite length_frame in Hb. rewrite attr_encode_exact. cbv zeta.
  destruct (Nat.ltb_spec (length buf) (2 + len_octets (attr_flags a))); [lia|].
  pose proof (attr_put_writes oc p a H (skipn (2 + len_octets (attr_flags a)) buf)) as W. rewrite W by (rewrite skipn_length; lia).
  replace (len_max (attr_flags a) <? N.of_nat (length (attr_wire p a))) with true by (symmetry; now apply N.ltb_lt). reflexivity.
Qed.

(** AS paths *)
Lemma aspath_roundtrip oc p v buf : sp_as32 p = true -> Forall (fun x => x < 2 ^ 32) v -> (2 + 4 * length v <= N.to_nat 65535)%nat ->
  (6 + 4 * length v <= length buf)%nat ->
  attr_encode oc p (AASPath v) buf = Ok (length (attr_full p (AASPath v)), attr_full p (AASPath v) ++ skipn (length (attr_full p (AASPath v))) buf) /\
  attr_decode oc p 2 80 (length (attr_wire p (AASPath v))) (attr_wire p (AASPath v)) = Ok (AASPath v).
Proof.
  intros Hp Hv Hl Hb.
  assert (L : (length (aspath_wire p v) <= 2 + 4 * length v)%nat).
  { unfold aspath_wire, as_octets. rewrite Hp. destruct v as [|x v]; [cbn [length]; lia|]. rewrite app_length, (length_flat_map_const _ 4) by (intros; apply length_be_bytes). cbn [length]. lia. }
  apply attr_roundtrip.
  - cbn [attr_wf]. unfold as_octets. rewrite Hp. exact Hv.
  - now left.
  - cbn [attr_wire attr_flags attr_params snd]. change (len_max 80) with 65535. lia.
  - unfold attr_full. rewrite length_frame. cbn [attr_wire attr_flags attr_params snd]. change (len_octets 80) with 2%nat. lia.
Qed.
Lemma aspath2_broken oc p v buf : sp_as32 p = false -> Forall (fun x => x < 65536) v -> v <> [] -> (length v <= 255)%nat ->
  (6 + 2 * length v <= length buf)%nat ->
  attr_encode oc p (AASPath v) buf = Ok (length (attr_full p (AASPath v)), attr_full p (AASPath v) ++ skipn (length (attr_full p (AASPath v))) buf) /\
  attr_decode oc p 2 80 (length (attr_wire p (AASPath v))) (attr_wire p (AASPath v)) = Ok (AASPath ((512 + N.of_nat (length v)) :: v)).
Proof.
  intros Hp Hv Hn Hl Hb.
  assert (L : length (aspath_wire p v) = (2 + 2 * length v)%nat).
  { unfold aspath_wire, as_octets. rewrite Hp. destruct v as [|x v]; [congruence|]. rewrite app_length, (length_flat_map_const _ 2) by (intros; apply length_be_bytes). cbn [length]. lia. }
  split.
  - pose proof (attr_encode_writes oc p (AASPath v)) as W. cbn [attr_wf attr_wire attr_flags attr_params snd] in W. change (len_max 80) with 65535 in W.
    unfold as_octets in W. rewrite Hp, L in W. specialize (W Hv ltac:(lia)). apply writes_spec in W. apply W.
    unfold attr_full. rewrite length_frame. cbn [attr_wire attr_flags attr_params snd]. change (len_octets 80) with 2%nat. lia.
  - unfold attr_decode. cbn [attr_decode_n N.eqb Pos.eqb attr_wire]. rewrite aspath2_decode by assumption. rewrite bind_ok.
    rewrite N.mod_small by (clear - Hl; lia). reflexivity.
Qed.
Lemma aspath2_truncates oc p v buf : sp_as32 p = false -> attr_encode oc p (AASPath v) buf = attr_encode oc p (AASPath (map (fun x => x mod 65536) v)) buf.
Proof.
  intros Hp. rewrite !attr_encode_exact. cbn [attr_flags attr_params snd attr_code]. cbv zeta.
  assert (E : forall b, attr_put oc p (AASPath v) b = attr_put oc p (AASPath (map (fun x => x mod 65536) v)) b); [|now rewrite E].
  intros b. cbn [attr_put]. unfold aspath_encode. destruct v as [|x v]; [reflexivity|]. set (w := x :: v). change (map (fun x => x mod 65536) (x :: v)) with (map (fun x => x mod 65536) w).
  assert (NE : map (fun x => x mod 65536) w <> []) by discriminate. rewrite Hp. rewrite map_length.
  assert (G : forall u pos, as_write false u pos = as_write false (map (fun x => x mod 65536) u) pos).
  { induction u as [|y u IH]; intros pos; [reflexivity|]. cbn [as_write map].
    replace (cast 16 (y mod 65536)) with (cast 16 y). - now rewrite IH. - unfold cast. change (2 ^ 16) with 65536. rewrite N.mod_mod by lia. reflexivity. }
  rewrite (G w). destruct (map _ w); [congruence|reflexivity].
Qed.
Lemma aspath_long oc p v buf : sp_as32 p = true -> Forall (fun x => x < 2 ^ 32) v -> (255 < length v)%nat -> (2 + 4 * length v <= N.to_nat 65535)%nat ->
  (6 + 4 * length v <= length buf)%nat ->
  exists n b c, attr_encode oc p (AASPath v) buf = Ok (n, b) /\ nth_error b 4 = Some 2 /\ nth_error b 5 = Some c /\ c <> N.of_nat (length v).
Proof.
  intros Hp Hv H Hl Hb. destruct (aspath_roundtrip oc p v buf Hp Hv Hl Hb) as (E & _).
  do 2 eexists. exists (N.of_nat (length v) mod 256). split; [exact E|].
  unfold attr_full, frame. cbn [attr_wire attr_flags attr_params snd]. change (len_octets 80) with 2%nat. unfold aspath_wire. destruct v as [|x v]; [cbn [length] in H; lia|].
  split; [reflexivity|]. split; [reflexivity|]. assert (G : N.of_nat (length (x :: v)) mod 256 < 256) by (apply N.mod_lt; lia). lia.
Qed.
Lemma aspath_segments oc p f n t1 n1 v1 t2 n2 v2 r : sp_as32 p = true ->
  attr_decode oc p 2 f n (([t1; n1] ++ flat_map (be_bytes 4) v1) ++ [t2; n2] ++ flat_map (be_bytes 4) v2) = Ok (AASPath r) -> r <> v1 ++ v2.
Proof.
  intros Hp H. unfold attr_decode in H. cbn [attr_decode_n N.eqb Pos.eqb] in H. apply bind_Ok_inv in H as (x & E & H). injection H as ->.
  apply aspath_two in E; [|exact Hp]. intros ->. rewrite app_length in E. lia.
Qed.
(** multiprotocol *)
Lemma reach_roundtrip oc p nh a buf : addrs_wf a -> nexthop_ok a nh -> session_form p a -> N.of_nat (length (mp_reach_wire nh a)) <= 65535 ->
  (4 + length (mp_reach_wire nh a) <= length buf)%nat ->
  attr_encode oc p (AMPUpdates nh a) buf = Ok (length (attr_full p (AMPUpdates nh a)), attr_full p (AMPUpdates nh a) ++ skipn (length (attr_full p (AMPUpdates nh a))) buf) /\
  attr_decode oc p 14 144 (length (mp_reach_wire nh a)) (mp_reach_wire nh a) = Ok (AMPUpdates nh (addrs_trunc a)).
Proof.
  intros Ha Hn Hs Hl Hb. apply (attr_roundtrip oc p (AMPUpdates nh a)); cbn [attr_wf attr_rt]; [split; [apply Hn|exact Ha]|now split|exact Hl|].
  unfold attr_full. rewrite length_frame. cbn [attr_wire attr_flags attr_params snd]. change (len_octets 144) with 2%nat. lia.
Qed.
Lemma unreach_roundtrip oc p a buf : addrs_wf a -> session_form p a -> N.of_nat (length (mp_unreach_wire a)) <= 65535 ->
  (4 + length (mp_unreach_wire a) <= length buf)%nat ->
  attr_encode oc p (AMPWithdraws a) buf = Ok (length (attr_full p (AMPWithdraws a)), attr_full p (AMPWithdraws a) ++ skipn (length (attr_full p (AMPWithdraws a))) buf) /\
  attr_decode oc p 15 144 (length (mp_unreach_wire a)) (mp_unreach_wire a) = Ok (AMPWithdraws (addrs_trunc a)).
Proof.
  intros Ha Hs Hl Hb. apply (attr_roundtrip oc p (AMPWithdraws a)); cbn [attr_wf attr_rt]; [exact Ha|exact Hs|exact Hl|].
  unfold attr_full. rewrite length_frame. cbn [attr_wire attr_flags attr_params snd]. change (len_octets 144) with 2%nat. lia.
Qed.
Lemma attr_header oc p a buf n b : attr_encode oc p a buf = Ok (n, b) ->
  exists k rest, b = [attr_flags a; attr_code a] ++ be_bytes (len_octets (attr_flags a)) k ++ rest /\
    k <= len_max (attr_flags a) /\ N.of_nat n = 2 + N.of_nat (len_octets (attr_flags a)) + k.
Proof.
  intros H. rewrite attr_encode_exact in H. cbv zeta in H. destruct (Nat.ltb (length buf) _); [discriminate|].
  destruct (attr_put oc p a _) as [[k r]| | |] eqn:E; try discriminate. destruct (len_max (attr_flags a) <? N.of_nat k) eqn:G; [discriminate|]. apply N.ltb_ge in G.
  assert (J : forall (A : Type) (x y : A), Ok x = Ok y -> x = y) by congruence. apply J in H. apply pair_equal_spec in H as (<- & <-).
  exists (N.of_nat k), r. split; [reflexivity|]. split; [exact G|]. lia.
Qed.
Lemma ext_too_many oc p v buf : Forall ecomm_wf v -> ascending ecomm_cmp v -> (31 < length v)%nat -> (3 + 8 * length v <= length buf)%nat ->
  attr_encode oc p (AExtCommunityList v) buf = Err EOther.
Proof.
  intros H1 H2 H3 H4. assert (L : length (flat_map ecomm_wire v) = (8 * length v)%nat) by (rewrite (length_flat_map_const _ 8) by reflexivity; lia).
  apply refused; cbn [attr_wf attr_wire attr_flags attr_params snd].
  - now split.
  - change (len_max 192) with 255. rewrite L. lia.
  - unfold attr_full. rewrite length_frame. cbn [attr_wire attr_flags attr_params snd]. change (len_octets 192) with 1%nat. rewrite L. lia.
Qed.
