(** Proofs about what octets mean: FlowSpec rules; the NLRI of every family. *)
From Verif Require Import Base BaseFacts M_Util S_Wire F_Util M_Prefix S_Prefix M_Nlri S_Nlri F_Nlri F_Nlri2 M_Session M_Vpls F_Vpls M_Mvpn S_Mvpn F_Mvpn M_Evpn S_Evpn F_Evpn
  M_Flowspec S_Flowspec F_Flowspec M_Cap M_Addrs S_Addrs M_Attr S_Attr S_Attr3 F_Lay F_Attr4 S_Exact F_Exact F_Exact2 F_Exact3.
Ltac Zify.zify_post_hook ::= idtac.

(** ** FlowSpec *)
Lemma fs4_exact oc : step_exact (fs_dec (fs4 oc)) (item oc pfx4).
Proof.
  intros b x n B. cbn [fs_dec fs4]. change (fs4_dec oc b) with (decode_bgpitem_from oc v4_from_bits b). now apply item_exact; [apply pfx4_exact|].
Qed.
Lemma fsv4_exact oc : step_exact (fs_dec (fsv4 oc)) (item oc (distinguished pfx4)).
Proof.
  intros b x n B. rewrite <- (item_exact oc _ _ (distinguished_exact _ _ pfx4_exact) b x n B). cbn [fs_dec fsv4]. unfold fsv4_dec, decode_bgpitem_from, withrd_extract.
  destruct b as [|bits s]; [split; discriminate|]. rewrite idx_0, !bind_ok. change (rfrom (bits :: s) 1) with (Ok s : res (list N)). rewrite !bind_ok.
  destruct (Nat.ltb_spec (length s) 8) as [L|L].
  - split; [|discriminate]. intros H. apply bind_Ok_inv in H as ([rd k] & D & _). exfalso. assert (8 <= length s)%nat by (apply rd_need; eauto). lia.
  - apply Forall_cons_iff in B as [_ B]. destruct (take_rd s B L) as (rd & r & -> & W & Br). run. change (cast 8 (N.of_nat 8 * 8)) with 64.
    change (bits :: rd_wire rd ++ r) with ([bits] ++ rd_wire rd ++ r). cbn [Nat.add]. run.
    destruct (usub oc 8 bits 64) as [l| | |]; cbn [bind]; [|split; discriminate..]. 
    destruct (v4_from_bits oc l r) as [[y m]| | |]; cbn [bind]; [|split; discriminate..].
    split; intros H; apply Ok_inj in H; injection H as <- <-; do 2 f_equal; lia.
Qed.
Lemma fs6_exact oc : step_exact (fs_dec (fs6i oc)) (fs6_reads oc).
Proof.
  intros b x n B. cbn [fs_dec fs6i]. unfold fs6_dec, fs6_reads. destruct b as [|bits [|o s]].
  - split; [discriminate|]. intros (? & ? & ? & ? & _). discriminate.
  - split; [discriminate|]. intros (? & ? & ? & ? & _). discriminate.
  - rewrite idx_0, bind_ok, idx_1. change (rfrom (bits :: o :: s) 2) with (Ok s : res (list N)). rewrite bind_ok. 
    pose proof (Forall_inv B) as Hb. apply Forall_inv_tail, Forall_inv_tail in B. split.
    + intros H. apply bind_Ok_inv in H as ([y m] & D & H). rewrite bind_ok in H. injection H as <- <-. apply pfx6_exact in D; auto. exists bits, s, m. cbn. repeat (split; auto). lia.
    + intros (bits' & s' & m & E & P & ->). pose proof (f_equal (@hd N 0) E) as E0. pose proof (f_equal (@hd N 0) (f_equal (@tl N) E)) as E1. 
      pose proof (f_equal (@tl N) (f_equal (@tl N) E)) as E2. cbn [hd tl] in E0, E1, E2. subst bits' s'. apply pfx6_exact in P; auto. rewrite P, !bind_ok. destruct x as [ip off]. cbn in *. subst off.
      do 2 f_equal. lia.
Qed.
Lemma fs6_advances oc : advances (fs6_reads oc).
Proof. intros b x n (bits & s & m & _ & _ & ->). lia. Qed.

(** operators *)
Lemma has_bit x k : has x (2 ^ k) = N.testbit x k.
Proof.
  unfold has. replace (N.land x (2 ^ k)) with (if N.testbit x k then 2 ^ k else 0).
  - destruct (N.testbit x k); [|reflexivity]. destruct (N.eqb_spec (2 ^ k) 0) as [E|E]; [|reflexivity]. now apply N.pow_nonzero in E.
  - apply N.bits_inj. intros i. rewrite N.land_spec, N.pow2_bits_eqb. destruct (N.eqb_spec k i) as [->|H].
    + destruct (N.testbit x i) eqn:E; rewrite ?N.pow2_bits_true, ?N.bits_0; reflexivity.
    + rewrite andb_false_r. destruct (N.testbit x k); [now rewrite N.pow2_bits_false|apply N.bits_0].
Qed.
Lemma be1 x : x < 256 -> be_bytes 1 x = [x].
Proof. intros H. apply (be_bytes_be_val [x]). apply Forall_cons; [exact H|apply Forall_nil]. Qed.
Lemma oper_exact b o v n : bytes_ok b -> oper_read b = Ok (o, v, n) <-> exists k r, b = o :: be_bytes k v ++ r /\ oper_octets o k /\ v < 256 ^ N.of_nat k /\ n = S k.
Proof.
  intros B. unfold oper_read, oper_octets. destruct b as [|x s].
  { split; [discriminate|]. intros (? & ? & ? & _). discriminate. }
  rewrite idx_0, bind_ok. cbv zeta. change (rfrom (x :: s) 1) with (Ok s : res (list N)). rewrite !bind_ok.
  replace (N.land (N.shiftr x 4) 3) with ((x / 16) mod 4) by (change 3 with (N.ones 2); rewrite N.land_ones, N.shiftr_div_pow2; reflexivity).
  apply Forall_inv_tail in B.
  split.
  - intros H. destruct (N.eqb_spec ((x / 16) mod 4) 0) as [E|_]; [|destruct (N.eqb_spec ((x / 16) mod 4) 1) as [E|_]; [|destruct (N.eqb_spec ((x / 16) mod 4) 2) as [E|_]; [|discriminate]]].
    + destruct s as [|y s]; [discriminate|]. rewrite idx_1, bind_ok in H. apply Ok_inj in H; assert (x = o) by congruence; assert (Hv := f_equal (fun z => snd (fst z)) H); assert (Hn := f_equal snd H); cbn [fst snd] in Hv, Hn; subst o v n; clear H. apply Forall_inv in B. exists 1%nat, s. 
      split; [|repeat split; auto]. unfold is_byte in B. now rewrite (be1 y B).
    + apply bind_Ok_inv in H as (w & D & H). apply Ok_inj in H; assert (x = o) by congruence; assert (Hv := f_equal (fun z => snd (fst z)) H); assert (Hn := f_equal snd H); cbn [fst snd] in Hv, Hn; subst o v n; clear H. assert (L : (2 <= length s)%nat) by (unfold getn_u16 in D; apply bind_Ok_inv in D as (? & _ & D); apply bind_Ok_inv in D as (? & D & _); apply idx_lt in D; lia).
      destruct (take_be 2 s B L) as (w' & r & -> & Hw & _). rewrite getn_u16_be in D by exact Hw. apply Ok_inj in D. subst w'. exists 2%nat, r. repeat split; auto.
    + apply bind_Ok_inv in H as (w & D & H). apply Ok_inj in H; assert (x = o) by congruence; assert (Hv := f_equal (fun z => snd (fst z)) H); assert (Hn := f_equal snd H); cbn [fst snd] in Hv, Hn; subst o v n; clear H. assert (L : (4 <= length s)%nat) by (unfold getn_u32 in D; do 3 (apply bind_Ok_inv in D as (? & _ & D)); apply bind_Ok_inv in D as (? & D & _); apply idx_lt in D; lia).
      destruct (take_be 4 s B L) as (w' & r & -> & Hw & _). rewrite getn_u32_be in D by exact Hw. apply Ok_inj in D. subst w'. exists 4%nat, r. repeat split; auto.
  - intros (k & r & E & C & Hv & ->). pose proof (f_equal (@hd N 0) E) as E0. pose proof (f_equal (@tl N) E) as E1. cbn [hd tl] in E0, E1. subst o s.
    destruct C as [[C ->]|[[C ->]|[C ->]]]; rewrite C; cbn [N.eqb Pos.eqb].
    + change (256 ^ N.of_nat 1) with 256 in Hv. rewrite (be1 v Hv). cbn [app]. rewrite idx_1, bind_ok. reflexivity.
    + rewrite getn_u16_be by exact Hv. reflexivity.
    + rewrite getn_u32_be by exact Hv. reflexivity.
Qed.
Lemma val_exact : step_exact (op_dec fsvalop) val_reads.
Proof.
  intros b x n B. cbn [op_dec fsvalop]. unfold fsval_dec, val_reads.
  assert (T : forall o, has o 64 = N.testbit o 6 /\ has o 4 = N.testbit o 2 /\ has o 2 = N.testbit o 1 /\ has o 1 = N.testbit o 0).
  { intros o. split; [exact (has_bit o 6)|]. split; [exact (has_bit o 2)|]. split; [exact (has_bit o 1)|exact (has_bit o 0)]. }
  split.
  - intros H. apply bind_Ok_inv in H as ([[o v] k] & E & H). apply oper_exact in E as (w & r & -> & C & Hv & ->); [|exact B]. injection H as <- <-.
    exists o, w, r. cbn [fv_value fv_and fv_lt fv_gt fv_eq]. destruct (T o) as (-> & -> & -> & ->). repeat (split; auto).
  - intros (o & w & r & -> & C & Hv & A1 & A2 & A3 & A4 & ->). rewrite (proj2 (oper_exact _ o (fv_value x) (S w) B)) by (exists w, r; auto). rewrite bind_ok.
    destruct (T o) as (-> & -> & -> & ->). rewrite <- A1, <- A2, <- A3, <- A4. destruct x; reflexivity.
Qed.
Lemma mask_exact : step_exact (op_dec fsmaskop) mask_reads.
Proof.
  intros b x n B. cbn [op_dec fsmaskop]. unfold fsmask_dec, mask_reads.
  assert (T : forall o, has o 64 = N.testbit o 6 /\ has o 2 = N.testbit o 1 /\ has o 1 = N.testbit o 0).
  { intros o. split; [exact (has_bit o 6)|]. split; [exact (has_bit o 1)|exact (has_bit o 0)]. }
  split.
  - intros H. apply bind_Ok_inv in H as ([[o v] k] & E & H). apply oper_exact in E as (w & r & -> & C & Hv & ->); [|exact B]. injection H as <- <-.
    exists o, w, r. cbn [fm_value fm_and fm_not fm_match]. destruct (T o) as (-> & -> & ->). repeat (split; auto).
  - intros (o & w & r & -> & C & Hv & A1 & A2 & A3 & ->). rewrite (proj2 (oper_exact _ o (fm_value x) (S w) B)) by (exists w, r; auto). rewrite bind_ok.
    destruct (T o) as (-> & -> & ->). rewrite <- A1, <- A2, <- A3. destruct x; reflexivity.
Qed.
Lemma val_advances : advances val_reads.
Proof. intros b x n (o & k & r & _ & _ & _ & _ & _ & _ & _ & ->). lia. Qed.
Lemma mask_advances : advances mask_reads.
Proof. intros b x n (o & k & r & _ & _ & _ & _ & _ & _ & ->). lia. Qed.

(** the head of a rule *)
Definition fs_arms {T} (it : fsitem T) (c : N) (s : list N) (h : nat) : res (flowspec T * nat) :=
  let vec {U} (o : fsoper U) (wrap : list U -> flowspec T) := ('(r, n) <- vec_dec o s ;; Ok (wrap r, (n + h + 1)%nat)) in
  if c =? 1 then '(r, n) <- fs_dec it s ;; Ok (FsDst r, (h + 2 + n)%nat)
  else if c =? 2 then '(r, n) <- fs_dec it s ;; Ok (FsSrc r, (h + 2 + n)%nat)
  else if c =? 3 then vec fsvalop FsProto
  else if c =? 4 then vec fsvalop FsPortAny
  else if c =? 5 then vec fsvalop FsPortDst
  else if c =? 6 then vec fsvalop FsPortSrc
  else if c =? 7 then vec fsvalop FsIcmpType
  else if c =? 8 then vec fsvalop FsIcmpCode
  else if c =? 9 then vec fsmaskop FsTcpFlags
  else if c =? 10 then vec fsvalop FsPacketLength
  else if c =? 11 then vec fsvalop FsDscp
  else if c =? 12 then vec fsmaskop FsFragment
  else if c =? 13 then vec fsvalop FsFlowLabel
  else Err EOther.
Lemma land_4095 hi lo : 240 <= hi < 256 -> lo < 256 -> N.land (N.lor (N.shiftl hi 8) lo) 4095 = (hi - 240) * 256 + lo.
Proof.
  intros Hh Hl. assert (E : N.lor (N.shiftl hi 8) lo = be_val [hi; lo]). { symmetry. assert (X := getn_u16_be (be_val [hi; lo]) [] ).
    assert (B : bytes_ok [hi; lo]) by (apply Forall_cons; [unfold is_byte; lia|apply Forall_cons; [exact Hl|apply Forall_nil]]).
    assert (V := be_val_bound _ B). cbn [length] in V. change (2 ^ (8 * N.of_nat 2)) with 65536 in V. specialize (X V). rewrite app_nil_r in X. 
    assert (Y := be_bytes_be_val _ B). cbn [length] in Y. rewrite Y in X. unfold getn_u16 in X. rewrite idx_0, bind_ok, idx_1, bind_ok in X. now apply Ok_inj in X. }
  rewrite E. change 4095 with (N.ones 12). rewrite N.land_ones. change (2 ^ 12) with 4096. 
  assert (V : be_val [hi; lo] = hi * 256 + lo) by (unfold be_val; cbn [fold_left]; lia). rewrite V.
  replace (hi * 256 + lo) with ((hi - 240) * 256 + lo + 15 * 4096) by lia. rewrite N.mod_add by discriminate. apply N.mod_small. lia.
Qed.
Lemma fs_arms_at {T} (it : fsitem T) c pre s rest pos nlen : pos = length pre -> nlen = (pos + 1 + length s)%nat ->
  (let buf := pre ++ c :: s ++ rest in
  if c =? 1 then fs_arm_pfx it FsDst buf pos nlen
  else if c =? 2 then fs_arm_pfx it FsSrc buf pos nlen
  else if c =? 3 then fs_arm_vec fsvalop FsProto buf pos nlen
  else if c =? 4 then fs_arm_vec fsvalop FsPortAny buf pos nlen
  else if c =? 5 then fs_arm_vec fsvalop FsPortDst buf pos nlen
  else if c =? 6 then fs_arm_vec fsvalop FsPortSrc buf pos nlen
  else if c =? 7 then fs_arm_vec fsvalop FsIcmpType buf pos nlen
  else if c =? 8 then fs_arm_vec fsvalop FsIcmpCode buf pos nlen
  else if c =? 9 then fs_arm_vec fsmaskop FsTcpFlags buf pos nlen
  else if c =? 10 then fs_arm_vec fsvalop FsPacketLength buf pos nlen
  else if c =? 11 then fs_arm_vec fsvalop FsDscp buf pos nlen
  else if c =? 12 then fs_arm_vec fsmaskop FsFragment buf pos nlen
  else if c =? 13 then fs_arm_vec fsvalop FsFlowLabel buf pos nlen
  else Err EOther) = fs_arms it c s pos.
Proof.
  intros -> ->. cbv zeta. assert (R : rslice (pre ++ c :: s ++ rest) (length pre + 1) (length pre + 1 + length s) = Ok s).
  { rewrite (rslice_peel _ _ _ _ _ eq_refl) by lia. replace (length pre + 1 - length pre)%nat with 1%nat by lia. replace (length pre + 1 + length s - length pre)%nat with (S (length s)) by lia.
    change (c :: s ++ rest) with ([c] ++ s ++ rest). rewrite (rslice_peel [c] _ 1) by (auto; lia). cbn [Nat.sub]. rewrite Nat.sub_0_r. now apply rslice_front. }
  unfold fs_arm_pfx, fs_arm_vec, fs_arms. rewrite !R, !bind_ok. reflexivity.
Qed.
(** one rule: its length, its type, its body *)
Lemma fs_rule_in {T} (it : fsitem T) b x : bytes_ok b -> fs_decode it b = Ok x -> exists h c body, rule_reads b (c :: body) h /\ bytes_ok body /\ fs_arms it c body h = Ok x.
Proof.
  intros B H. destruct b as [|b0 s]; [discriminate|]. unfold fs_decode in H. rewrite idx_0, bind_ok in H. pose proof (Forall_inv B) as B0. unfold is_byte in B0. apply Forall_inv_tail in B.
  assert (K : forall pre c s' pos nlen r, pos = length pre -> bytes_ok s' -> (let buf := pre ++ c :: s' in 
    if c =? 1 then fs_arm_pfx it FsDst buf pos nlen
    else if c =? 2 then fs_arm_pfx it FsSrc buf pos nlen
    else if c =? 3 then fs_arm_vec fsvalop FsProto buf pos nlen
    else if c =? 4 then fs_arm_vec fsvalop FsPortAny buf pos nlen
    else if c =? 5 then fs_arm_vec fsvalop FsPortDst buf pos nlen
    else if c =? 6 then fs_arm_vec fsvalop FsPortSrc buf pos nlen
    else if c =? 7 then fs_arm_vec fsvalop FsIcmpType buf pos nlen
    else if c =? 8 then fs_arm_vec fsvalop FsIcmpCode buf pos nlen
    else if c =? 9 then fs_arm_vec fsmaskop FsTcpFlags buf pos nlen
    else if c =? 10 then fs_arm_vec fsvalop FsPacketLength buf pos nlen
    else if c =? 11 then fs_arm_vec fsvalop FsDscp buf pos nlen
    else if c =? 12 then fs_arm_vec fsmaskop FsFragment buf pos nlen
    else if c =? 13 then fs_arm_vec fsvalop FsFlowLabel buf pos nlen
    else Err EOther) = Ok r -> exists body rest, s' = body ++ rest /\ bytes_ok body /\ nlen = (pos + 1 + length body)%nat /\ fs_arms it c body pos = Ok r).
  { intros pre c s' pos nlen r -> Bs X. cbv zeta in X. assert (L : (length pre + 1 <= nlen)%nat /\ (nlen - (length pre + 1) <= length s')%nat).
    { assert (Y : exists z, rslice (pre ++ c :: s') (length pre + 1) nlen = Ok z).
      { unfold fs_arm_pfx, fs_arm_vec in X. do 13 (match type of X with (if ?t then _ else _) = _ => destruct t; [apply bind_Ok_inv in X as (z & X & _); now exists z|] end). discriminate. }
      destruct Y as (z & Y). apply rslice_Ok_inv in Y as (Y1 & Y2 & _). rewrite app_length in Y2. cbn [length] in Y2. lia. }
    destruct L as [L1 L2]. destruct (take_raw _ s' Bs L2) as (body & rest & -> & Lb & Bb & _). exists body, rest. 
    assert (En : nlen = (length pre + 1 + length body)%nat) by lia. split; [reflexivity|]. split; [exact Bb|]. split; [exact En|].
    rewrite <- X. symmetry. now apply fs_arms_at. }
  rewrite land_240 in H by exact B0. destruct (N.leb_spec 240 b0) as [Hb|Hb].
  - destruct s as [|b1 s]; [discriminate|]. unfold getn_u16 in H. rewrite idx_0, bind_ok, idx_1, !bind_ok in H. pose proof (Forall_inv B) as B1. unfold is_byte in B1. apply Forall_inv_tail in B.
    destruct s as [|c s]; [discriminate|]. change (idx (b0 :: b1 :: c :: s) 2) with (Ok c : res N) in H. rewrite bind_ok in H. apply Forall_inv_tail in B.
    change (b0 :: b1 :: c :: s) with ([b0; b1] ++ c :: s) in H. apply K in H as (body & rest & -> & Bb & Hn & H); [|reflexivity|exact B]. rewrite land_4095 in Hn by auto.
    exists 2%nat, c, body. split; [|auto]. exists rest. right. split; [reflexivity|]. exists b0, b1. split; [auto|]. split; [exact B1|]. cbn [length]. split; [lia|reflexivity].
  - rewrite bind_ok in H. destruct s as [|c s]; [discriminate|]. rewrite idx_1, bind_ok in H. apply Forall_inv_tail in B.
    change (b0 :: c :: s) with ([b0] ++ c :: s) in H. apply K in H as (body & rest & -> & Bb & Hn & H); [|reflexivity|exact B].
    exists 1%nat, c, body. split; [|auto]. exists rest. left. split; [reflexivity|]. cbn [length]. split; [lia|]. cbn [app]. f_equal. lia.
Qed.
Lemma fs_rule_out {T} (it : fsitem T) b c body h : bytes_ok b -> rule_reads b (c :: body) h -> fs_decode it b = fs_arms it c body h.
Proof.
  intros B (rest & [(-> & L & ->)|(-> & hi & lo & Hh & Hl & L & ->)]); unfold fs_decode; rewrite idx_0, bind_ok.
  - cbn [length] in *. rewrite land_240 by lia. destruct (N.leb_spec 240 (N.of_nat (S (length body)))) as [X|_]; [lia|]. rewrite bind_ok. cbn [app]. rewrite idx_1, bind_ok.
    change (N.of_nat (S (length body)) :: c :: body ++ rest) with ([N.of_nat (S (length body))] ++ c :: body ++ rest). apply fs_arms_at; [reflexivity|lia].
  - rewrite land_240 by lia. destruct (N.leb_spec 240 hi) as [_|X]; [|lia]. unfold getn_u16. cbn [app]. rewrite idx_0, bind_ok, idx_1, !bind_ok.
    change (idx (hi :: lo :: c :: body ++ rest) 2) with (Ok c : res N). rewrite bind_ok, land_4095 by auto.
    change (hi :: lo :: c :: body ++ rest) with ([hi; lo] ++ c :: body ++ rest). apply fs_arms_at; [reflexivity|]. cbn [length] in L. lia.
Qed.
Lemma vec_exact {U} (o : fsoper U) P s v n : step_exact (op_dec o) P -> advances P -> bytes_ok s -> vec_dec o s = Ok (v, n) <-> many P s v n.
Proof. intros E A B. unfold vec_dec. now apply items_exact. Qed.
Lemma fs_exact {T} (it : fsitem T) P : step_exact (fs_dec it) P -> step_exact (fs_decode it) (fs_reads P).
Proof.
  intros E b r n B. unfold fs_reads. split.
  - intros H. apply fs_rule_in in H as (h & c & body & R & Bb & H); [|exact B]. unfold fs_arms in H.
    assert (VV : forall wrap, ('(r, n) <- vec_dec fsvalop body ;; Ok (wrap r, (n + h + 1)%nat)) = Ok (r, n) -> exists v k, many val_reads body v k /\ r = wrap v /\ n = (h + 1 + k)%nat).
    { intros wrap X. apply bind_Ok_inv in X as ([v k] & X & Y). injection Y as <- <-. apply (vec_exact _ _ _ _ _ val_exact val_advances Bb) in X. exists v, k. repeat split; auto. lia. }
    assert (VM : forall wrap, ('(r, n) <- vec_dec fsmaskop body ;; Ok (wrap r, (n + h + 1)%nat)) = Ok (r, n) -> exists v k, many mask_reads body v k /\ r = wrap v /\ n = (h + 1 + k)%nat).
    { intros wrap X. apply bind_Ok_inv in X as ([v k] & X & Y). injection Y as <- <-. apply (vec_exact _ _ _ _ _ mask_exact mask_advances Bb) in X. exists v, k. repeat split; auto. lia. }
    assert (VP : forall wrap : T -> flowspec T, ('(r, n) <- fs_dec it body ;; Ok (wrap r, (h + 2 + n)%nat)) = Ok (r, n) -> exists a k, P body a k /\ r = wrap a /\ n = (h + 2 + k)%nat).
    { intros wrap X. apply bind_Ok_inv in X as ([v k] & X & Y). injection Y as <- <-. apply E in X; [|exact Bb]. exists v, k. repeat split; auto. }
    exists h, body.
    repeat match type of H with (if ?c =? ?k then _ else _) = _ => destruct (N.eqb_spec c k) as [->|_];
      [first [apply VP in H as (v & k' & H & -> & ->) | apply VV in H as (v & k' & H & -> & ->) | apply VM in H as (v & k' & H & -> & ->)];
       exists k'; split; [exact R|split; [exact H|reflexivity]]|] end.
    discriminate.
  - intros (h & body & k & R & H). assert (Bb : bytes_ok body).
    { destruct R as (rest & [(_ & _ & ->)|(_ & hi & lo & _ & _ & _ & ->)]); cbn [app] in B.
      - do 2 apply Forall_inv_tail in B. now apply bytes_app in B as [B _].
      - do 3 apply Forall_inv_tail in B. now apply bytes_app in B as [B _]. }
    rewrite (fs_rule_out it b (fs_code r) body h B R). unfold fs_arms.
    destruct r as [a|a|v|v|v|v|v|v|v|v|v|v|v]; cbn [fs_code]; cbn [N.eqb Pos.eqb]; destruct H as [H ->];
    first [apply E in H; [|exact Bb] | apply (vec_exact _ _ _ _ _ val_exact val_advances Bb) in H | apply (vec_exact _ _ _ _ _ mask_exact mask_advances Bb) in H];
    rewrite H, bind_ok; do 2 f_equal; lia.
Qed.
Lemma fs_advances {T} (P : reading T) : advances (fs_reads P).
Proof.
  intros b r n (h & body & k & (rest & R) & H). assert (1 <= h)%nat by (destruct R as [(-> & _)|(-> & _)]; lia).
  destruct r; destruct H as [_ ->]; lia.
Qed.

(** ** Every family *)
Lemma wrap_exact {T} (step : list N -> res (T * nat)) P (wrap : list T -> addrs) b a n : step_exact step P -> advances P -> bytes_ok b ->
  dec_wrap (dec_loop step (S (length b)) b 0) wrap = Ok (a, n) <-> exists v, many P b v n /\ a = wrap v.
Proof.
  intros E A B. unfold dec_wrap. split.
  - intros H. apply bind_Ok_inv in H as ([v k] & X & H). injection H as <- <-. apply (items_exact step P) in X; auto. eauto.
  - intros (v & M & ->). apply (items_exact step P) in M; auto. now rewrite M.
Qed.
Lemma nlri_exact_l oc p afi sf b a n : bytes_ok b -> addrs_decode oc p afi sf b = Ok (a, n) <-> nlri_reads oc p afi sf b a n.
Proof.
  intros B. unfold addrs_decode.
  assert (F : forall T (ex : extractor T) P wr wp f s, ex_exact ex P -> ex_within P -> dec_fam oc ex wr wp p f s b = Ok (a, n) <-> family oc P wr wp p f s b a n) by (intros; now apply family_exact).
  assert (X4 := pfx4_exact). assert (X6 := pfx6_exact). assert (W4 := pfx4_within). assert (W6 := pfx6_within).
  assert (NO : (forall afi' sf', afi' = afi -> sf' = sf -> nlri_reads oc p afi' sf' b a n -> False) -> Err EOther = Ok (a, n) <-> nlri_reads oc p afi sf b a n).
  { intros X. split; [discriminate|]. intros Y. exfalso. exact (X _ _ eq_refl eq_refl Y). }
  destruct (N.eqb_spec afi 1) as [->|A1]; [|destruct (N.eqb_spec afi 2) as [->|A2]; [|destruct (N.eqb_spec afi 25) as [->|A3]]].
  - repeat match goal with |- (if ?c =? ?k then _ else _) = _ <-> _ => destruct (N.eqb_spec c k) as [->|?] end; cbn [nlri_reads].
    + now apply F.
    + now apply F.
    + apply F; [now apply labelled_exact|now apply labelled_within].
    + apply wrap_exact; [apply mv_exact|apply mv_advances|exact B].
    + apply F; [apply distinguished_exact, mdt4_exact|apply distinguished_within, mdt4_within].
    + apply F; [now apply labelled_exact, distinguished_exact|now apply labelled_within, distinguished_within].
    + apply F; [now apply labelled_exact, distinguished_exact|now apply labelled_within, distinguished_within].
    + apply wrap_exact; [apply fs_exact, fs4_exact|apply fs_advances|exact B].
    + apply wrap_exact; [apply fs_exact, fsv4_exact|apply fs_advances|exact B].
    + apply NO. intros f s Ef Es Y. unfold nlri_reads in Y.
      repeat match type of Y with context [match ?x with _ => _ end] => is_var x; destruct x; try contradiction; try congruence end; congruence.
  - repeat match goal with |- (if ?c =? ?k then _ else _) = _ <-> _ => destruct (N.eqb_spec c k) as [->|?] end; cbn [nlri_reads].
    + now apply F.
    + now apply F.
    + apply F; [now apply labelled_exact|now apply labelled_within].
    + apply F; [apply distinguished_exact, mdt6_exact|apply distinguished_within, mdt6_within].
    + apply F; [now apply labelled_exact, distinguished_exact|now apply labelled_within, distinguished_within].
    + apply F; [now apply labelled_exact, distinguished_exact|now apply labelled_within, distinguished_within].
    + apply wrap_exact; [apply fs_exact, fs6_exact|apply fs_advances|exact B].
    + apply NO. intros f s Ef Es Y. unfold nlri_reads in Y.
      repeat match type of Y with context [match ?x with _ => _ end] => is_var x; destruct x; try contradiction; try congruence end; congruence.
  - repeat match goal with |- (if ?c =? ?k then _ else _) = _ <-> _ => destruct (N.eqb_spec c k) as [->|?] end; cbn [nlri_reads].
    + apply wrap_exact; [apply vpls_exact|apply vpls_advances|exact B].
    + apply wrap_exact; [apply ev_exact|apply ev_advances|exact B].
    + apply NO. intros f s Ef Es Y. unfold nlri_reads in Y.
      repeat match type of Y with context [match ?x with _ => _ end] => is_var x; destruct x; try contradiction; try congruence end; congruence.
  - apply NO. intros f s Ef Es Y. unfold nlri_reads in Y.
    repeat match type of Y with context [match ?x with _ => _ end] => is_var x; destruct x; try contradiction; try congruence end; congruence.
Qed.
