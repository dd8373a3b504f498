(** Proofs about flow specifications. *)
From Verif Require Import Base BaseFacts M_Util S_Wire F_Util M_Prefix S_Prefix M_Nlri S_Nlri F_Nlri F_Lay M_Mvpn S_Mvpn F_Mvpn
  M_Vpls M_Flowspec S_Flowspec.
Ltac Zify.zify_post_hook ::= idtac.

(** ** operator items *)
Lemma size_cases v : v < 2 ^ 32 ->
  (v < 256 /\ (65535 <? v) = false /\ (255 <? v) = false /\ size_code v = 0 /\ size_octets v = 1%nat) \/
  (v < 65536 /\ (65535 <? v) = false /\ (255 <? v) = true /\ size_code v = 1 /\ size_octets v = 2%nat) \/
  ((65535 <? v) = true /\ size_code v = 2 /\ size_octets v = 4%nat).
Proof.
  intros H. unfold size_code, size_octets.
  destruct (N.ltb_spec v 256); [left|destruct (N.ltb_spec v 65536); [right; left|right; right]]; repeat split; auto;
  try (apply N.ltb_ge; lia); try (apply N.ltb_lt; lia).
Qed.
Lemma land_shiftr_lo b : b < 256 -> N.land (N.shiftr b 4) 3 = (b / 16) mod 4.
Proof. intros. rewrite N.shiftr_div_pow2. change 3 with (N.ones 2). rewrite N.land_ones. reflexivity. Qed.

(** all operator octets with a given pattern of flags and length code *)
Lemma oper_write_ok op v e low : v < 2 ^ 32 -> (forall k, k <= 2 -> N.lor op (N.shiftl k 4) = b2n e 64 + 16 * k + low) ->
  writes (oper_write op v) (oper_wire false e low v) (length (oper_wire false e low v)).
Proof.
  intros Hv Hk. unfold oper_write, oper_wire. cbn [length]. rewrite length_be_bytes. cbn [b2n]. rewrite N.add_0_l.
  destruct (size_cases v Hv) as [(H & -> & -> & -> & ->)|[(H & -> & -> & -> & ->)|(-> & -> & ->)]].
  - pose proof (Hk 0 ltac:(lia)) as K. rewrite N.shiftl_0_l, N.lor_0_r in K. rewrite K.
    change (?a :: be_bytes 1 v) with ([a] ++ be_bytes 1 v). rewrite <- (app_nil_r (be_bytes 1 v)).
    eapply writes_next; [apply writes_at_set_idx|reflexivity|].
    eapply writes_next; [|reflexivity|apply writes_ret_nil; reflexivity].
    replace (be_bytes 1 v) with [cast 8 v]. 2:{ unfold cast. cbn [be_bytes]. change (8 * N.of_nat 0) with 0. now rewrite N.pow_0_r, N.div_1_r. }
    apply writes_at_set_idx.
  - rewrite <- (Hk 1 ltac:(lia)).
    change (?a :: be_bytes 2 v) with ([a] ++ be_bytes 2 v). rewrite <- (app_nil_r (be_bytes 2 v)).
    eapply writes_next; [apply writes_at_set_idx|reflexivity|].
    eapply writes_next; [|reflexivity|apply writes_ret_nil; reflexivity].
    replace (cast 16 v) with v by (unfold cast; symmetry; apply N.mod_small; exact H).
    apply writes_on_from, writes_setn_u16.
  - rewrite <- (Hk 2 ltac:(lia)).
    change (?a :: be_bytes 4 v) with ([a] ++ be_bytes 4 v). rewrite <- (app_nil_r (be_bytes 4 v)).
    eapply writes_next; [apply writes_at_set_idx|reflexivity|].
    eapply writes_next; [|reflexivity|apply writes_ret_nil; reflexivity].
    apply writes_on_from, writes_setn_u32.
Qed.
Lemma oper_read_ok e a low v rest : v < 2 ^ 32 ->
  (forall k, k <= 2 -> N.land (N.shiftr (b2n e 128 + b2n a 64 + 16 * k + low) 4) 3 = k) ->
  oper_read (oper_wire e a low v ++ rest) = Ok (b2n e 128 + b2n a 64 + 16 * size_code v + low, v, length (oper_wire e a low v)).
Proof.
  intros Hv Hk. unfold oper_read, oper_wire. cbn [app length]. rewrite idx_0, bind_ok, length_be_bytes.
  assert (F1 : forall (x : N) l, rfrom (x :: l) 1 = Ok l).
  { intros. rewrite rfrom_ok by (cbn [length]; lia). reflexivity. }
  destruct (size_cases v Hv) as [(H & _ & _ & -> & ->)|[(H & _ & _ & -> & ->)|(_ & -> & ->)]]; rewrite Hk by lia.
  - change (0 =? 0) with true. cbn iota. cbn [be_bytes app]. rewrite idx_1, bind_ok. do 2 f_equal. f_equal.
    change (8 * N.of_nat 0) with 0. rewrite N.pow_0_r, N.div_1_r. now apply N.mod_small.
  - change (1 =? 0) with false. change (1 =? 1) with true. cbn iota. rewrite F1, bind_ok, getn_u16_be by exact H. reflexivity.
  - change (2 =? 0) with false. change (2 =? 1) with false. change (2 =? 2) with true. cbn iota. rewrite F1, bind_ok, getn_u32_be by exact Hv. reflexivity.
Qed.
Ltac codes k Hk := let H := fresh in assert (H : k = 0 \/ k = 1 \/ k = 2) by lia; destruct H as [-> |[-> | ->]]; reflexivity.
Lemma writes_val x : fv_value x < 2 ^ 32 -> writes (fsval_enc x) (val_wire false x) (length (val_wire false x)).
Proof.
  destruct x as [a l g e v]. cbn [fv_value]. intros H. apply oper_write_ok; auto. cbn [fv_and fv_lt fv_gt fv_eq].
  intros k Hk. destruct a, l, g, e; codes k Hk.
Qed.
Lemma val_dec b x rest : fv_value x < 2 ^ 32 -> fsval_dec (val_wire b x ++ rest) = Ok (x, length (val_wire b x)).
Proof.
  destruct x as [a l g e v]. cbn [fv_value]. intros H. unfold fsval_dec, val_wire. cbn [fv_value fv_and fv_lt fv_gt fv_eq].
  rewrite oper_read_ok; auto.
  - rewrite bind_ok. do 2 f_equal. assert (S : size_code v = 0 \/ size_code v = 1 \/ size_code v = 2).
    { destruct (size_cases v H) as [(_ & _ & _ & -> & _)|[(_ & _ & _ & -> & _)|(_ & -> & _)]]; auto. }
    destruct S as [-> |[-> | ->]]; destruct b, a, l, g, e; reflexivity.
  - intros k Hk. destruct b, a, l, g, e; codes k Hk.
Qed.
Lemma writes_mask x : fm_value x < 2 ^ 32 -> writes (fsmask_enc x) (mask_wire false x) (length (mask_wire false x)).
Proof.
  destruct x as [a l g v]. cbn [fm_value]. intros H. apply oper_write_ok; auto. cbn [fm_and fm_not fm_match].
  intros k Hk. destruct a, l, g; codes k Hk.
Qed.
Lemma mask_dec b x rest : fm_value x < 2 ^ 32 -> fsmask_dec (mask_wire b x ++ rest) = Ok (x, length (mask_wire b x)).
Proof.
  destruct x as [a l g v]. cbn [fm_value]. intros H. unfold fsmask_dec, mask_wire. cbn [fm_value fm_and fm_not fm_match].
  rewrite oper_read_ok; auto.
  - rewrite bind_ok. do 2 f_equal. assert (S : size_code v = 0 \/ size_code v = 1 \/ size_code v = 2).
    { destruct (size_cases v H) as [(_ & _ & _ & -> & _)|[(_ & _ & _ & -> & _)|(_ & -> & _)]]; auto. }
    destruct S as [-> |[-> | ->]]; destruct b, a, l, g; reflexivity.
  - intros k Hk. destruct b, a, l, g; codes k Hk.
Qed.
Lemma oper_read_det l1 l2 b1 v1 n1 b2 v2 n2 : oper_read l1 = Ok (b1, v1, n1) -> oper_read l2 = Ok (b2, v2, n2) ->
  nth_error l1 0 = nth_error l2 0 -> n1 = n2 /\ (n1 <= length l1)%nat /\ (2 <= n1)%nat.
Proof.
  assert (G : forall l b v n, oper_read l = Ok (b, v, n) -> nth_error l 0 = Some b /\ (n <= length l)%nat /\ (2 <= n)%nat /\
    n = (if N.land (N.shiftr b 4) 3 =? 0 then 2%nat else if N.land (N.shiftr b 4) 3 =? 1 then 3%nat else 5%nat)).
  { intros l b v n H. unfold oper_read in H. binv H. unfold idx in E. destruct (nth_error l 0) as [b0|] eqn:E0; [|discriminate]. injection E as <-.
    destruct l as [|y l]; [discriminate|]. cbn [length].
    destruct (N.land (N.shiftr b0 4) 3 =? 0) eqn:K0.
    { binv H. injection H as <- <- <-. unfold idx in E. cbn [nth_error] in E. destruct l; [discriminate|]. cbn [length]. rewrite K0. repeat split; auto; lia. }
    destruct (N.land (N.shiftr b0 4) 3 =? 1) eqn:K1.
    { binv H. apply rfrom_Ok_inv in E as (_ & ->). binv H. injection H as <- <- <-. cbn [skipn] in E.
      destruct (getn_u16_cases l) as [(? & _ & L)|(E' & _)]; [|congruence]. rewrite K0, K1. repeat split; auto; lia. }
    destruct (N.land (N.shiftr b0 4) 3 =? 2); [|discriminate].
    { binv H. apply rfrom_Ok_inv in E as (_ & ->). binv H. injection H as <- <- <-. cbn [skipn] in E.
      destruct (getn_u32_cases l) as [(? & _ & L)|(E' & _)]; [|congruence]. rewrite K0, K1. repeat split; auto; lia. } }
  intros H1 H2 Hn. apply G in H1 as (A1 & B1 & C1 & D1). apply G in H2 as (A2 & B2 & C2 & D2).
  assert (b1 = b2) by congruence. subst b2. split; [congruence|auto].
Qed.

(** ** vectors of items *)
Record oper_ok {U} (o : fsoper U) (W : bool -> U -> list N) (ok : U -> Prop) (sk : U -> nat) : Prop := {
  oo_enc : forall x, ok x -> writes (op_enc o x) (W false x) (length (W false x));
  oo_dec : forall e x rest, ok x -> op_dec o (W e x ++ rest) = Ok (x, length (W e x));
  oo_last : forall x, exists b t, W false x = b :: t /\ W true x = N.lor b 128 :: t;
  oo_det : forall l1 l2 x1 n1 x2 n2, op_dec o l1 = Ok (x1, n1) -> op_dec o l2 = Ok (x2, n2) ->
    nth_error l1 0 = nth_error l2 0 -> n1 = n2 /\ (n1 <= length l1)%nat /\ (2 <= n1)%nat;
  oo_len : forall x, ok x -> (op_byteslen o x + sk x)%nat = length (W false x)
}.
Lemma oper_last a low v : low < 8 -> exists b t, oper_wire false a low v = b :: t /\ oper_wire true a low v = N.lor b 128 :: t.
Proof.
  intros Hl. unfold oper_wire. eexists _, _. split; [reflexivity|]. f_equal. cbn [b2n].
  assert (S : size_code v <= 2) by (unfold size_code; destruct (v <? 256), (v <? 65536); lia).
  rewrite N.lor_comm, (lor_disj 7); [destruct a; cbn [b2n]; lia|reflexivity|]. change (2 ^ 7) with 128. destruct a; cbn [b2n]; lia.
Qed.
Lemma val_ok : oper_ok fsvalop val_wire (fun x => fv_value x < 2 ^ 32) val_skew.
Proof.
  constructor.
  - apply writes_val.
  - intros. now apply val_dec.
  - intros [a l g e v]. apply oper_last. destruct l, g, e; reflexivity.
  - intros l1 l2 x1 n1 x2 n2 H1 H2. cbn [op_dec fsvalop] in *. unfold fsval_dec in *.
    apply bind_Ok_inv in H1 as ([[b1 v1] m1] & H1 & E1). apply bind_Ok_inv in H2 as ([[b2 v2] m2] & H2 & E2).
    injection E1 as _ <-. injection E2 as _ <-. eapply oper_read_det; eauto.
  - intros [a l g e v]. cbn [fv_value op_byteslen fsvalop]. unfold fsval_byteslen, val_skew, val_wire, oper_wire. cbn [fv_value length]. rewrite length_be_bytes.
    intros H. destruct (size_cases v H) as [(L & -> & -> & _ & ->)|[(L & -> & E & _ & ->)|(E & _ & ->)]].
    + apply N.ltb_lt in L. rewrite L. reflexivity.
    + rewrite E. apply N.ltb_lt in E. destruct (N.ltb_spec v 256); [lia|reflexivity].
    + rewrite E. apply N.ltb_lt in E. destruct (N.ltb_spec v 256); [lia|reflexivity].
Qed.
Lemma mask_ok : oper_ok fsmaskop mask_wire (fun x => fm_value x < 2 ^ 32) mask_skew.
Proof.
  constructor.
  - apply writes_mask.
  - intros. now apply mask_dec.
  - intros [a l g v]. apply oper_last. destruct l, g; reflexivity.
  - intros l1 l2 x1 n1 x2 n2 H1 H2. cbn [op_dec fsmaskop] in *. unfold fsmask_dec in *.
    apply bind_Ok_inv in H1 as ([[b1 v1] m1] & H1 & E1). apply bind_Ok_inv in H2 as ([[b2 v2] m2] & H2 & E2).
    injection E1 as _ <-. injection E2 as _ <-. eapply oper_read_det; eauto.
  - intros [a l g v]. cbn [fm_value op_byteslen fsmaskop]. unfold fsmask_byteslen, mask_skew, mask_wire, oper_wire. cbn [fm_value length]. rewrite length_be_bytes.
    intros H. unfold size_octets.
    destruct (N.ltb_spec 16777215 v), (N.ltb_spec 65535 v), (N.ltb_spec 255 v), (N.ltb_spec v 256), (N.ltb_spec v 65536), (N.ltb_spec v 16777216); try lia; reflexivity.
Qed.

Section Vec.
Context {U : Type} (o : fsoper U) (W : bool -> U -> list N) (ok : U -> Prop) (sk : U -> nat) (HO : oper_ok o W ok sk).

Lemma W_len e x : length (W e x) = length (W false x).
Proof. destruct e; [|reflexivity]. destruct (oo_last _ _ _ _ HO x) as (b & t & -> & ->). reflexivity. Qed.
Lemma vec_wire_last v x : vec_wire W (v ++ [x]) = flat_map (W false) v ++ W true x.
Proof.
  induction v as [|y v IH]; [reflexivity|]. cbn [app flat_map]. rewrite <- app_assoc, <- IH.
  destruct (v ++ [x]) eqn:E; [destruct v; discriminate|reflexivity].
Qed.
Lemma vec_wire_cons x v : vec_wire W (x :: v) = W (match v with [] => true | _ => false end) x ++ vec_wire W v.
Proof. destruct v; [cbn [vec_wire]; now rewrite app_nil_r|reflexivity]. Qed.
Lemma writes_vec_write v x : Forall ok (v ++ [x]) -> forall pos lp,
  writes_at pos (vec_write o (v ++ [x]) pos lp) (flat_map (W false) v ++ W false x)
    (pos + length (flat_map (W false) v) + length (W false x), pos + length (flat_map (W false) v))%nat.
Proof.
  induction v as [|y v IH]; intros H pos lp; cbn [app vec_write flat_map].
  - cbn [app] in H. inversion H; subst. rewrite <- (app_nil_r (W false x)) at 1.
    eapply writes_next; [apply writes_on_from, (oo_enc _ _ _ _ HO); auto|reflexivity|].
    apply writes_ret_nil. cbn [length]. f_equal; lia.
  - cbn [app] in H. inversion H; subst. rewrite <- app_assoc.
    eapply writes_next; [apply writes_on_from, (oo_enc _ _ _ _ HO); auto|reflexivity|].
    eapply writes_at_eq; [apply IH; auto|reflexivity|reflexivity|]. rewrite app_length. f_equal; lia.
Qed.
Lemma writes_vec v : Forall ok v -> writes (vec_enc o v) (vec_wire W v) (length (vec_wire W v)).
Proof.
  intros H. destruct v as [|y0 v0] eqn:Ev; [apply writes_at_ret|]. rewrite <- Ev in *. assert (Hne : v <> []) by congruence.
  assert (U1 : vec_enc o v = ('(pos, lpos) <~ vec_write o v 0 0 ;; upd_idx lpos (fun b => N.lor b 128) ;;; eret pos)) by (rewrite Ev; reflexivity).
  clear Ev y0 v0. destruct (exists_last Hne) as (v' & x & ->). rewrite U1, vec_wire_last.
  destruct (oo_last _ _ _ _ HO x) as (b & t & E1 & E2).
  intros buf Hb. rewrite app_length, W_len in Hb. unfold ebind.
  rewrite (writes_vec_write v' x H 0 0) by (rewrite app_length; lia).
  rewrite E1 in *. rewrite E2. cbn [length] in *. set (A := flat_map (W false) v') in *. rewrite Nat.add_0_l.
  unfold upd_idx.
  assert (Hn : nth_error (splice 0 (A ++ b :: t) buf) (length A) = Some b).
  { unfold splice. cbn [firstn app]. rewrite <- app_assoc, nth_error_app2 by lia. now rewrite Nat.sub_diag. }
  rewrite Hn. unfold eret. f_equal. f_equal; [rewrite app_length; cbn [length]; lia|].
  pose proof (splice_over 0 A [b] t [N.lor b 128] buf eq_refl ltac:(cbn [length]; lia)) as HS. exact HS.
Qed.
Lemma W_pos e x : (1 <= length (W e x))%nat.
Proof. rewrite W_len. destruct (oo_last _ _ _ _ HO x) as (b & t & -> & _). cbn; lia. Qed.
Lemma vec_loop v t : Forall ok v -> forall pre fuel, (length (vec_wire W v ++ t) < fuel)%nat ->
  dec_loop (op_dec o) fuel (pre ++ vec_wire W v ++ t) (length pre) =
  ('(v', q) <- dec_loop (op_dec o) (fuel - length v) (pre ++ vec_wire W v ++ t) (length pre + length (vec_wire W v)) ;; Ok (v ++ v', q)).
Proof.
  induction v as [|x v IH]; intros H pre fuel Hf.
  - cbn [vec_wire app length]. rewrite Nat.sub_0_r, Nat.add_0_r. destruct (dec_loop _ _ _ _) as [[? ?]| | |]; reflexivity.
  - inversion H; subst. rewrite vec_wire_cons in *. set (e := match v with [] => true | _ => false end) in *.
    destruct fuel as [|fuel]; [lia|]. cbn [dec_loop].
    pose proof (W_pos e x) as Wp. rewrite !app_length in Hf.
    replace (Nat.ltb (length pre) (length (pre ++ (W e x ++ vec_wire W v) ++ t))) with true
      by (symmetry; apply Nat.ltb_lt; rewrite !app_length; lia).
    rewrite rfrom_ok by (rewrite app_length; lia). rewrite bind_ok, skipn_app_exact by reflexivity.
    rewrite <- app_assoc. rewrite (oo_dec _ _ _ _ HO) by auto. rewrite bind_ok.
    specialize (IH ltac:(auto) (pre ++ W e x) fuel ltac:(rewrite app_length; lia)).
    rewrite <- app_assoc, app_length in IH. rewrite IH.
    cbn [length]. replace (S fuel - S (length v))%nat with (fuel - length v)%nat by lia.
    rewrite app_length. replace (length pre + (length (W e x) + length (vec_wire W v)))%nat with (length pre + length (W e x) + length (vec_wire W v))%nat by lia.
    clear IH. match goal with |- context[dec_loop ?a ?b ?c ?d] => destruct (dec_loop a b c d) as [[? ?]| | |] end; reflexivity.
Qed.
Lemma length_vec v : (length v <= length (vec_wire W v))%nat.
Proof.
  induction v as [|x v IH]; [cbn; lia|]. rewrite vec_wire_cons, app_length. cbn [length].
  pose proof (W_pos (match v with [] => true | _ => false end) x). lia.
Qed.
Lemma vec_dec_ok v : Forall ok v -> vec_dec o (vec_wire W v) = Ok (v, length (vec_wire W v)).
Proof.
  intros H. unfold vec_dec. pose proof (vec_loop v [] H [] (S (length (vec_wire W v))) ltac:(rewrite app_nil_r; lia)) as L.
  cbn [app length] in L. rewrite app_nil_r in L. rewrite L.
  pose proof (length_vec v). destruct (S (length (vec_wire W v)) - length v)%nat eqn:E; [lia|]. cbn [dec_loop].
  destruct (Nat.ltb_spec (0 + length (vec_wire W v)) (length (vec_wire W v))); [lia|]. rewrite bind_ok, app_nil_r. reflexivity.
Qed.
(** one byte too many *)
Lemma vec_dec_long v t q : Forall ok v -> t <> [] -> vec_dec o (vec_wire W v ++ t) <> Ok (v, q).
Proof.
  intros H Ht HD. unfold vec_dec in HD. pose proof (vec_loop v t H [] (S (length (vec_wire W v ++ t))) ltac:(lia)) as L.
  cbn [app length] in L. rewrite L in HD. apply bind_Ok_inv in HD as ([v' q'] & E & HD). injection HD as HD _.
  assert (v' = []) by (rewrite <- (app_nil_r v) in HD at 2; now apply app_inv_head in HD). subst v'.
  pose proof (length_vec v). rewrite app_length in E.
  destruct (S (length (vec_wire W v) + length t) - length v)%nat eqn:EF; [discriminate|]. cbn [dec_loop] in E.
  destruct (Nat.ltb_spec (0 + length (vec_wire W v)) (length (vec_wire W v ++ t))) as [_|HL]; [|rewrite app_length in HL; destruct t; [congruence|cbn [length] in HL; lia]].
  binv E. apply bind_Ok_inv in E as ([y m] & _ & E). apply bind_Ok_inv in E as ([? ?] & _ & E). discriminate.
Qed.
(** too few bytes *)
Lemma vec_dec_short_loop v : Forall ok v -> forall k pre fuel q,
  dec_loop (op_dec o) fuel (pre ++ firstn k (vec_wire W v)) (length pre) = Ok (v, q) -> (length (vec_wire W v) <= k)%nat.
Proof.
  induction v as [|x v IH]; intros H k pre fuel q HD; [cbn; lia|].
  inversion H; subst. rewrite vec_wire_cons in *. set (e := match v with [] => true | _ => false end) in *.
  destruct fuel as [|fuel]; [discriminate|]. cbn [dec_loop] in HD.
  destruct (Nat.ltb_spec (length pre) (length (pre ++ firstn k (W e x ++ vec_wire W v)))) as [HL|]; [|discriminate].
  rewrite rfrom_ok in HD by lia. rewrite bind_ok, skipn_app_exact in HD by reflexivity.
  apply bind_Ok_inv in HD as ([x' n] & E & HD). apply bind_Ok_inv in HD as ([v' q'] & E2 & HD). injection HD as -> -> ->.
  pose proof (oo_dec _ _ _ _ HO e x (vec_wire W v) ltac:(auto)) as D.
  destruct (oo_det _ _ _ _ HO _ _ _ _ _ _ E D) as (-> & HN & _).
  { rewrite app_length in HL. destruct k; [cbn [firstn length] in HL; lia|].
    pose proof (W_pos e x). destruct (W e x ++ vec_wire W v); reflexivity. }
  rewrite firstn_length in HN. rewrite firstn_app in E2.
  rewrite (firstn_all2 (W e x)) in E2 by lia. rewrite app_assoc in E2.
  replace (length pre + length (W e x))%nat with (length (pre ++ W e x)) in E2 by (rewrite app_length; lia).
  apply IH in E2; auto. rewrite app_length. lia.
Qed.
Lemma vec_dec_short v k q : Forall ok v -> vec_dec o (firstn k (vec_wire W v)) = Ok (v, q) -> (length (vec_wire W v) <= k)%nat.
Proof. intros H HD. apply (vec_dec_short_loop v H k [] _ q HD). Qed.
Lemma vec_byteslen_skew v : Forall ok v -> (vec_byteslen o v + list_sum (map sk v))%nat = length (vec_wire W v).
Proof.
  unfold vec_byteslen. intros H.
  assert (G : forall v a, Forall ok v -> (fold_left (fun a c => (a + op_byteslen o c)%nat) v a + list_sum (map sk v))%nat = (a + length (vec_wire W v))%nat).
  { clear v H. induction v as [|x v IH]; intros a H; [cbn [fold_left map list_sum vec_wire length]; cbn; lia|].
    inversion H; subst. rewrite vec_wire_cons, app_length, W_len. cbn [fold_left map].
    change (list_sum (sk x :: map sk v)) with (sk x + list_sum (map sk v))%nat.
    specialize (IH (a + op_byteslen o x)%nat ltac:(auto)). pose proof (oo_len _ _ _ _ HO x ltac:(auto)). lia. }
  now apply G.
Qed.
End Vec.

(** ** the length field *)
Lemma fs_hdr_len n : length (fs_len_wire n) = (if Nat.ltb n 240 then 1 else 2)%nat.
Proof. unfold fs_len_wire. destruct (Nat.ltb n 240); [reflexivity|apply length_be_bytes]. Qed.
Lemma land_240 b : b < 256 -> (N.land b 240 =? 240) = (240 <=? b).
Proof. intros H. pose proof (byte_sweep (fun b => Bool.eqb (N.land b 240 =? 240) (240 <=? b)) eq_refl b H) as E. now apply Bool.eqb_prop in E. Qed.
Lemma fs_hdr_dec n c t : (n <= 4095)%nat ->
  (b <- idx (fs_len_wire n ++ c :: t) 0 ;;
   (if N.land b 240 =? 240 then w <- getn_u16 (fs_len_wire n ++ c :: t) ;; Ok (2%nat, (N.to_nat (N.land w 4095) + 2)%nat)
    else Ok (1%nat, (N.to_nat b + 1)%nat))) = Ok (length (fs_len_wire n), (n + length (fs_len_wire n))%nat).
Proof.
  intros Hn. rewrite fs_hdr_len. unfold fs_len_wire. destruct (Nat.ltb_spec n 240) as [H|H].
  - cbn [app]. rewrite idx_0, bind_ok, land_240 by lia.
    destruct (N.leb_spec 240 (N.of_nat n)); [lia|]. rewrite Nat2N.id. reflexivity.
  - rewrite getn_u16_be by lia.
    assert (E : N.land (61440 + N.of_nat n) 4095 = N.of_nat n).
    { change 4095 with (2 ^ 12 - 1). rewrite land_mask. change 61440 with (15 * 2 ^ 12). rewrite N.add_comm, N.mod_add by discriminate.
      apply N.mod_small. change (2 ^ 12) with 4096. lia. }
    cbn [be_bytes app]. rewrite idx_0, bind_ok. change (8 * N.of_nat 1) with 8.
    assert (B : ((61440 + N.of_nat n) / 2 ^ 8) mod 256 = 240 + N.of_nat n / 256).
    { change (2 ^ 8) with 256. change 61440 with (240 * 256). rewrite N.add_comm, N.div_add by discriminate.
      assert (N.of_nat n / 256 < 16) by (apply N.div_lt_upper_bound; lia). rewrite N.mod_small by lia. lia. }
    rewrite B. assert (N.of_nat n / 256 < 16) by (apply N.div_lt_upper_bound; lia).
    rewrite land_240 by lia. destruct (N.leb_spec 240 (240 + N.of_nat n / 256)); [|lia].
    rewrite bind_ok, E, Nat2N.id. reflexivity.
Qed.
Lemma fs_dec_hdr {T} (it : fsitem T) n c t : (n <= 4095)%nat ->
  let buf := fs_len_wire n ++ c :: t in let pos := length (fs_len_wire n) in let nlen := (n + length (fs_len_wire n))%nat in
  fs_decode it buf =
  if c =? 1 then fs_arm_pfx it FsDst buf pos nlen
  else if c =? 2 then fs_arm_pfx it FsSrc buf pos nlen
  else if c =? 3 then fs_arm_vec fsvalop FsProto buf pos nlen
  else if c =? 4 then fs_arm_vec fsvalop FsPortAny buf pos nlen
  else if c =? 5 then fs_arm_vec fsvalop FsPortDst buf pos nlen
  else if c =? 6 then fs_arm_vec fsvalop FsPortSrc buf pos nlen
  else if c =? 7 then fs_arm_vec fsvalop FsIcmpType buf pos nlen
  else if c =? 8 then fs_arm_vec fsvalop FsIcmpCode buf pos nlen
  else if c =? 9 then fs_arm_vec fsmaskop FsTcpFlags buf pos nlen
  else if c =? 10 then fs_arm_vec fsvalop FsPacketLength buf pos nlen
  else if c =? 11 then fs_arm_vec fsvalop FsDscp buf pos nlen
  else if c =? 12 then fs_arm_vec fsmaskop FsFragment buf pos nlen
  else if c =? 13 then fs_arm_vec fsvalop FsFlowLabel buf pos nlen
  else Err EOther.
Proof.
  intros Hn buf pos nlen. unfold fs_decode. rewrite <- bind_assoc. unfold buf. rewrite fs_hdr_dec by exact Hn. rewrite bind_ok.
  assert (E : idx (fs_len_wire n ++ c :: t) (length (fs_len_wire n)) = Ok c).
  { unfold idx. rewrite nth_error_app2 by lia. now rewrite Nat.sub_diag. }
  rewrite E, bind_ok. reflexivity.
Qed.
Lemma fs_slice n c t : (1 <= n)%nat -> (n <= S (length t))%nat ->
  rslice (fs_len_wire n ++ c :: t) (length (fs_len_wire n) + 1) (n + length (fs_len_wire n)) = Ok (firstn (n - 1) t).
Proof.
  intros H1 H2. rewrite rslice_ok by (rewrite ?app_length; cbn [length]; lia). unfold sub. f_equal.
  change (c :: t) with ([c] ++ t). rewrite app_assoc, skipn_app_exact by (rewrite app_length; cbn [length]; lia). f_equal. lia.
Qed.
Lemma fs_slice_inv n c t s : rslice (fs_len_wire n ++ c :: t) (length (fs_len_wire n) + 1) (n + length (fs_len_wire n)) = Ok s ->
  (1 <= n)%nat /\ (n <= S (length t))%nat /\ s = firstn (n - 1) t.
Proof.
  intros H. pose proof H as H'. apply rslice_Ok_inv in H as (A & B & _). rewrite app_length in B. cbn [length] in B.
  assert (1 <= n)%nat by lia. assert (n <= S (length t))%nat by lia. repeat split; auto.
  rewrite fs_slice in H' by auto. congruence.
Qed.

(** ** encoding *)
Record item_wr {T} (it : fsitem T) (wf : T -> Prop) (W : T -> list N) : Prop := {
  io_enc : forall a, wf a -> writes (fs_enc it a) (W a) tt;
  io_size : forall a, wf a -> fs_size it a = length (W a)
}.
Definition item_rd {T} (it : fsitem T) (wf : T -> Prop) (W : T -> list N) (nm : T -> T) : Prop :=
  forall a rest, wf a -> fs_dec it (W a ++ rest) = Ok (nm a, length (W a)).
Section Rule.
Context {T : Type} (it : fsitem T) (wf : T -> Prop) (W : T -> list N) (HI : item_wr it wf W).

Lemma fs_nlen_skew r : fs_wf wf r -> (fs_nlen it r + skew r = S (length (fs_body W r)))%nat.
Proof.
  destruct r; cbn [fs_wf fs_nlen skew fs_body length]; intros H;
    try (rewrite (io_size _ _ _ HI) by exact H; lia);
    try (pose proof (vec_byteslen_skew _ _ _ _ val_ok v H); lia);
    pose proof (vec_byteslen_skew _ _ _ _ mask_ok v H); lia.
Qed.
Lemma writes_put r pos : fs_wf wf r -> writes_at pos
  (match r with
  | FsDst a => fs_put_pfx it 1 a pos
  | FsSrc a => fs_put_pfx it 2 a pos
  | FsProto v => fs_put_vec fsvalop 3 v pos
  | FsPortAny v => fs_put_vec fsvalop 4 v pos
  | FsPortDst v => fs_put_vec fsvalop 5 v pos
  | FsPortSrc v => fs_put_vec fsvalop 6 v pos
  | FsIcmpType v => fs_put_vec fsvalop 7 v pos
  | FsIcmpCode v => fs_put_vec fsvalop 8 v pos
  | FsTcpFlags v => fs_put_vec fsmaskop 9 v pos
  | FsPacketLength v => fs_put_vec fsvalop 10 v pos
  | FsDscp v => fs_put_vec fsvalop 11 v pos
  | FsFragment v => fs_put_vec fsmaskop 12 v pos
  | FsFlowLabel v => fs_put_vec fsvalop 13 v pos
  end) (fs_body W r) (pos + length (fs_body W r))%nat.
Proof.
  assert (GP : forall c a, wf a -> writes_at pos (fs_put_pfx it c a pos) (c :: W a) (pos + length (c :: W a))%nat).
  { intros c a H. unfold fs_put_pfx. change (c :: W a) with ([c] ++ W a). rewrite <- (app_nil_r (W a)) at 1.
    eapply writes_next; [apply writes_at_set_idx|reflexivity|].
    eapply writes_next; [apply writes_on_from, (io_enc _ _ _ HI); exact H|reflexivity|].
    apply writes_ret_nil. rewrite (io_size _ _ _ HI) by exact H. rewrite app_length. cbn [length]. lia. }
  assert (GV : forall U (o : fsoper U) WU ok sk (HO : oper_ok o WU ok sk) c v, Forall ok v ->
     writes_at pos (fs_put_vec o c v pos) (c :: vec_wire WU v) (pos + length (c :: vec_wire WU v))%nat).
  { intros U o WU ok sk HO c v H. unfold fs_put_vec. change (c :: vec_wire WU v) with ([c] ++ vec_wire WU v). rewrite <- (app_nil_r (vec_wire WU v)) at 1.
    eapply writes_next; [apply writes_at_set_idx|reflexivity|].
    eapply writes_next; [apply writes_on_from, (writes_vec _ _ _ _ HO); exact H|reflexivity|].
    apply writes_ret_nil. rewrite app_length. cbn [length]. lia. }
  destruct r; cbn [fs_wf fs_body fs_code]; intros H; try (apply GP; exact H);
    try (apply (GV _ _ _ _ _ val_ok); exact H); apply (GV _ _ _ _ _ mask_ok); exact H.
Qed.
Lemma writes_hdr n : (240 <= n <= 4095)%nat -> forall buf, (2 <= length buf)%nat ->
  (setn_u16 (cast 16 (N.of_nat n)) ;;; upd_idx 0 (fun b => N.lor b 240)) buf = Ok (tt, splice 0 (be_bytes 2 (61440 + N.of_nat n)) buf).
Proof.
  intros Hn buf Hb. unfold ebind.
  assert (C : cast 16 (N.of_nat n) = N.of_nat n) by (unfold cast; apply N.mod_small; change (2 ^ 16) with 65536; lia).
  rewrite C. rewrite (writes_setn_u16 (N.of_nat n)) by (rewrite length_be_bytes; lia).
  cbn [be_bytes]. change (8 * N.of_nat 1) with 8. change (8 * N.of_nat 0) with 0. rewrite !N.pow_0_r, !N.div_1_r.
  set (hi := (N.of_nat n / 2 ^ 8) mod 256). set (lo := N.of_nat n mod 256).
  assert (L : N.of_nat n / 2 ^ 8 < 16) by (apply N.div_lt_upper_bound; [discriminate|]; change (2 ^ 8) with 256; lia).
  replace (((61440 + N.of_nat n) / 2 ^ 8) mod 256) with (N.lor hi 240).
  2:{ unfold hi. rewrite (N.mod_small (N.of_nat n / 2 ^ 8)) by lia. rewrite N.lor_comm, (lor_disj 4); [|reflexivity|exact L].
      change 61440 with (240 * 2 ^ 8). rewrite N.add_comm, (N.add_comm (240 * 2 ^ 8)), N.div_add by discriminate. symmetry. rewrite N.mod_small by lia. reflexivity. }
  replace ((61440 + N.of_nat n) mod 256) with lo.
  2:{ unfold lo. change 61440 with (240 * 256). rewrite N.add_comm, N.mod_add by discriminate. reflexivity. }
  unfold upd_idx. destruct buf as [|x [|y buf]]; cbn [length] in Hb; [lia|lia|]. reflexivity.
Qed.
Lemma fs_encode_run r buf : fs_wf wf r -> (fs_nlen it r <= 4094)%nat ->
  let out := fs_len_wire (fs_nlen it r) ++ fs_body W r in
  (length out <= length buf)%nat -> (length (fs_len_wire (fs_nlen it r)) + fs_nlen it r <= length buf)%nat ->
  fs_encode it r buf = Ok (length out, splice 0 out buf).
Proof.
  intros Hr Hn out Hb1 Hb2. unfold fs_encode. destruct (Nat.ltb_spec 4094 (fs_nlen it r)); [lia|].
  set (n := fs_nlen it r) in *.
  assert (HP : forall B (f : nat -> Enc B), ebind (if Nat.ltb n 240 then
            len <~ elen ;;
            if Nat.ltb len (n + 1) then eerr EInsufficient else
            set_idx 0 (cast 8 (N.of_nat n)) ;;; eret 1%nat
          else
            len <~ elen ;;
            if Nat.ltb len (n + 2) then eerr EInsufficient else
            setn_u16 (cast 16 (N.of_nat n)) ;;; upd_idx 0 (fun b => N.lor b 240) ;;; eret 2%nat) f buf =
     f (length (fs_len_wire n)) (splice 0 (fs_len_wire n) buf)).
  { intros B f. rewrite fs_hdr_len in *. unfold fs_len_wire. destruct (Nat.ltb_spec n 240) as [HL|HL].
    - unfold elen, ebind. destruct (Nat.ltb_spec (length buf) (n + 1)); [lia|].
      rewrite (writes_at_set_idx 0) by (cbn [length]; lia). unfold eret.
      replace (cast 8 (N.of_nat n)) with (N.of_nat n); [reflexivity|]. unfold cast. symmetry. apply N.mod_small. change (2 ^ 8) with 256. lia.
    - pose proof (writes_hdr n ltac:(lia) buf ltac:(lia)) as WH. unfold ebind in WH |- *. unfold elen.
      destruct (Nat.ltb_spec (length buf) (n + 2)); [lia|].
      destruct (setn_u16 (cast 16 (N.of_nat n)) buf) as [[[] b']| | |]; try discriminate. rewrite WH. reflexivity. }
  rewrite HP. clear HP. set (h := fs_len_wire n) in *.
  pose proof (writes_put r (length h) Hr) as WP. unfold out in *. rewrite app_length in *.
  transitivity (Ok ((length h + length (fs_body W r))%nat, splice (length h) (fs_body W r) (splice 0 h buf))).
  { apply WP. rewrite length_splice by lia. lia. }
  f_equal. f_equal. pose proof (splice_splice_adj 0 h (fs_body W r) buf ltac:(lia)) as S1. rewrite Nat.add_0_l in S1. exact S1.
Qed.
Lemma writes_fs r : fs_wf wf r -> skew r = 1%nat -> (length (fs_body W r) <= 4094)%nat ->
  writes (fs_encode it r) (fs_wire W r) (length (fs_wire W r)).
Proof.
  intros Hr Hs Hb buf HB. pose proof (fs_nlen_skew r Hr) as HN. assert (EN : fs_nlen it r = length (fs_body W r)) by lia.
  pose proof (fs_encode_run r buf Hr ltac:(lia)) as G. cbv zeta in G. rewrite EN in G. unfold fs_wire in *.
  apply G; [exact HB|rewrite app_length in HB; lia].
Qed.

(** ** decoding *)
Lemma arm_vec_ok {U} (o : fsoper U) WU ok sk (HO : oper_ok o WU ok sk) (wrap : list U -> flowspec T) v c rest :
  Forall ok v -> (length (vec_wire WU v) < 4095)%nat ->
  let n := S (length (vec_wire WU v)) in
  fs_arm_vec o wrap (fs_len_wire n ++ c :: vec_wire WU v ++ rest) (length (fs_len_wire n)) (n + length (fs_len_wire n)) =
  Ok (wrap v, length (fs_len_wire n ++ c :: vec_wire WU v)).
Proof.
  intros Hv Hl n. unfold fs_arm_vec. rewrite fs_slice by (unfold n; rewrite ?app_length; lia). rewrite bind_ok.
  rewrite firstn_app_exact by (unfold n; lia). rewrite (vec_dec_ok _ _ _ _ HO) by exact Hv. rewrite bind_ok.
  do 2 f_equal. rewrite app_length. cbn [length]. lia.
Qed.
Lemma arm_pfx_ok nm (HD : item_rd it wf W nm) (wrap : T -> flowspec T) a c rest : wf a -> (length (W a) < 4095)%nat ->
  let n := S (length (W a)) in
  fs_arm_pfx it wrap (fs_len_wire n ++ c :: W a ++ rest) (length (fs_len_wire n)) (n + length (fs_len_wire n)) =
  Ok (wrap (nm a), S (length (fs_len_wire n ++ c :: W a))).
Proof.
  intros Ha Hl n. unfold fs_arm_pfx. rewrite fs_slice by (unfold n; rewrite ?app_length; lia). rewrite bind_ok.
  rewrite firstn_app_exact by (unfold n; lia). rewrite <- (app_nil_r (W a)) at 1. rewrite HD by exact Ha. rewrite bind_ok.
  do 2 f_equal. rewrite app_length. cbn [length]. lia.
Qed.
Lemma fs_decode_pfx nm (HD : item_rd it wf W nm) r rest : fs_wf wf r -> is_pfx r -> (length (fs_body W r) <= 4095)%nat ->
  fs_decode it (fs_wire W r ++ rest) = Ok (fs_map nm r, S (length (fs_wire W r))).
Proof.
  intros Hr Hp Hb. unfold fs_wire. rewrite <- app_assoc.
  destruct r; try (exfalso; exact Hp); cbn [fs_body fs_code fs_wf length app fs_map] in *; rewrite fs_dec_hdr by lia;
    cbn [N.eqb Pos.eqb]; apply arm_pfx_ok; auto; lia.
Qed.
Lemma fs_decode_oper r rest : fs_wf wf r -> ~ is_pfx r -> (length (fs_body W r) <= 4095)%nat ->
  fs_decode it (fs_wire W r ++ rest) = Ok (r, length (fs_wire W r)).
Proof.
  intros Hr Hp Hb. unfold fs_wire. rewrite <- app_assoc.
  destruct r; try (exfalso; apply Hp; exact I); cbn [fs_body fs_code fs_wf length app] in *; rewrite fs_dec_hdr by lia;
    cbn [N.eqb Pos.eqb]; try (apply (arm_vec_ok _ _ _ _ val_ok); [exact Hr|lia]); (apply (arm_vec_ok _ _ _ _ mask_ok); [exact Hr|lia]).
Qed.
Lemma arm_vec_bad {U} (o : fsoper U) WU ok sk (HO : oper_ok o WU ok sk) (wrap : list U -> flowspec T) v c rest n q :
  (forall a b, wrap a = wrap b -> a = b) ->
  Forall ok v -> n <> S (length (vec_wire WU v)) ->
  fs_arm_vec o wrap (fs_len_wire n ++ c :: vec_wire WU v ++ rest) (length (fs_len_wire n)) (n + length (fs_len_wire n)) <> Ok (wrap v, q).
Proof.
  intros Hw Hv Hn H. unfold fs_arm_vec in H. binv H. apply fs_slice_inv in E as (A & B & ->).
  apply bind_Ok_inv in H as ([v' m] & E & H). assert (v' = v) by (apply Hw; congruence). subst v'. rewrite app_length in B.
  rewrite firstn_app in E. destruct (Nat.le_gt_cases (n - 1) (length (vec_wire WU v))) as [L|L].
  - replace (n - 1 - length (vec_wire WU v))%nat with 0%nat in E by lia. cbn [firstn] in E. rewrite app_nil_r in E.
    apply (vec_dec_short _ _ _ _ HO) in E; auto. lia.
  - rewrite firstn_all2 in E by lia. apply (vec_dec_long _ _ _ _ HO) in E; auto.
    intros C. apply (f_equal (@length N)) in C. rewrite firstn_length in C. cbn [length] in C. lia.
Qed.
Lemma fs_bad r rest n q : fs_wf wf r -> ~ is_pfx r -> (n <= 4095)%nat -> n <> length (fs_body W r) ->
  fs_decode it (fs_len_wire n ++ fs_body W r ++ rest) <> Ok (r, q).
Proof.
  intros Hr Hp Hn Hb.
  destruct r; try (exfalso; apply Hp; exact I); cbn [fs_body fs_code fs_wf length app] in *; rewrite fs_dec_hdr by lia;
    cbn [N.eqb Pos.eqb];
    try (apply (arm_vec_bad _ _ _ _ val_ok); [congruence|exact Hr|exact Hb]); (apply (arm_vec_bad _ _ _ _ mask_ok); [congruence|exact Hr|exact Hb]).
Qed.
Lemma fs_encode_long r buf n out : fs_wf wf r -> fs_encode it r buf = Ok (n, out) -> (fs_nlen it r <= 4094)%nat.
Proof. intros _ H. unfold fs_encode in H. destruct (Nat.ltb_spec 4094 (fs_nlen it r)); [discriminate|auto]. Qed.
Lemma fs_refuted r buf n out q : fs_wf wf r -> ~ is_pfx r -> skew r <> 1%nat -> (length (fs_body W r) + 3 <= length buf)%nat ->
  fs_encode it r buf = Ok (n, out) ->
  fs_decode it (firstn n out) <> Ok (r, q) /\ fs_decode it out <> Ok (r, q).
Proof.
  intros Hr Hp Hs Hb HE. pose proof (fs_encode_long _ _ _ _ Hr HE) as HL. pose proof (fs_nlen_skew r Hr) as HN.
  assert (HH : (length (fs_len_wire (fs_nlen it r)) <= 2)%nat) by (rewrite fs_hdr_len; destruct (Nat.ltb _ _); lia).
  rewrite fs_encode_run in HE by (auto; rewrite ?app_length; lia).
  assert (J : forall (A : Type) (x y : A), Ok x = Ok y -> x = y) by congruence. apply J, pair_equal_spec in HE as [<- <-].
  unfold splice. cbn [firstn app Nat.add]. rewrite firstn_app_exact by reflexivity. rewrite <- !app_assoc. split.
  - rewrite <- (app_nil_r (fs_body W r)). apply fs_bad; auto; lia.
  - apply fs_bad; auto; lia.
Qed.
End Rule.

(** ** the three prefix kinds *)
Lemma fs4_wr oc : item_wr (fs4 oc) v4_wf fs4_wire.
Proof.
  constructor; intros a H; destruct (v4_codec oc a H) as [H1 _].
  - cbn [fs4 fs_enc]. unfold fs4_enc, fs4_wire. change (?x :: ?y) with ([x] ++ y). rewrite <- (app_nil_r (snd (v4_wire a))).
    eapply writes_next; [apply writes_at_set_idx|reflexivity|].
    eapply writes_next; [apply writes_on_from; exact H1|reflexivity|]. apply writes_ret_nil. reflexivity.
  - cbn [fs4 fs_size]. unfold fs4_wire. cbn [length]. destruct H as [_ H]. pose proof (prefix_octets_le (v4_len a) 4 H).
    cbn [v4_wire snd]. rewrite firstn_length, length_be_bytes. unfold pfx_bytes. fold (prefix_octets (v4_len a)). lia.
Qed.
Lemma fs4_rd oc : item_rd (fs4 oc) v4_wf fs4_wire v4_trunc.
Proof.
  intros a rest H. destruct (v4_codec oc a H) as [_ H1]. cbn [fs4 fs_dec]. unfold fs4_dec, fs4_wire. cbn [app]. rewrite idx_0, bind_ok.
  rewrite rfrom_ok by (cbn [length]; lia). rewrite bind_ok. cbn [skipn]. rewrite H1, bind_ok. do 2 f_equal. cbn [length]. lia.
Qed.
Lemma fs6_wr oc : item_wr (fs6i oc) fs6_wf fs6_wire.
Proof.
  constructor; intros [a o] [H Ho]; cbn [fs6_ip fs6_offset] in *; destruct (v6_codec oc a H) as [H1 _].
  - cbn [fs6i fs_enc]. unfold fs6_enc, fs6_wire. cbn [fs6_ip fs6_offset]. change (?x :: ?y :: ?z) with ([x] ++ [y] ++ z). rewrite <- (app_nil_r (snd (v6_wire a))).
    eapply writes_next; [apply writes_at_set_idx|reflexivity|].
    eapply writes_next; [apply writes_at_set_idx|reflexivity|].
    eapply writes_next; [apply writes_on_from; exact H1|reflexivity|]. apply writes_ret_nil. reflexivity.
  - cbn [fs6i fs_size fs6_ip]. unfold fs6_wire. cbn [length fs6_ip]. destruct H as [_ H]. pose proof (prefix_octets_le (v6_len a) 16 H).
    cbn [v6_wire snd]. rewrite firstn_length, length_be_bytes. unfold pfx_bytes. fold (prefix_octets (v6_len a)). lia.
Qed.
Lemma fs6_rd oc : item_rd (fs6i oc) fs6_wf fs6_wire fs6_trunc.
Proof.
  intros [a o] rest [H Ho]. cbn [fs6_ip fs6_offset] in *. destruct (v6_codec oc a H) as [_ H1]. cbn [fs6i fs_dec]. unfold fs6_dec, fs6_wire. cbn [app fs6_ip fs6_offset]. rewrite idx_0, bind_ok.
  rewrite rfrom_ok by (cbn [length]; lia). rewrite bind_ok. cbn [skipn]. rewrite H1, bind_ok, idx_1, bind_ok. do 2 f_equal. cbn [length]. lia.
Qed.
Lemma fsv4_dec_zero oc t x n : fsv4_dec oc (0 :: t) <> Ok (x, n).
Proof.
  unfold fsv4_dec. intros H. binv H. apply bind_Ok_inv in H as ([rd m] & _ & H). rewrite idx_0, bind_ok in H.
  destruct oc; [discriminate|]. change (usub false 8 0 64) with (@Ok N 192) in H. rewrite bind_ok in H. binv H.
  apply bind_Ok_inv in H as ([? ?] & E1 & _). unfold v4_from_bits in E1. binv E1. change (32 <? 192) with true in E1. discriminate.
Qed.

(** the code of a decoded rule is the code octet *)
Lemma fs_decode_code {T} (it : fsitem T) b c t r n : N.land b 240 <> 240 -> fs_decode it (b :: c :: t) = Ok (r, n) -> c = fs_code r /\
  (is_pfx r -> exists s m, rslice (b :: c :: t) 2 (N.to_nat b + 1) = Ok s /\
     (r = match r with FsSrc _ => FsSrc (fst m) | _ => FsDst (fst m) end) /\ fs_dec it s = Ok m).
Proof.
  intros Hb H. unfold fs_decode in H. rewrite idx_0, bind_ok in H.
  destruct (N.eqb_spec (N.land b 240) 240) as [|_]; [congruence|]. rewrite bind_ok, idx_1, bind_ok in H.
  assert (GP : forall wrap, fs_arm_pfx it wrap (b :: c :: t) 1 (N.to_nat b + 1) = Ok (r, n) ->
     exists s m, rslice (b :: c :: t) 2 (N.to_nat b + 1) = Ok s /\ r = wrap (fst m) /\ fs_dec it s = Ok m).
  { intros wrap G. unfold fs_arm_pfx in G. binv G. apply bind_Ok_inv in G as ([m k] & E1 & G). exists x, (m, k). split; [exact E|]. split; [cbn; congruence|auto]. }
  assert (GV : forall U (o : fsoper U) wrap, fs_arm_vec o wrap (b :: c :: t) 1 (N.to_nat b + 1) = Ok (r, n) -> exists v, r = wrap v).
  { intros U o wrap G. unfold fs_arm_vec in G. binv G. apply bind_Ok_inv in G as ([m k] & E1 & G). exists m. congruence. }
  destruct (N.eqb_spec c 1) as [-> |_]; [apply GP in H as (s & m & A & -> & B); split; [reflexivity|intros _; exists s, m; auto]|].
  destruct (N.eqb_spec c 2) as [-> |_]; [apply GP in H as (s & m & A & -> & B); split; [reflexivity|intros _; exists s, m; auto]|].
  repeat match type of H with (if N.eqb c ?k then _ else _) = _ => destruct (N.eqb_spec c k) as [-> |_];
    [apply GV in H as [v ->]; split; [reflexivity|intros []]|] end.
  discriminate.
Qed.
Lemma fs4_list_refuted oc r1 r2 l q buf : fs_wf v4_wf r1 -> fs_wf v4_wf r2 -> is_pfx r1 -> is_pfx r2 ->
  Forall (fun r => fs_wf v4_wf r /\ skew r = 1%nat /\ (length (fs_body fs4_wire r) <= 4094)%nat) l ->
  (length (flat_map (fs_wire fs4_wire) (r1 :: r2 :: l)) <= length buf)%nat ->
  exists n out, encode_bgpaddritems_to (fs_encode (fs4 oc)) (r1 :: r2 :: l) buf = Ok (n, out) /\
    decode_bgpaddritems_from (fs_decode (fs4 oc)) (firstn n out) <> Ok (map (fs_map v4_trunc) (r1 :: r2 :: l), q).
Proof.
  intros H1 H2 P1 P2 Hl Hb.
  assert (S1 : forall r : flowspec addrV4, is_pfx r -> skew r = 1%nat) by (intros []; try contradiction; reflexivity).
  assert (L1 : forall r, fs_wf v4_wf r -> is_pfx r -> (length (fs_body fs4_wire r) <= 6)%nat).
  { intros r Hr Hp. destruct r; try contradiction; cbn [fs_body length fs_wf] in *; unfold fs4_wire; cbn [length v4_wire snd];
      rewrite firstn_length, length_be_bytes; lia. }
  assert (HW : writes (encode_bgpaddritems_to (fs_encode (fs4 oc)) (r1 :: r2 :: l)) (flat_map (fs_wire fs4_wire) (r1 :: r2 :: l)) (length (flat_map (fs_wire fs4_wire) (r1 :: r2 :: l)))).
  { apply writes_addritems. intros x [<- |[<- |Hx]].
    - apply (writes_fs _ _ _ (fs4_wr oc)); auto. pose proof (L1 r1 H1 P1). lia.
    - apply (writes_fs _ _ _ (fs4_wr oc)); auto. pose proof (L1 r2 H2 P2). lia.
    - rewrite Forall_forall in Hl. destruct (Hl x Hx) as (A & B & C). apply (writes_fs _ _ _ (fs4_wr oc)); auto. }
  eexists _, _. split; [apply HW; exact Hb|]. unfold splice. cbn [firstn app Nat.add]. rewrite firstn_app_exact by reflexivity.
  cbn [flat_map map]. set (rest := flat_map (fs_wire fs4_wire) l). set (w := fs_wire fs4_wire r1 ++ fs_wire fs4_wire r2 ++ rest).
  intros H. unfold decode_bgpaddritems_from in H. cbn [dec_loop] in H.
  assert (Hw : (length (fs_wire fs4_wire r1) + 2 < length w)%nat).
  { unfold w. rewrite !app_length. assert (3 <= length (fs_wire fs4_wire r2))%nat; [|lia].
    unfold fs_wire. rewrite app_length, fs_hdr_len. destruct r2; try contradiction; unfold fs_body, fs4_wire; cbn [length]; match goal with |- context[if ?b then _ else _] => destruct b end; lia. }
  destruct (Nat.ltb_spec 0 (length w)) as [_|]; [|lia]. rewrite rfrom_ok in H by lia. cbn [skipn] in H. rewrite bind_ok in H.
  unfold w in H at 1. pose proof (L1 r1 H1 P1). pose proof (L1 r2 H2 P2).
  rewrite (fs_decode_pfx _ _ _ _ (fs4_rd oc)) in H by (auto; lia). rewrite bind_ok in H. apply bind_Ok_inv in H as ([v' p] & E & HE).
  assert (V : v' = fs_map v4_trunc r2 :: map (fs_map v4_trunc) l) by congruence. subst v'. clear HE. rewrite Nat.add_0_l in E.
  destruct (length w) as [|fuel] eqn:EL; [lia|]. cbn [dec_loop] in E. rewrite EL in E.
  destruct (Nat.ltb_spec (S (length (fs_wire fs4_wire r1))) (S fuel)) as [_|]; [|lia].
  rewrite rfrom_ok in E by lia. rewrite bind_ok in E.
  assert (SK : skipn (S (length (fs_wire fs4_wire r1))) w = fs_body fs4_wire r2 ++ rest).
  { unfold w. rewrite <- (Nat.add_1_r (length _)). rewrite <- skipn_skipn', skipn_app_exact by reflexivity.
    unfold fs_wire, fs_len_wire. destruct (Nat.ltb_spec (length (fs_body fs4_wire r2)) 240); [|lia]. reflexivity. }
  rewrite SK in E. apply bind_Ok_inv in E as ([r n] & E & HE).
  apply bind_Ok_inv in HE as ([? ?] & _ & HE). assert (R : r = fs_map v4_trunc r2) by congruence. subst r. clear HE.
  assert (G : forall k a, fs_wf v4_wf (FsDst a) -> k <= 2 -> fs_body fs4_wire r2 = k :: fs4_wire a -> fs_code r2 = k -> 
     (r2 = FsDst a \/ r2 = FsSrc a) -> False).
  2:{ destruct r2; try contradiction; [apply (G 1 a)|apply (G 2 a)]; auto; lia. }
  intros k a Ha Hk EB EC ER. rewrite EB in E. unfold fs4_wire in E. cbn [app] in E.
  apply fs_decode_code in E as (E1 & E2). 2:{ assert (k = 0 \/ k = 1 \/ k = 2) as [-> |[-> | ->]] by lia; discriminate. }
  assert (CK : fs_code (fs_map v4_trunc r2) = fs_code r2) by (destruct r2; reflexivity). rewrite CK, EC in E1.
  destruct E2 as (s & m & A & B & C); [destruct r2; try contradiction; exact I|]. cbn [fs4 fs_dec] in C. unfold fs4_dec in C.
  assert (LV : v4_len (fst m) = k).
  { cbn [v4_wire fst] in E1. rewrite <- E1. destruct ER as [-> | ->]; cbn [fs_map] in B; injection B as <-; reflexivity. }
  apply rslice_Ok_inv in A as (_ & _ & A). rewrite A in *. clear A.
  assert (KK : k = 1 \/ k = 2) by (destruct ER as [-> | ->]; cbn [fs_code] in EC; lia).
  destruct KK as [KK|KK]; rewrite KK in C, LV.
  - change (N.to_nat 1 + 1)%nat with 2%nat in C. unfold sub in C. cbn [Nat.sub firstn] in C. discriminate.
  - change (N.to_nat 2 + 1)%nat with 3%nat in C. unfold sub in C. cbn [Nat.sub skipn] in C.
    destruct (snd (v4_wire a) ++ rest) as [|y0 ys]; [discriminate|]. cbn [firstn] in C. rewrite idx_0, bind_ok in C.
    rewrite rfrom_ok in C by (cbn; lia). cbn [skipn] in C. rewrite bind_ok in C. apply bind_Ok_inv in C as ([x' n'] & C & C2).
    injection C2 as <-. cbn [fst] in LV. unfold v4_from_bits in C. binv C.
    destruct (32 <? y0); [discriminate|]. cbn [orb length] in C.
    destruct (Nat.ltb_spec 0 x); [discriminate|]. destruct (N.eqb_spec y0 0).
    + binv C. injection C as <- _. discriminate.
    + binv C. binv C. injection C as <- _. cbn [v4_len] in LV. subst y0. unfold bits_bytes in E. destruct oc; vm_compute in E; injection E as <-; lia.
Qed.
Lemma fsv4_wr oc : item_wr (fsv4 oc) (withrd_wf v4_wf) (fun x => [0; 0] ++ snd (withrd_wire v4_wire x)).
Proof.
  constructor; intros a H.
  - assert (F : fits (withrd_wire v4_wire) a).
    { unfold fits. cbn [withrd_wire fst v4_wire]. destruct H as (_ & _ & H). lia. }
    destruct (withrd_codec oc _ _ _ _ _ (v4_codec oc) a (conj H F)) as [H1 _].
    cbn [fsv4 fs_enc]. unfold fsv4_enc. change ([0; 0] ++ ?y) with ([0] ++ [0] ++ y). rewrite <- (app_nil_r (snd (withrd_wire v4_wire a))).
    eapply writes_next; [apply writes_at_set_idx|reflexivity|].
    eapply writes_next; [apply writes_at_set_idx|reflexivity|].
    eapply writes_next; [apply writes_on_from; exact H1|reflexivity|]. apply writes_ret_nil. reflexivity.
  - cbn [fsv4 fs_size withrd_wire snd]. destruct H as (_ & _ & H). pose proof (prefix_octets_le (v4_len (wrd_prefix a)) 4 H).
    rewrite !app_length. cbn [v4_wire snd length]. unfold rd_wire. rewrite app_length, firstn_length, !length_be_bytes. unfold pfx_bytes. fold (prefix_octets (v4_len (wrd_prefix a))). lia.
Qed.
Lemma fsv4_refuted oc r buf : fs_wf (withrd_wf v4_wf) r -> is_pfx r -> (20 <= length buf)%nat ->
  exists n out, fs_encode (fsv4 oc) r buf = Ok (n, out) /\ (forall x, fs_decode (fsv4 oc) (firstn n out) <> Ok x) /\ (forall x, fs_decode (fsv4 oc) out <> Ok x).
Proof.
  intros Hr Hp Hb. set (W := fun x : withRd addrV4 => [0; 0] ++ snd (withrd_wire v4_wire x)).
  assert (S1 : skew r = 1%nat) by (destruct r; try contradiction; reflexivity).
  assert (L : (length (fs_body W r) <= 15)%nat).
  { destruct r; try contradiction; cbn [fs_body length]; unfold W; cbn [app length withrd_wire snd v4_wire]; unfold rd_wire;
      rewrite !app_length, firstn_length, !length_be_bytes; lia. }
  assert (HH : length (fs_len_wire (length (fs_body W r))) = 1%nat) by (rewrite fs_hdr_len; destruct (Nat.ltb_spec (length (fs_body W r)) 240); lia).
  pose proof (writes_fs _ _ W (fsv4_wr oc) r Hr S1 ltac:(lia) buf ltac:(unfold fs_wire; rewrite app_length; lia)) as E.
  eexists _, _. split; [exact E|].
  assert (G : forall rest x, fs_decode (fsv4 oc) (fs_wire W r ++ rest) <> Ok x).
  { intros rest [x k] HD. unfold fs_wire in HD. rewrite <- app_assoc in HD.
    destruct r; try contradiction; cbn [fs_body fs_code length app] in *; rewrite fs_dec_hdr in HD by lia; cbn [N.eqb Pos.eqb] in HD;
    unfold fs_arm_pfx in HD; rewrite fs_slice in HD by (rewrite ?app_length; lia); rewrite bind_ok in HD;
    apply bind_Ok_inv in HD as ([y m] & HD & _); unfold W in HD; cbn [app length Nat.sub firstn] in HD; apply fsv4_dec_zero in HD; exact HD. }
  unfold splice. cbn [firstn app Nat.add]. rewrite firstn_app_exact by reflexivity. split; intros x; [rewrite <- (app_nil_r (fs_wire W r))|]; apply G.
Qed.
