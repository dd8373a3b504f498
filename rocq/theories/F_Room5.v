(** Which encoders depend on nothing but the value: attributes and messages. *)
From Verif Require Import Base BaseFacts M_Util S_Wire F_Util M_Nlri S_Nlri F_Nlri M_Vpls F_Lay M_Prefix M_Mvpn M_Evpn M_Flowspec M_Addrs M_Attr M_Update M_Cap M_Open M_Session M_Peer
  S_Room F_Room F_Room2 F_Room3 F_Room4.
Ltac Zify.zify_post_hook ::= idtac.

Lemma fit_as_write as32 v : forall p, fit p (as_write as32 v p) (fun n q => n = q /\ q = (p + length v * (if as32 then 4 else 2))%nat).
Proof.
  induction v as [|i v IH]; intros p; cbn [as_write length].
  - apply fit_ret. lia.
  - destruct as32.
    + fb (fun (_ : unit) q => q = (p + 4)%nat); [now apply fit_s32|]. intros _ q ->. eapply fit_post; [apply IH|]. intros n q [-> ->]. lia.
    + fb (fun (_ : unit) q => q = (p + 2)%nat); [now apply fit_s16|]. intros _ q ->. eapply fit_post; [apply IH|]. intros n q [-> ->]. lia.
Qed.
Lemma fit_aspath p v : fit 0 (aspath_encode p v) (fun n q => n = q).
Proof.
  unfold aspath_encode. destruct v as [|a v]; [now apply fit_ret|]. set (w := a :: v).
  apply fit_post with (Q := fun n q => n = q /\ q = (2 + length w * (if sp_as32 p then 4 else 2))%nat); [|now intros n q [H _]].
  apply fit_guard; [|intros n q [_ ->]; lia]. fb (fun (_ : unit) q => q = 1%nat); [now apply fit_set_idx|]. intros _ q ->.
  fb (fun (_ : unit) q => q = 2%nat); [now apply fit_set_idx|]. intros _ q ->. apply fit_as_write.
Qed.
Lemma fit_put_u32 k (er : err) v : k = 4%nat -> fit 0 (len <~ elen ;; if Nat.leb k len then setn_u32 v ;;; eret 4%nat else eerr er) (fun n q => n = q /\ q = 4%nat).
Proof.
  intros ->. apply fit_guard'; [|intros n q [_ ->]; lia]. fb (fun (_ : unit) q => q = 4%nat); [now apply fit_u32|]. intros _ q ->. now apply fit_ret.
Qed.
Lemma fit_comm v : fit 0 (comm_encode v) (fun n q => n = q /\ q = 4%nat).
Proof.
  unfold comm_encode. apply fit_guard; [|intros n q [_ ->]; lia]. fb (fun (_ : unit) q => q = 4%nat); [now apply fit_u32|]. intros _ q ->. now apply fit_ret.
Qed.
Lemma fit_addritems_len {T} (enc : T -> Enc nat) k v : (forall i, fit 0 (enc i) (fun n q => n = q /\ q = k)) ->
  forall p, fit p (enc_addritems enc v p) (fun n q => n = q /\ q = (p + length v * k)%nat).
Proof.
  intros H. induction v as [|i v IH]; intros p; cbn [enc_addritems length].
  - apply fit_ret. lia.
  - fb (fun n q => n = k /\ q = (p + k)%nat); [eapply fit_on_from; [apply H|]; intros n q [-> ->]; lia|].
    intros n q [-> ->]. eapply fit_post; [apply IH|]. intros n q [-> ->]. lia.
Qed.
Lemma fit_community v : fit 0 (community_encode v) (fun n q => n = q).
Proof.
  unfold community_encode. apply fit_post with (Q := fun n q => n = q /\ q = (0 + length v * 4)%nat); [|now intros n q [H _]].
  apply fit_guard; [|intros n q [_ ->]; lia]. apply (fit_addritems_len comm_encode 4), fit_comm.
Qed.
Lemma fit_lcomm x : fit 0 (lcomm_encode x) (fun n q => n = q).
Proof.
  unfold lcomm_encode. apply fit_post with (Q := fun n q => n = q /\ q = 12%nat); [|now intros n q [H _]].
  apply fit_guard; [|intros n q [_ ->]; lia]. fb (fun (_ : unit) q => q = 4%nat); [now apply fit_u32|]. intros _ q ->.
  fb (fun (_ : unit) q => q = 8%nat); [now apply fit_s32|]. intros _ q ->. fb (fun (_ : unit) q => q = 12%nat); [now apply fit_s32|]. intros _ q ->. now apply fit_ret.
Qed.
Lemma fit_ecomm x : fit 0 (ecomm_encode x) (fun n q => n = q).
Proof.
  unfold ecomm_encode. apply fit_post with (Q := fun n q => n = q /\ q = 8%nat); [|now intros n q [H _]].
  apply fit_guard; [|intros n q [_ ->]; lia]. fb (fun (_ : unit) q => q = 1%nat); [now apply fit_set_idx|]. intros _ q ->.
  fb (fun (_ : unit) q => q = 2%nat); [now apply fit_set_idx|]. intros _ q ->.
  fb (fun (_ : unit) q => q = 4%nat); [now apply fit_s16|]. intros _ q ->. fb (fun (_ : unit) q => q = 8%nat); [now apply fit_s32|]. intros _ q ->. now apply fit_ret.
Qed.
Lemma fit_connector asn a o : fit 0 (connector_encode asn a o) (fun n q => n = q).
Proof.
  unfold connector_encode. apply fit_post with (Q := fun n q => n = q /\ q = 14%nat); [|now intros n q [H _]].
  apply fit_guard'; [|intros n q [_ ->]; lia]. fb (fun (_ : unit) q => q = 2%nat); [now apply fit_u16|]. intros _ q ->.
  fb (fun (_ : unit) q => q = 6%nat); [now apply fit_s32|]. intros _ q ->.
  fb (fun (_ : nat) q => q = 10%nat); [now apply fit_s4|]. intros _ q ->.
  fb (fun (_ : nat) q => q = 14%nat); [now apply fit_s4|]. intros _ q ->. now apply fit_ret.
Qed.
Lemma fit_rd4 rd a : fit 0 (v4rd_encode rd a) (fun n q => n = q).
Proof.
  unfold v4rd_encode. fb (fun n q => n = 8%nat /\ q = 8%nat); [now apply fit_rd|]. intros n q [-> ->].
  fb (fun n q => n = 4%nat /\ q = 12%nat); [now apply fit_f4|]. intros n q [-> ->]. now apply fit_ret.
Qed.
Lemma fit_rd6 rd a : fit 0 (v6rd_encode rd a) (fun n q => n = q).
Proof.
  unfold v6rd_encode. fb (fun n q => n = 8%nat /\ q = 8%nat); [now apply fit_rd|]. intros n q [-> ->].
  fb (fun n q => n = 16%nat /\ q = 24%nat); [now apply fit_f6|]. intros n q [-> ->]. now apply fit_ret.
Qed.
Lemma fit_hop nh : fit 4 (mp_put_nexthop nh) (fun n q => q = (4 + n)%nat).
Proof.
  destruct nh; cbn [mp_put_nexthop]; try apply fit_err.
  - now apply fit_ret.
  - now apply fit_f4.
  - now apply fit_f6.
  - apply fit_from_nq; [apply fit_rd4|reflexivity].
  - apply fit_from_nq; [apply fit_rd6|reflexivity].
Qed.
Lemma fit_mpupdates oc nh a : addrs_tidy a -> fit 0 (mpupdates_encode oc nh a) (fun n q => n = q).
Proof.
  intros Ht. unfold mpupdates_encode. fb (fun (_ : unit) q => q = 2%nat); [now apply fit_s16|]. intros _ q ->.
  fb (fun (_ : unit) q => q = 3%nat); [now apply fit_set_idx|]. intros _ q ->.
  eapply (fit_back 3 4) with (R := fun _ _ _ => True) (Q1 := fun n q => q = (4 + n)%nat).
  - apply fit_hop.
  - intros n q _. now apply fit_set_idx.
  - intros n q _ -> _. fb (fun (_ : unit) q => q = (4 + n + 1)%nat); [now apply fit_set_idx|]. intros _ q ->.
    fb (fun x q => q = (4 + n + 1 + x)%nat); [apply fit_from_nq; [now apply fit_addrs|reflexivity]|]. intros x q ->. now apply fit_ret.
Qed.
Lemma fit_mpwithdraws oc a : addrs_tidy a -> fit 0 (mpwithdraws_encode oc a) (fun n q => n = q).
Proof.
  intros Ht. unfold mpwithdraws_encode. fb (fun (_ : unit) q => q = 2%nat); [now apply fit_s16|]. intros _ q ->.
  fb (fun (_ : unit) q => q = 3%nat); [now apply fit_set_idx|]. intros _ q ->.
  fb (fun x q => q = (3 + x)%nat); [apply fit_from_nq; [now apply fit_addrs|reflexivity]|]. intros x q ->. now apply fit_ret.
Qed.
Lemma fit_put oc p a : attr_tidy a -> fit 0 (attr_put oc p a) (fun n q => n = q).
Proof.
  intros Ht. destruct a; cbn [attr_put attr_tidy] in *; try contradiction.
  - unfold origin_encode. apply fit_post with (Q := fun n q => n = q /\ q = 1%nat); [|now intros n q [H _]].
    apply fit_guard0; [|intros n q [_ ->]; lia]. fb (fun (_ : unit) q => q = 1%nat); [now apply fit_set_idx|]. intros _ q ->. now apply fit_ret.
  - apply fit_aspath.
  - unfold nexthop_encode. match goal with |- fit 0 (len <~ elen ;; match ?x with _ => _ end) _ => destruct x as [v|v] end; destruct (sp_mode p);
      try (intros buf x b' E; discriminate).
    + apply fit_post with (Q := fun n q => n = q /\ q = 4%nat); [|now intros n q [H _]]. apply fit_guard'; [now apply fit_a4|intros n q [_ ->]; lia].
    + apply fit_post with (Q := fun n q => n = q /\ q = 16%nat); [|now intros n q [H _]]. apply fit_guard'; [now apply fit_a6|intros n q [_ ->]; lia].
  - eapply fit_post; [apply fit_put_u32; reflexivity|now intros n q [H _]].
  - eapply fit_post; [apply fit_put_u32; reflexivity|now intros n q [H _]].
  - apply fit_addr.
  - apply fit_community.
  - unfold originator_encode. destruct (sp_mode p); match goal with |- fit 0 (match ?x with _ => _ end) _ => destruct x end; try apply fit_err;
      [now apply fit_a4|now apply fit_a6].
  - apply fit_addritems. intros i _. apply fit_addr.
  - now apply fit_mpupdates.
  - now apply fit_mpwithdraws.
  - apply fit_addritems. intros i _. apply fit_ecomm.
  - apply fit_addritems. intros i _. apply fit_lcomm.
  - apply fit_panic.
  - apply fit_panic.
  - apply fit_connector.
  - fb (fun (_ : unit) q => q = length v); [now apply fit_write_at|]. intros _ q ->. now apply fit_ret.
Qed.
Lemma fit_attr oc p a : attr_tidy a -> fit 0 (attr_encode oc p a) (fun n q => n = q).
Proof.
  intros Ht. unfold attr_encode. destruct (attr_params a) as [tc flags]. destruct (0 <? N.land flags 16).
  - fb (fun (_ : unit) q => q = 1%nat); [now apply fit_set_idx|]. intros _ q ->. fb (fun (_ : unit) q => q = 2%nat); [now apply fit_set_idx|]. intros _ q ->.
    eapply (fit_back 2 4) with (R := fun _ _ _ => True) (Q1 := fun n q => q = (4 + n)%nat).
    + apply fit_from_nq; [now apply fit_put|reflexivity].
    + intros n q _. destruct (65535 <? N.of_nat n); [apply fit_err|now apply fit_s16].
    + intros n q _ -> _. now apply fit_ret.
  - fb (fun (_ : unit) q => q = 1%nat); [now apply fit_set_idx|]. intros _ q ->. fb (fun (_ : unit) q => q = 2%nat); [now apply fit_set_idx|]. intros _ q ->.
    eapply (fit_back 2 3) with (R := fun _ _ _ => True) (Q1 := fun n q => q = (3 + n)%nat).
    + apply fit_from_nq; [now apply fit_put|reflexivity].
    + intros n q _. destruct (255 <? N.of_nat n); [apply fit_err|now apply fit_set_idx].
    + intros n q _ -> _. now apply fit_ret.
Qed.

(** ** UPDATE *)
Lemma fit_on_tail {A} n (e : Enc A) (Q Q' : A -> nat -> Prop) : fit 0 e Q' -> (forall x q, Q' x q -> Q x (n + q)%nat) -> fit n (on_tail n e) Q.
Proof.
  intros F H buf x b' E.
  assert (Eq : forall buf0, (n <= length buf0)%nat -> on_tail n e buf0 = on_from n e buf0).
  { intros buf0 L. unfold on_tail, ebind, elen, on_eslice, on_from. replace (Nat.leb n (length buf0)) with true by (symmetry; apply Nat.leb_le; lia).
    rewrite Nat.leb_refl. cbn [andb]. unfold sub. rewrite firstn_all2 by (rewrite skipn_length; lia).
    destruct (e (skipn n buf0)) as [[y b1]| | |]; try reflexivity. rewrite skipn_all, app_nil_r. reflexivity. }
  assert (L : (n <= length buf)%nat).
  { unfold on_tail, ebind, elen, on_eslice in E. destruct (Nat.leb_spec n (length buf)); [assumption|discriminate]. }
  rewrite Eq in E by exact L. destruct (fit_on_from n e Q Q' F H buf x b' E) as (L1 & bs & C & HQ & W). split; [exact L1|].
  exists bs. split; [exact C|]. split; [exact HQ|]. intros buf2 L2. rewrite Eq by lia. now apply W.
Qed.
Lemma fit_tail_nq n (e : Enc nat) (Q : nat -> nat -> Prop) : fit 0 e (fun x q => x = q) -> (forall x, Q x (n + x)%nat) -> fit n (on_tail n e) Q.
Proof. intros F H. eapply fit_on_tail; [exact F|]. intros x q ->. apply H. Qed.
Lemma fit_nlri oc p a e : upd_nlri_encode oc p a = Some e -> fit 0 e (fun n q => n = q).
Proof.
  unfold upd_nlri_encode. destruct (sp_mode p), a; intros H; try discriminate; injection H as <-;
    (apply fit_items || apply fit_pathid_items); (apply fit_v4 || apply fit_v6).
Qed.
Lemma fit_withdraws oc p a : fit 0 (upd_withdraws oc p a) (fun n q => n = q).
Proof.
  unfold upd_withdraws. destruct (upd_nlri_encode oc p a) as [e|] eqn:E.
  - eapply fit_ext with (e := n <~ on_tail 2 e ;; u <~ (if 65535 <? N.of_nat n then eerr ETooMany else on_tail 0 (setn_u16 (cast 16 (N.of_nat n)))) ;; eret (2 + n)%nat).
    { intros buf. unfold ebind. destruct (on_tail 2 e buf) as [[n b1]| | |]; [|reflexivity..]. destruct (65535 <? N.of_nat n); reflexivity. }
    eapply (fit_back 0 2) with (R := fun _ _ _ => True) (Q1 := fun n q => q = (2 + n)%nat).
    + apply fit_tail_nq; [now apply fit_nlri in E|reflexivity].
    + intros n q _. destruct (65535 <? N.of_nat n); [apply fit_err|].
      eapply fit_on_tail with (Q' := fun _ q => q = 2%nat); [now apply fit_u16|]. intros _ q0 ->. now split.
    + intros n q _ -> _. now apply fit_ret.
  - fb (fun (_ : unit) q => q = 2%nat); [now apply fit_u16|]. intros _ q ->. now apply fit_ret.
Qed.
Lemma fit_upd_attrs oc p v pp : Forall attr_tidy v -> forall cp, fit cp (upd_attrs_encode oc p v pp cp) (fun n q => n = q).
Proof.
  induction 1 as [|a v Ha Hv IH]; intros cp; cbn [upd_attrs_encode]; [now apply fit_ret|].
  destruct (65535 <? N.of_nat (cp - pp)); [apply fit_err|].
  fb (fun n q => q = (cp + n)%nat); [apply fit_tail_nq; [now apply fit_attr|reflexivity]|]. intros n q ->. apply IH.
Qed.
Lemma fit_e16 n m s (Q : unit -> nat -> Prop) : m = (n + 2)%nat -> Q tt m -> fit n (on_eslice n m (setn_u16 s)) Q.
Proof.
  intros -> H. eapply fit_on_eslice; [lia| |].
  - replace (n + 2 - n)%nat with 2%nat by lia. apply fitx_u16.
  - intros [] _. exact H.
Qed.
Lemma fit_update oc p m : update_tidy m -> fit 0 (update_encode oc p m) (fun n q => n = q).
Proof.
  intros Ht. unfold update_encode. fb (fun n q => q = n :> nat); [eapply fit_post; [apply fit_withdraws|intros; cbn beta in *; lia]|]. intros pp q ->.
  eapply (fit_back pp (pp + 2)) with (R := fun _ _ _ => True) (Q1 := fun n q => q = n :> nat).
  - eapply fit_post; [now apply fit_upd_attrs|]. intros; cbn beta in *; lia.
  - intros n q _. now apply fit_e16.
  - intros cp q _ -> _. destruct (upd_nlri_encode oc p (u_updates m)) as [e|] eqn:E; [|now apply fit_ret].
    fb (fun n q => q = (cp + n)%nat); [apply fit_tail_nq; [now apply fit_nlri in E|reflexivity]|]. intros n q ->. now apply fit_ret.
Qed.

(** ** OPEN, NOTIFICATION *)
Lemma fitx_clone bs k : length bs = k -> fitx k (clone_from_slice bs) (fun _ => True).
Proof.
  intros L buf x b' Lb E. unfold clone_from_slice in E. rewrite Lb, L, Nat.eqb_refl in E. assert (b' = bs) as -> by congruence. destruct x.
  split; [exact I|]. split; [exact L|]. intros buf2 L2. unfold clone_from_slice. now rewrite L2, L, Nat.eqb_refl.
Qed.
Lemma fit_entries {T} k (enc : T -> Enc unit) v : (forall c, fitx k (enc c) (fun _ => True)) ->
  forall cp, fit cp (fill_entries k enc v cp) (fun _ q => q = (cp + length v * k)%nat).
Proof.
  intros H. induction v as [|c v IH]; intros cp; cbn [fill_entries length].
  - apply fit_ret. lia.
  - fb (fun (_ : unit) q => q = (cp + k)%nat).
    + eapply fit_on_slice; [lia| |intros x _; reflexivity]. replace (cp + k - cp)%nat with k by lia. apply H.
    + intros _ q ->. eapply fit_post; [apply IH|]. intros _ q ->. lia.
Qed.
Lemma fitx_gr g : fitx 4 (gr_encode g) (fun _ => True).
Proof.
  apply fitx_fit. unfold gr_encode. apply fit_guard; [|intros x q [-> _]; lia].
  fb (fun (_ : unit) q => q = 2%nat); [now apply fit_s16|]. intros _ q ->. fb (fun (_ : unit) q => q = 3%nat); [now apply fit_set_idx|]. intros _ q ->.
  destruct (gr_fwd g).
  - eapply fit_ext with (e := u <~ set_idx 3 0 ;; upd_idx 3 (fun x => N.lor x 128) ;;; eret tt).
    { intros buf. unfold ebind, eret. destruct (set_idx 3 0 buf) as [[u b1]| | |]; [|reflexivity..].
      destruct (upd_idx 3 (fun x => N.lor x 128) b1) as [[[] b2]| | |]; reflexivity. }
    apply (fit_upd 3 _ (fun _ => 3%nat) _ (fun _ => eret tt) (fun _ q => q = 4%nat)); [now apply fit_set_idx|intros; lia|].
    intros _ q ->. now apply fit_ret.
  - fb (fun (_ : unit) q => q = 4%nat); [now apply fit_set_idx|]. intros _ q ->. now apply fit_ret.
Qed.
Lemma fitx_ap g : fitx 4 (ap_encode g) (fun _ => True).
Proof.
  apply fitx_fit. unfold ap_encode. apply fit_guard; [|intros x q [-> _]; lia].
  fb (fun (_ : unit) q => q = 2%nat); [now apply fit_s16|]. intros _ q ->. fb (fun (_ : unit) q => q = 3%nat); [now apply fit_set_idx|]. intros _ q ->.
  now apply fit_set_idx.
Qed.
Lemma fitx_ll g : fitx 7 (llgr_encode g) (fun _ => True).
Proof.
  apply fitx_fit. unfold llgr_encode. apply fit_guard; [|intros x q [-> _]; lia]. destruct (exceeds24 (ll_stale g)); [apply fit_err|].
  fb (fun (_ : unit) q => q = 2%nat); [now apply fit_s16|]. intros _ q ->. fb (fun (_ : unit) q => q = 3%nat); [now apply fit_set_idx|]. intros _ q ->.
  fb (fun (_ : unit) q => q = 4%nat); [now apply fit_set_idx|]. intros _ q ->. apply fit_write_at. rewrite skipn_length, length_be_bytes. auto.
Qed.
Lemma fitx_fill c : cap_tidy c -> fitx (bytes_len c) (fill_buffer c) (fun _ => True).
Proof.
  intros Ht. unfold fill_buffer. apply fitx_elen. rewrite Nat.ltb_irrefl.
  destruct c; cbn [cap_tidy bytes_len] in *; try contradiction; try (apply fitx_clone; try reflexivity).
  - match goal with |- length (safi_bytes ?s) = _ => now destruct s end.
  - apply fitx_fit. fb (fun (_ : unit) q => q = 1%nat); [now apply fit_set_idx|]. intros _ q ->. fb (fun (_ : unit) q => q = 2%nat); [now apply fit_set_idx|]. intros _ q ->.
    match goal with |- fit 2 (if ?b then _ else _) _ => destruct b end; [apply fit_err|].
    match goal with |- context [if ?rs then _ else eret tt] => destruct rs end.
    + apply (fit_upd 2 _ (fun _ => 2%nat) _ (fun _ => fill_entries 4 gr_encode _ 4) (fun _ q => q = 4%nat)); [now apply fit_s16|intros; lia|].
      intros _ q ->. eapply fit_post; [apply fit_entries, fitx_gr|]. intros x q ->. auto.
    + fb (fun (_ : unit) q => q = 4%nat); [now apply fit_s16|]. intros _ q ->. fb (fun (_ : unit) q => q = 4%nat); [now apply fit_ret|]. intros _ q ->.
      eapply fit_post; [apply fit_entries, fitx_gr|]. intros x q ->. auto.
  - apply fitx_fit. fb (fun (_ : unit) q => q = 1%nat); [now apply fit_set_idx|]. intros _ q ->. fb (fun (_ : unit) q => q = 2%nat); [now apply fit_set_idx|]. intros _ q ->.
    eapply fit_post; [apply fit_entries, fitx_ap|]. intros x q ->. auto.
  - apply fitx_fit. fb (fun (_ : unit) q => q = 1%nat); [now apply fit_set_idx|]. intros _ q ->. fb (fun (_ : unit) q => q = 2%nat); [now apply fit_set_idx|]. intros _ q ->.
    eapply fit_post; [apply fit_entries, fitx_ll|]. intros x q ->. auto.
Qed.
Lemma fit_open_caps v : Forall cap_tidy v -> forall pos, fit pos (open_fill_caps v pos) (fun n q => n = q /\ (pos <= q)%nat).
Proof.
  induction 1 as [|c v Hc Hv IH]; intros pos; cbn [open_fill_caps]; [now apply fit_ret|].
  fb (fun (_ : unit) q => q = (pos + 1)%nat); [now apply fit_set_idx|]. intros _ q ->. fb (fun (_ : unit) q => q = (pos + 2)%nat); [apply fit_set_idx; lia|]. intros _ q ->.
  fb (fun (_ : unit) q => q = (pos + (2 + bytes_len c))%nat).
  - eapply fit_on_eslice; [lia| |intros x _; cbn beta; lia]. replace (bytes_len c + pos + 2 - (pos + 2))%nat with (bytes_len c) by lia. now apply fitx_fill.
  - intros _ q ->. eapply fit_post; [apply IH|]. intros n q [-> H]. lia.
Qed.
Lemma fit_open m : open_tidy m -> fit 0 (open_encode m) (fun n q => n = q).
Proof.
  intros Ht. unfold open_encode. apply fit_post with (Q := fun n q => n = q /\ (10 <= q)%nat); [|now intros n q [H _]].
  eapply fit_ext with (e := len <~ elen ;; if Nat.ltb len 10 then eerr EInsufficient else
     (set_idx 0 4 ;;; write_at 1 (le16_bytes (ntoh16 (if op_as m <? 65536 then cast 16 (op_as m) else 23456))) ;;;
      write_at 3 (le16_bytes (ntoh16 (op_hold m))) ;;; write_at 5 (octets4 (op_rid m)) ;;; set_idx 9 (open_caplen (op_caps m)) ;;; open_fill_caps (op_caps m) 10)).
  { intros buf. unfold ebind, elen. destruct (Nat.ltb_spec (length buf) 10); [reflexivity|]. unfold on_eslice, eret.
    replace (Nat.leb 1 (length buf)) with true by (symmetry; apply Nat.leb_le; lia). rewrite Nat.leb_refl. cbn [andb].
    unfold sub. rewrite (firstn_all2 (skipn 1 buf)) by (rewrite skipn_length; lia). rewrite skipn_all, app_nil_r, firstn_skipn. reflexivity. }
  apply fit_guard; [|now intros n q [_ H]].
  fb (fun (_ : unit) q => q = 1%nat); [now apply fit_set_idx|]. intros _ q ->.
  fb (fun (_ : unit) q => q = 3%nat); [now apply fit_write_at|]. intros _ q ->.
  fb (fun (_ : unit) q => q = 5%nat); [now apply fit_write_at|]. intros _ q ->.
  fb (fun (_ : unit) q => q = 9%nat); [now apply fit_write_at|]. intros _ q ->.
  fb (fun (_ : unit) q => q = 10%nat); [now apply fit_set_idx|]. intros _ q ->. now apply fit_open_caps.
Qed.
Lemma fit_notif m : fit 0 (notif_encode m) (fun n q => n = q).
Proof.
  unfold notif_encode. apply fit_post with (Q := fun n q => n = q /\ q = 4%nat); [|now intros n q [H _]].
  apply fit_guard; [|intros n q [_ ->]; lia].
  fb (fun (_ : unit) q => q = 1%nat); [now apply fit_set_idx|]. intros _ q ->. fb (fun (_ : unit) q => q = 2%nat); [now apply fit_set_idx|]. intros _ q ->.
  fb (fun (_ : unit) q => q = 3%nat); [now apply fit_set_idx|]. intros _ q ->. fb (fun (_ : unit) q => q = 4%nat); [now apply fit_set_idx|]. intros _ q ->. now apply fit_ret.
Qed.
