(** Which attributes and messages stop the program when encoded. *)
From Verif Require Import Base BaseFacts M_Util S_Wire F_Util M_Prefix M_Nlri M_Vpls M_Mvpn M_Evpn M_Flowspec M_Addrs M_Attr M_Update M_Cap M_Open M_Session M_Peer M_Bmp S_Stop F_Stop F_Stop2.
Ltac Zify.zify_post_hook ::= idtac.

(** ** Attributes *)
Lemma as_write_goes b v : forall p, goes (as_write b v p).
Proof.
  induction v as [|x v IH]; intros p; cbn [as_write]; [eexists; apply room_ret|]. destruct b.
  - destruct (IH (p + 4)%nat) as (n & R). exists n. eapply room_seq; [apply room_slice; [lia|apply at_u32; lia]|exact R].
  - destruct (IH (p + 2)%nat) as (n & R). exists n. eapply room_seq; [apply room_slice; [lia|apply at_u16; lia]|exact R].
Qed.
Lemma ecomm_goes x : goes (ecomm_encode x).
Proof.
  eexists. unfold ecomm_encode. apply room_guard. do 2 (eapply room_seq; [apply room_set|]). eapply room_seq; [apply room_slice; [lia|apply at_u16; lia]|].
  eapply room_seq; [apply room_slice; [lia|apply at_u32; lia]|]. apply room_ret.
Qed.
Lemma lcomm_goes x : goes (lcomm_encode x).
Proof.
  eexists. unfold lcomm_encode. apply room_guard. eapply room_seq; [apply room_u32|]. do 2 (eapply room_seq; [apply room_slice; [lia|apply at_u32; lia]|]). apply room_ret.
Qed.
Lemma hop_cases nh : (hop_sendable nh /\ goes (mp_put_nexthop nh)) \/ (~ hop_sendable nh /\ exists er, room (mp_put_nexthop nh) (Err er)).
Proof.
  destruct nh; cbn [hop_sendable mp_put_nexthop]; try (right; split; [tauto|]; eexists; apply room_err); left; (split; [exact I|]).
  - eexists. apply room_ret.
  - eexists. apply room_from, room_addr4.
  - eexists. apply room_from, room_addr6.
  - eexists. apply room_from. unfold v4rd_encode. eapply room_seq; [apply room_rd|]. eapply room_seq; [apply room_from, room_addr4|]. apply room_ret.
  - eexists. apply room_from. unfold v6rd_encode. eapply room_seq; [apply room_rd|]. eapply room_seq; [apply room_from, room_addr6|]. apply room_ret.
Qed.
Lemma put_either oc p a : attr_typed a -> either (attr_put oc p a) (attr_stops oc a).
Proof.
  intros H. assert (N0 : forall (e : Enc nat), calm e -> either e False) by (intros e C; right; split; [tauto|exact C]).
  destruct a; cbn [attr_typed attr_stops attr_put] in *; try (apply N0).
  - left. eexists. unfold origin_encode. apply room_guard0. eapply room_seq; [apply room_set|]. apply room_ret.
  - left. unfold aspath_encode. match goal with |- context [match ?l with [] => _ | _ => _ end] => destruct l as [|x v] end; [eexists; apply room_ret|].
    destruct (as_write_goes (sp_as32 p) (x :: v) 2%nat) as (n & R). exists n. apply room_guard. do 2 (eapply room_seq; [apply room_set|]). exact R.
  - unfold nexthop_encode. match goal with |- context [match ?x with IPv4 _ => _ | IPv6 _ => _ end] => destruct x as [x|x] end; destruct (sp_mode p).
    + left. eexists. apply room_guard', room_addr4.
    + right. eexists. eapply room_elen with (k := 0%nat); [intros; reflexivity|]. apply room_err.
    + right. eexists. eapply room_elen with (k := 0%nat); [intros; reflexivity|]. apply room_err.
    + left. eexists. apply room_guard', room_addr6.
  - left. eexists. unfold u32_encode. apply room_guard'. eapply room_seq; [apply room_u32|]. apply room_ret.
  - left. eexists. unfold u32_encode. apply room_guard'. eapply room_seq; [apply room_u32|]. apply room_ret.
  - left. eexists. apply room_addr.
  - left. eexists. apply room_ret.
  - left. unfold community_encode. match goal with |- context [encode_bgpaddritems_to comm_encode ?l] => destruct (addritems_goes comm_encode l) with (p := 0%nat) as (n & R) end.
    { intros x. eexists. unfold comm_encode. apply room_guard. eapply room_seq; [apply room_u32|]. apply room_ret. }
    exists n. apply room_guard. exact R.
  - unfold originator_encode. destruct (sp_mode p); match goal with |- context [match ?x with IPv4 _ => _ | IPv6 _ => _ end] => destruct x as [x|x] end;
      [left; eexists; apply room_addr4|right; eexists; apply room_err|right; eexists; apply room_err|left; eexists; apply room_addr6].
  - left. apply addritems_goes. intros x. eexists. apply room_addr.
  - unfold mpupdates_encode. match goal with |- context [mp_put_nexthop ?x] => set (nh := x) end. destruct (hop_cases nh) as [(Hn & m & R)|(Hn & er & R)].
    + match goal with H : addrs_typed ?a |- _ => destruct (addrs_either oc a H) as [(HP & RP)|(HP & C)] end.
      * left. split; [now split|]. eapply room_seq; [apply room_slice; [lia|apply at_u16; lia]|]. eapply room_seq; [apply room_set|]. eapply room_seq; [exact R|].
        do 2 (eapply room_seq; [apply room_set|]). apply room_bind_panic. now apply room_from.
      * right. split; [tauto|]. destruct C as [(k & C)|(er & C)]; [left|right]; eexists; (eapply room_seq; [apply room_slice; [lia|apply at_u16; lia]|]); (eapply room_seq; [apply room_set|]); (eapply room_seq; [exact R|]);
          do 2 (eapply room_seq; [apply room_set|]); [eapply room_seq; [apply room_from; exact C|]; apply room_ret|apply room_bind_err; apply room_from; exact C].
    + right. split; [tauto|]. right. exists er. eapply room_seq; [apply room_slice; [lia|apply at_u16; lia]|]. eapply room_seq; [apply room_set|]. now apply room_bind_err.
  - unfold mpwithdraws_encode. match goal with H : addrs_typed ?a |- _ => destruct (addrs_either oc a H) as [(HP & RP)|(HP & C)] end.
    + left. split; [exact HP|]. eapply room_seq; [apply room_slice; [lia|apply at_u16; lia]|]. eapply room_seq; [apply room_set|]. apply room_bind_panic. now apply room_from.
    + right. split; [exact HP|]. destruct C as [(k & C)|(er & C)]; [left|right]; eexists; (eapply room_seq; [apply room_slice; [lia|apply at_u16; lia]|]); (eapply room_seq; [apply room_set|]);
        [eapply room_seq; [apply room_from; exact C|]; apply room_ret|apply room_bind_err; apply room_from; exact C].
  - left. apply addritems_goes, ecomm_goes.
  - left. apply addritems_goes, lcomm_goes.
  - left. split; [exact I|]. apply room_panic.
  - left. split; [exact I|]. apply room_panic.
  - left. eexists. unfold connector_encode. apply room_guard'. eapply room_seq; [apply room_u16|]. eapply room_seq; [apply room_slice; [lia|apply at_u32; lia]|].
    do 2 (eapply room_seq; [apply room_slice; [lia|apply at_addr4; lia]|]). apply room_ret.
  - left. eexists. eapply room_seq; [apply room_write|]. apply room_ret.
Qed.
Lemma attr_either oc p a : attr_typed a -> either (attr_encode oc p a) (attr_stops oc a).
Proof.
  intros H. unfold attr_encode. destruct (attr_params a) as [tc fl]. destruct (put_either oc p a H) as [(HP & R)|(HP & C)].
  - left. split; [exact HP|]. do 2 (eapply room_seq; [apply room_set|]). apply room_bind_panic. now apply room_from.
  - right. split; [exact HP|]. apply calm_bind; [left; eexists; apply room_set|intros _]. apply calm_bind; [left; eexists; apply room_set|intros _].
    apply calm_bind; [now apply from_calm|]. intros n. apply calm_bind; [|intros _; left; eexists; apply room_ret].
    destruct (0 <? N.land fl 16).
    + destruct (65535 <? N.of_nat n); [right; eexists; apply room_err|]. left. eexists. apply room_slice; [lia|apply at_u16; lia].
    + destruct (255 <? N.of_nat n); [right; eexists; apply room_err|]. left. eexists. apply room_set.
Qed.

(** ** UPDATE *)
Lemma room_tail {A} p (e : Enc A) r : room e r -> room (on_tail p e) r.
Proof.
  intros (k & H). exists (p + k)%nat. intros n Hn. unfold on_tail. apply at_elen. apply at_eslice; [lia|]. apply H. lia.
Qed.
Lemma own_encode oc p a : upd_nlri_encode oc p a = if own_routes p a then Some (addrs_encode oc a) else None.
Proof. unfold upd_nlri_encode, own_routes. destruct (sp_mode p), a; reflexivity. Qed.
Lemma withdraws_cases oc p a : addrs_typed a ->
  (own_stop oc p a /\ room (upd_withdraws oc p a) Panic) \/
  (~ own_stop oc p a /\ withdraws_go oc p a /\ goes (upd_withdraws oc p a)) \/
  (~ own_stop oc p a /\ ~ withdraws_go oc p a /\ exists er, room (upd_withdraws oc p a) (Err er)).
Proof.
  intros H. unfold upd_withdraws, own_stop, withdraws_go. rewrite own_encode. destruct (own_routes p a).
  - destruct (addrs_either oc a H) as [(HP & R)|(HP & [(n & R)|(er & R)])].
    + left. split; [now split|]. apply room_bind_panic. now apply room_tail.
    + right. destruct (N.ltb_spec 65535 (N.of_nat n)) as [Hn|Hn].
      * right. split; [tauto|]. split; [|eexists; eapply room_seq; [apply room_tail; exact R|]; destruct (N.ltb_spec 65535 (N.of_nat n)); [apply room_err|lia]].
        intros [F|(m & F & Hm)]; [discriminate|]. apply room_yields in F. pose proof (room_det _ _ _ R F) as E. injection E as <-. lia.
      * left. split; [tauto|]. split; [right; exists n; split; [now apply room_yields|exact Hn]|]. eexists. eapply room_seq; [apply room_tail; exact R|].
        destruct (N.ltb_spec 65535 (N.of_nat n)); [lia|]. eapply room_seq; [apply room_tail, room_u16|]. apply room_ret.
    + right. right. split; [tauto|]. split; [|exists er; apply room_bind_err; now apply room_tail].
      intros [F|(m & F & Hm)]; [discriminate|]. apply room_yields in F. pose proof (room_det _ _ _ R F) as E. discriminate E.
  - right. left. split; [intros (F & _); discriminate|]. split; [now left|]. eexists. eapply room_seq; [apply room_u16|]. apply room_ret.
Qed.
Definition some_stop (oc : bool) (p : params) (s : nat) (v : list attr) : Prop :=
  exists v1 a v2 t, v = v1 ++ a :: v2 /\ attrs_go oc p s v1 t /\ N.of_nat t <= 65535 /\ attr_stops oc a.
Lemma attrs_cases oc p q v : Forall attr_typed v -> forall s,
  (some_stop oc p s v /\ room (upd_attrs_encode oc p v q (q + s)) Panic) \/
  (~ some_stop oc p s v /\ exists t, attrs_go oc p s v t /\ room (upd_attrs_encode oc p v q (q + s)) (Ok (q + t)%nat)) \/
  (~ some_stop oc p s v /\ (forall t, ~ attrs_go oc p s v t) /\ exists er, room (upd_attrs_encode oc p v q (q + s)) (Err er)).
Proof.
  induction 1 as [|a v Ha _ IH]; intros s; cbn [upd_attrs_encode].
  - right. left. split; [intros (v1 & b & v2 & t & E & _); destruct v1; discriminate|]. exists s. split; [constructor|apply room_ret].
  - replace (q + s - q)%nat with s by lia. destruct (N.ltb_spec 65535 (N.of_nat s)) as [Hs|Hs].
    + right. right. split; [|split; [|eexists; apply room_err]].
      * intros (v1 & b & v2 & t & E & G & Ht & _). destruct v1 as [|c v1]; inversion G; subst; lia.
      * intros t G. inversion G; subst. lia.
    + destruct (attr_either oc p a Ha) as [(HP & R)|(HP & [(n & R)|(er & R)])].
      * left. split; [exists [], a, v, s; repeat split; [constructor|exact Hs|exact HP]|]. apply room_bind_panic. now apply room_tail.
      * assert (Y : yields (attr_encode oc p a) n) by now apply room_yields.
        assert (U : forall m, yields (attr_encode oc p a) m -> m = n) by (intros m F; apply room_yields in F; pose proof (room_det _ _ _ R F) as E; congruence).
        assert (NS : some_stop oc p s (a :: v) -> some_stop oc p (s + n) v).
        { intros (v1 & b & v2 & t & E & G & Ht & Hb). destruct v1 as [|c v1]; injection E as <- E; [tauto|]. inversion G; subst.
          match goal with F : yields _ _ |- _ => apply U in F; subst end. now exists v1, b, v2, t. }
        specialize (IH (s + n)%nat). rewrite Nat.add_assoc in IH. destruct IH as [(HS & RR)|[(HS & t & G & RR)|(HS & G & er & RR)]].
        -- left. split; [|eapply room_seq; [apply room_tail; exact R|exact RR]]. destruct HS as (v1 & b & v2 & t & -> & G & Ht & Hb).
           exists (a :: v1), b, v2, t. repeat split; [|exact Ht|exact Hb]. now apply ag_cons with (n := n).
        -- right. left. split; [tauto|]. exists t. split; [now apply ag_cons with (n := n)|]. eapply room_seq; [apply room_tail; exact R|exact RR].
        -- right. right. split; [tauto|]. split; [|exists er; eapply room_seq; [apply room_tail; exact R|exact RR]].
           intros t F. inversion F; subst. match goal with F : yields _ _ |- _ => apply U in F; subst end. now apply (G t).
      * assert (U : forall m, ~ yields (attr_encode oc p a) m) by (intros m F; apply room_yields in F; pose proof (room_det _ _ _ R F) as E; congruence).
        right. right. split; [|split; [|exists er; apply room_bind_err; now apply room_tail]].
        -- intros (v1 & b & v2 & t & E & G & Ht & Hb). destruct v1 as [|c v1]; injection E as <- E; [tauto|]. inversion G; subst. now apply (U n).
        -- intros t F. inversion F; subst. now apply (U n).
Qed.
Lemma update_either oc p m : update_typed m -> either (update_encode oc p m) (update_stops oc p m).
Proof.
  intros (Hu & Hw & Ha). unfold update_encode, update_stops. destruct (withdraws_cases oc p _ Hw) as [(HW & R)|[(HW & GW & q & R)|(HW & GW & er & R)]].
  - left. split; [now left|]. now apply room_bind_panic.
  - unfold attrs_stop. fold (some_stop oc p 2 (u_attrs m)). destruct (attrs_cases oc p q _ Ha 2%nat) as [(HA & RA)|[(HA & t & GA & RA)|(HA & GA & er & RA)]].
    + left. split; [right; split; [exact GW|now left]|]. eapply room_seq; [exact R|]. now apply room_bind_panic.
    + assert (RL : forall x, room (on_eslice q (q + 2) (setn_u16 x)) (Ok tt)) by (intros x; apply room_eslice; [lia|apply at_u16; lia]).
      unfold own_stop. rewrite own_encode. destruct (own_routes p (u_updates m)).
      * destruct (addrs_either oc _ Hu) as [(HP & RU)|(HP & C)].
        -- left. split; [right; split; [exact GW|right; split; [now exists t|now split]]|]. eapply room_seq; [exact R|]. eapply room_seq; [exact RA|].
           eapply room_seq; [apply RL|]. apply room_bind_panic. now apply room_tail.
        -- right. split; [unfold own_stop in HW; tauto|]. destruct C as [(k & C)|(er & C)]; [left|right]; eexists; (eapply room_seq; [exact R|]); (eapply room_seq; [exact RA|]); (eapply room_seq; [apply RL|]);
             [eapply room_seq; [apply room_tail; exact C|apply room_ret]|apply room_bind_err; apply room_tail; exact C].
      * right. split; [unfold own_stop in HW; intros [F|(_ & [F|(_ & F & _)])]; [tauto|tauto|discriminate]|]. left. eexists. eapply room_seq; [exact R|]. eapply room_seq; [exact RA|].
        eapply room_seq; [apply RL|]. apply room_ret.
    + right. split; [intros [F|(_ & [F|((t & F) & _)])]; [tauto|tauto|now apply (GA t)]|]. right. exists er. eapply room_seq; [exact R|]. now apply room_bind_err.
  - right. split; [tauto|]. right. exists er. now apply room_bind_err.
Qed.

(** ** OPEN and NOTIFICATION *)
Definition calm_at {A} (n : nat) (e : Enc A) : Prop := (exists x, at_len n e (Ok x)) \/ exists er, at_len n e (Err er).
Lemma calm_at_bind {A B} n (m : Enc A) (f : A -> Enc B) : calm_at n m -> (forall x, calm_at n (f x)) -> calm_at n (ebind m f).
Proof.
  intros [(x & H1)|(er & H1)] H2.
  - destruct (H2 x) as [(y & H3)|(er & H3)]; [left; exists y|right; exists er]; now apply at_seq with (x := x).
  - right. exists er. apply (at_bind n m f (Err er) (fun _ => Err er) H1). discriminate.
Qed.
Lemma calm_at_slice {A} n a b (e : Enc A) : (a <= b <= n)%nat -> calm_at (b - a) e -> calm_at n (on_slice a b e).
Proof. intros Ha [(x & H)|(er & H)]; [left; exists x|right; exists er]; now apply at_slice. Qed.
Lemma calm_at_ret {A} n (x : A) : calm_at n (eret x).
Proof. left. exists x. apply at_ret. Qed.
Lemma calm_at_set n i v : (i < n)%nat -> calm_at n (set_idx i v).
Proof. left. exists tt. now apply at_set. Qed.
Lemma calm_at_u16 n a b v : (a + 2 <= b <= n)%nat -> calm_at n (on_slice a b (setn_u16 v)).
Proof. intros H. left. exists tt. apply at_slice; [lia|]. apply at_u16. lia. Qed.
Lemma entries_calm {T} k (enc : T -> Enc unit) n v : (forall x, calm_at k (enc x)) -> forall p, (p + k * length v <= n)%nat -> calm_at n (fill_entries k enc v p).
Proof.
  intros H. induction v as [|x v IH]; intros p Hp; cbn [fill_entries]; [apply calm_at_ret|]. cbn [length] in Hp. apply calm_at_bind.
  - apply calm_at_slice; [lia|]. replace (p + k - p)%nat with k by lia. apply H.
  - intros _. apply IH. lia.
Qed.
Lemma at_clone n bs : n = length bs -> calm_at n (clone_from_slice bs).
Proof. intros ->. left. exists tt. intros buf Hb. unfold clone_from_slice. rewrite Hb, Nat.eqb_refl. now exists bs. Qed.
Lemma calm_at_guard {A} n k er (e : Enc A) : (k <= n)%nat -> calm_at n e -> calm_at n (len <~ elen ;; if Nat.ltb len k then eerr er else e).
Proof. intros Hk [(x & H)|(er' & H)]; [left; exists x|right; exists er']; (apply at_elen; destruct (Nat.ltb_spec n k); [lia|exact H]). Qed.
Lemma fill_calm c : calm_at (bytes_len c) (fill_buffer c).
Proof.
  unfold fill_buffer. apply calm_at_guard; [lia|]. destruct c as [s|rs rt v|n| |v| |v|h d|]; cbn [bytes_len].
  - apply at_clone. now destruct s.
  - apply calm_at_bind; [apply calm_at_set; lia|intros _]. apply calm_at_bind; [apply calm_at_set; lia|intros _].
    destruct (4096 <=? rt); [right; eexists; apply at_err|]. apply calm_at_bind; [apply calm_at_u16; lia|intros _].
    apply calm_at_bind; [destruct rs; [left; eexists; apply at_upd; lia|apply calm_at_ret]|intros _]. apply entries_calm; [|lia].
    intros x. unfold gr_encode. apply calm_at_guard; [lia|]. apply calm_at_bind; [apply calm_at_u16; lia|intros _]. do 2 (apply calm_at_bind; [apply calm_at_set; lia|intros _]).
    destruct (gr_fwd x); [left; eexists; apply at_upd; lia|apply calm_at_ret].
  - now apply at_clone.
  - now apply at_clone.
  - do 2 (apply calm_at_bind; [apply calm_at_set; lia|intros _]). apply entries_calm; [|lia].
    intros x. unfold ap_encode. apply calm_at_guard; [lia|]. apply calm_at_bind; [apply calm_at_u16; lia|intros _]. apply calm_at_bind; [apply calm_at_set; lia|intros _]. apply calm_at_set. lia.
  - now apply at_clone.
  - do 2 (apply calm_at_bind; [apply calm_at_set; lia|intros _]). apply entries_calm; [|lia].
    intros x. unfold llgr_encode. apply calm_at_guard; [lia|]. destruct (exceeds24 (ll_stale x)); [right; eexists; apply at_err|]. apply calm_at_bind; [apply calm_at_u16; lia|intros _].
    do 2 (apply calm_at_bind; [apply calm_at_set; lia|intros _]). left. eexists. apply at_write. rewrite skipn_length, length_be_bytes. lia.
  - do 2 (apply calm_at_bind; [apply calm_at_set; lia|intros _]). apply calm_at_bind; [left; eexists; apply at_write; lia|intros _].
    apply calm_at_bind; [apply calm_at_set; lia|intros _]. left. eexists. apply at_write. lia.
  - now apply at_clone.
Qed.
Lemma caps_calm v : forall p, calm (open_fill_caps v p).
Proof.
  induction v as [|c v IH]; intros p; cbn [open_fill_caps]; [left; eexists; apply room_ret|]. cbv zeta.
  do 2 (apply calm_bind; [left; eexists; apply room_set|intros _]). apply calm_bind; [|intros _; apply IH].
  destruct (fill_calm c) as [(x & H)|(er & H)]; [left; exists x|right; exists er]; (apply room_eslice; [lia|]); replace (bytes_len c + p + 2 - (p + 2))%nat with (bytes_len c) by lia; exact H.
Qed.
Lemma room_whole {A} k (e : Enc A) r : room e r -> room (len <~ elen ;; on_eslice k len (eret tt) ;;; e) r.
Proof.
  intros (m & H). exists (k + m)%nat. intros n Hn. apply at_elen. eapply at_seq with (x := tt); [apply at_eslice; [lia|apply at_ret]|]. apply H. lia.
Qed.
Lemma open_calm m : calm (open_encode m).
Proof.
  unfold open_encode. assert (G : forall e : Enc nat, calm e -> calm (len <~ elen ;; if Nat.ltb len 10 then eerr EInsufficient else on_eslice 1 len (eret tt) ;;; e)).
  { assert (G : forall (e : Enc nat) r, room e r -> room (len <~ elen ;; if Nat.ltb len 10 then eerr EInsufficient else on_eslice 1 len (eret tt) ;;; e) r).
    { intros e r (k & H). exists (10 + k)%nat. intros n Hn. apply at_elen. destruct (Nat.ltb_spec n 10); [lia|]. eapply at_seq with (x := tt); [apply at_eslice; [lia|apply at_ret]|]. apply H. lia. }
    intros e [(x & H)|(er & H)]; [left; exists x|right; exists er]; now apply G. }
  apply G. clear G. apply calm_bind; [left; eexists; apply room_set|intros _]. do 3 (apply calm_bind; [left; eexists; apply room_write|intros _]).
  apply calm_bind; [left; eexists; apply room_set|intros _]. apply caps_calm.
Qed.
Lemma notif_room m : room (notif_encode m) (Ok 4%nat).
Proof. unfold notif_encode. apply room_guard. do 4 (eapply room_seq; [apply room_set|]). apply room_ret. Qed.

(** ** Sending *)
Lemma message_either oc p m : (forall u, m = MsgUpdate u -> update_typed u) -> either (message_encode oc p m) (body_stops oc p m).
Proof.
  intros H. destruct m as [m|m|m|]; cbn [message_encode body_stops].
  - right. split; [tauto|]. apply open_calm.
  - apply update_either. now apply H.
  - right. split; [tauto|]. left. eexists. apply notif_room.
  - right. split; [tauto|]. left. eexists. apply room_ret.
Qed.
Lemma prepare_cases oc t n :
  (length_stops oc n /\ room (prepare_message_buf oc t n) Panic) \/
  (~ length_stops oc n /\ exists k, (k <= n + 19)%nat /\ room (prepare_message_buf oc t n) (Ok k)).
Proof.
  unfold prepare_message_buf, length_stops, uadd, cast. change (2 ^ 16) with 65536. pose proof (N.mod_lt (N.of_nat n) 65536 ltac:(lia)) as Hm.
  pose proof (N.mod_le (N.of_nat n) 65536 ltac:(lia)) as Hle. set (x := N.of_nat n mod 65536) in *. clearbody x.
  destruct (N.ltb_spec (x + 19) 65536) as [H|H].
  - right. split; [lia|]. exists (N.to_nat (x + 19)). split; [lia|]. apply room_guard. eapply room_seq; [apply room_write|]. eapply room_seq; [apply room_lift|].
    do 3 (eapply room_seq; [apply room_set|]). apply room_ret.
  - destruct oc.
    + left. split; [split; [reflexivity|lia]|]. apply room_guard. eapply room_seq; [apply room_write|]. apply room_bind_panic. apply room_lift.
    + right. split; [intros (F & _); discriminate|]. exists (N.to_nat ((x + 19) mod 65536)). split.
      * replace (x + 19) with (x + 19 - 65536 + 1 * 65536) by lia. rewrite N.mod_add by lia. rewrite N.mod_small by lia. lia.
      * apply room_guard. eapply room_seq; [apply room_write|]. eapply room_seq; [apply room_lift|]. do 3 (eapply room_seq; [apply room_set|]). apply room_ret.
Qed.
Lemma at_front n k : (k <= n)%nat -> forall buf : list N, length buf = n -> exists s, rslice buf 0 k = Ok s.
Proof. intros H buf Hb. rewrite length_rsl by lia. eauto. Qed.
(** the octets sent depend on the buffer; what matters here is that they are there *)
Definition steady {A} (e : Enc A) : Prop := exists k, forall buf, (k <= length buf)%nat -> e buf <> Panic.
Lemma steady_bind {A B} (m : Enc A) (f : A -> Enc B) x : room m (Ok x) -> steady (f x) -> steady (ebind m f).
Proof.
  intros (k1 & H1) (k2 & H2). exists (Nat.max k1 k2). intros buf Hb. unfold ebind. destruct (H1 (length buf) ltac:(lia) buf eq_refl) as (b & L & ->). apply H2. lia.
Qed.
Lemma steady_room {A} (e : Enc A) r : room e r -> r <> Panic -> steady e.
Proof. intros H1 H2. exact (room_never e r H1 H2). Qed.
Lemma send_cases oc p m : (forall u, m = MsgUpdate u -> update_typed u) ->
  (send_stops oc p m /\ stops (send_message oc p m)) \/ (~ send_stops oc p m /\ never_stops (send_message oc p m)).
Proof.
  intros H. unfold send_message, send_stops. destruct (message_either oc p m H) as [(HP & R)|(HP & [(n & R)|(er & R)])].
  - left. split; [now left|]. apply room_stops. apply room_bind_panic. now apply room_from.
  - assert (Y : yields (message_encode oc p m) n) by now apply room_yields.
    assert (U : forall m', yields (message_encode oc p m) m' -> m' = n) by (intros m' F; apply room_yields in F; pose proof (room_det _ _ _ R F) as E; congruence).
    destruct (prepare_cases oc (message_type m) n) as [(HL & RL)|(HL & k & Hk & RL)].
    + left. split; [right; now exists n|]. apply room_stops. eapply room_seq; [apply room_from; exact R|]. now apply room_bind_panic.
    + right. split; [intros [F|(n' & F & HF)]; [tauto|apply U in F; subst; tauto]|].
      apply steady_bind with (x := n); [now apply room_from|]. apply steady_bind with (x := k); [exact RL|]. exists k. intros buf Hb. rewrite length_rsl by lia. discriminate.
  - right. split; [intros [F|(n & F & _)]; [tauto|apply room_yields in F; pose proof (room_det _ _ _ R F) as E; discriminate E]|].
    apply calm_never. right. exists er. apply room_bind_err. now apply room_from.
Qed.
Lemma send_exact oc p m : (forall u, m = MsgUpdate u -> update_typed u) ->
  (stops (send_message oc p m) <-> send_stops oc p m) /\ (never_stops (send_message oc p m) <-> ~ send_stops oc p m).
Proof.
  intros H. pose proof (never_not_stops (send_message oc p m)). destruct (send_cases oc p m H) as [(H1 & H2)|(H1 & H2)]; tauto.
Qed.

(** ** BMP *)
Lemma put_cases oc t (e : Enc nat) P q : either e P ->
  let Q := P \/ exists n, yields e n /\ length_stops oc n in
  (Q /\ room (bgp_put oc t e q) Panic) \/
  (~ Q /\ (exists n, yields e n /\ ~ length_stops oc n) /\ goes (bgp_put oc t e q)) \/
  (~ Q /\ (forall n, ~ yields e n) /\ exists er, room (bgp_put oc t e q) (Err er)).
Proof.
  intros H. cbv zeta. unfold bgp_put. destruct H as [(HP & R)|(HP & [(n & R)|(er & R)])].
  - left. split; [now left|]. apply room_bind_panic. now apply room_from.
  - assert (Y : yields e n) by now apply room_yields.
    assert (U : forall m', yields e m' -> m' = n) by (intros m' F; apply room_yields in F; pose proof (room_det _ _ _ R F) as E; congruence).
    destruct (prepare_cases oc t n) as [(HL & RL)|(HL & k & Hk & RL)].
    + left. split; [right; now exists n|]. eapply room_seq; [apply room_from; exact R|]. apply room_bind_panic. now apply room_from.
    + right. left. split; [intros [F|(n' & F & HF)]; [tauto|apply U in F; subst; tauto]|]. split; [now exists n|].
      eexists. eapply room_seq; [apply room_from; exact R|]. eapply room_seq; [apply room_from; exact RL|]. apply room_ret.
  - assert (U : forall n, ~ yields e n) by (intros n F; apply room_yields in F; pose proof (room_det _ _ _ R F) as E; discriminate E).
    right. right. split; [intros [F|(n & F & _)]; [tauto|now apply (U n)]|]. split; [exact U|]. exists er. apply room_bind_err. now apply room_from.
Qed.
Lemma room_bmp_addr a : room (bmp_addr_encode a) (Ok 16%nat).
Proof.
  unfold bmp_addr_encode. apply room_guard. destruct a as [a|a].
  - eapply room_seq with (x := tt); [exists 0%nat; intros n _ buf Hb; exists (repeat 0 (length buf)); rewrite repeat_length; now split|].
    eapply room_seq; [apply room_from, room_addr4|]. apply room_ret.
  - eapply room_seq; [apply room_addr6|]. apply room_ret.
Qed.
Lemma room_peerhdr h : room (peerhdr_encode h) (Ok 42%nat).
Proof.
  unfold peerhdr_encode. apply room_guard. do 2 (eapply room_seq; [apply room_set|]). eapply room_seq; [apply room_from, room_rd|]. eapply room_seq; [apply room_from, room_bmp_addr|].
  eapply room_seq; [apply room_from, room_u32|]. eapply room_seq; [apply room_from, room_addr4|]. eapply room_seq; [apply room_from, room_u64|]. apply room_ret.
Qed.
Lemma infoval_goes t s : goes (infoval_encode t s).
Proof.
  eexists. unfold infoval_encode. apply room_guard. do 2 (eapply room_seq; [apply room_from, room_u16|]). eapply room_seq; [apply room_write|]. apply room_ret.
Qed.
Lemma field_goes p s : goes (init_field p s).
Proof. destruct s as [s|]; cbn [init_field]; [|eexists; apply room_ret]. destruct (infoval_goes 0 s) as (n & R). eexists. eapply room_seq; [apply room_from; exact R|]. apply room_ret. Qed.
Lemma init_goes m : goes (init_encode m).
Proof. unfold init_encode. apply goes_bind; [apply field_goes|]. intros x. apply goes_bind; [apply field_goes|]. intros y. apply field_goes. Qed.
Lemma term_goes m : goes (term_encode m).
Proof.
  unfold term_encode. apply goes_bind.
  - destruct (tm_str m) as [s|]; [|eexists; apply room_ret]. eexists. apply room_guard_sub. do 2 (eapply room_seq; [apply room_from, room_u16|]). eapply room_seq; [apply room_write|]. apply room_ret.
  - intros p. destruct (tm_reason m) as [r|]; [|eexists; apply room_ret]. eexists. apply room_guard_sub. do 3 (eapply room_seq; [apply room_from, room_u16|]). apply room_ret.
Qed.
Lemma peerdown_goes oc m : goes (peerdown_encode oc m).
Proof.
  unfold peerdown_encode.
  assert (B : forall nt q, goes (bgp_put oc MNotification (notif_encode nt) q)).
  { intros nt q. assert (E : either (notif_encode nt) False) by (right; split; [tauto|]; left; eexists; apply notif_room).
    assert (Y : yields (notif_encode nt) 4%nat) by apply room_yields, notif_room.
    destruct (put_cases oc MNotification _ _ q E) as [(H & R)|[(_ & _ & G)|(_ & U & _)]]; [|exact G|exfalso; now apply (U 4%nat)].
    exfalso. destruct H as [F|(n & F & (_ & HL))]; [exact F|]. apply room_yields in F. pose proof (room_det _ _ _ F (notif_room nt)) as En. injection En as ->. now vm_compute in HL. }
  destruct m as [h r]. cbn [pd_peer pd_reason]. destruct (room_peerhdr h) as (k1 & P).
  assert (G : forall x, goes x -> forall f : nat -> Enc nat, (forall n, (100 <= n)%nat -> f n = x) ->
     goes (len <~ elen ;; if Nat.ltb len 43 then eerr EInsufficient else peerhdr_encode h ;;; f len)).
  { intros x (y & k2 & R) f Hf. exists y. exists (100 + k1 + k2)%nat. intros n Hn. apply at_elen. destruct (Nat.ltb_spec n 43); [lia|]. rewrite Hf by lia.
    eapply at_seq; [apply P; lia|]. apply R. lia. }
  assert (G2 : forall x, goes x -> forall f : nat -> nat -> Enc nat, (forall n, (100 <= n)%nat -> f n 42%nat = x) ->
     goes (len <~ elen ;; if Nat.ltb len 43 then eerr EInsufficient else q <~ peerhdr_encode h ;; f len q)).
  { intros x (y & k2 & R) f Hf. exists y. exists (100 + k1 + k2)%nat. intros n Hn. apply at_elen. destruct (Nat.ltb_spec n 43); [lia|].
    eapply at_seq; [apply P; lia|]. cbn beta. rewrite Hf by lia. apply R. lia. }
  clear G. destruct r as [nt|s|nt| |].
  - apply (G2 (set_idx 42 1 ;;; bgp_put oc MNotification (notif_encode nt) 43)).
    + apply goes_bind; [eexists; apply room_set|]. intros _. apply B.
    + intros n Hn. cbv zeta. destruct (Nat.ltb_spec (n - (42 + 1)) 19); [lia|reflexivity].
  - apply (G2 (set_idx 42 2 ;;; on_from 43 (setn_u16 s) ;;; eret 45%nat)).
    + eexists. eapply room_seq; [apply room_set|]. eapply room_seq; [apply room_from, room_u16|]. apply room_ret.
    + intros n Hn. cbv zeta. destruct (Nat.ltb_spec (n - (42 + 1)) 2); [lia|reflexivity].
  - apply (G2 (set_idx 42 3 ;;; bgp_put oc MNotification (notif_encode nt) 43)).
    + apply goes_bind; [eexists; apply room_set|]. intros _. apply B.
    + intros n Hn. cbv zeta. destruct (Nat.ltb_spec (n - (42 + 1)) 19); [lia|reflexivity].
  - apply (G2 (set_idx 42 4 ;;; eret 43%nat)); [|reflexivity]. eexists. eapply room_seq; [apply room_set|]. apply room_ret.
  - apply (G2 (set_idx 42 5 ;;; eret 43%nat)); [|reflexivity]. eexists. eapply room_seq; [apply room_set|]. apply room_ret.
Qed.
Lemma rmon_either oc m : update_typed (rm_update m) -> either (rmon_encode oc m) (send_stops oc (params_of_peer (rm_peer m)) (MsgUpdate (rm_update m))).
Proof.
  intros H. unfold rmon_encode, send_stops. cbn [body_stops message_encode].
  destruct (put_cases oc MUpdate _ _ 42%nat (update_either oc (params_of_peer (rm_peer m)) _ H)) as [(HP & R)|[(HP & _ & n & R)|(HP & _ & er & R)]].
  - left. split; [exact HP|]. apply room_guard. eapply room_seq; [apply room_peerhdr|exact R].
  - right. split; [exact HP|]. left. exists n. apply room_guard. eapply room_seq; [apply room_peerhdr|exact R].
  - right. split; [exact HP|]. right. exists er. apply room_guard. eapply room_seq; [apply room_peerhdr|exact R].
Qed.
Lemma peerup_either oc m : either (peerup_encode oc m) (bmp_stops oc (PeerUp m)).
Proof.
  cbn [bmp_stops]. unfold peerup_encode.
  assert (E : forall o, either (open_encode o) False) by (intros o; right; split; [tauto|apply open_calm]).
  assert (HD : forall e r, room (curpos <~ bgp_put oc MOpen (open_encode (pu_msg1 m)) (42 + 20) ;; e curpos) r ->
     room (len <~ elen ;; if Nat.ltb len 62 then eerr EInsufficient else curpos <~ peerhdr_encode (pu_peer m) ;; on_from curpos (bmp_addr_encode (pu_local m)) ;;;
       on_from (curpos + 16) (setn_u16 (pu_lport m)) ;;; on_from (curpos + 18) (setn_u16 (pu_rport m)) ;;;
       curpos <~ bgp_put oc MOpen (open_encode (pu_msg1 m)) (curpos + 20) ;; (e curpos : Enc nat)) r).
  { intros e r R. apply room_guard. eapply room_seq; [apply room_peerhdr|]. eapply room_seq; [apply room_from, room_bmp_addr|].
    do 2 (eapply room_seq; [apply room_from, room_u16|]). exact R. }
  destruct (put_cases oc MOpen _ _ (42 + 20)%nat (E (pu_msg1 m))) as [(HP & R)|[(HP & HY & n & R)|(HP & U & er & R)]].
  - left. split; [left; tauto|]. apply HD. now apply room_bind_panic.
  - destruct (put_cases oc MOpen _ _ n (E (pu_msg2 m))) as [(HP2 & R2)|[(HP2 & _ & k & R2)|(HP2 & _ & er & R2)]].
    + left. split; [right; tauto|]. apply HD. eapply room_seq; [exact R|exact R2].
    + right. split; [tauto|]. left. exists k. apply HD. eapply room_seq; [exact R|exact R2].
    + right. split; [tauto|]. right. exists er. apply HD. eapply room_seq; [exact R|exact R2].
  - right. split; [intros [F|((k & F & _) & _)]; [tauto|now apply (U k)]|]. right. exists er. apply HD. now apply room_bind_err.
Qed.
Lemma bmp_either oc m : (forall r, m = RouteMonitoring r -> update_typed (rm_update r)) -> either (bmp_encode oc m) (bmp_stops oc m).
Proof.
  intros H. unfold bmp_encode.
  assert (PUT : forall code (e : Enc nat) P, either e P ->
     either (len <~ elen ;; if Nat.eqb len 0 then eerr EInsufficient else set_idx 0 code ;;; n <~ on_from 1 e ;; eret (1 + n)%nat) P).
  { intros code e P [(HP & R)|(HP & [(n & R)|(er & R)])].
    - left. split; [exact HP|]. apply room_guard0. eapply room_seq; [apply room_set|]. apply room_bind_panic. now apply room_from.
    - right. split; [exact HP|]. left. eexists. apply room_guard0. eapply room_seq; [apply room_set|]. eapply room_seq; [apply room_from; exact R|]. apply room_ret.
    - right. split; [exact HP|]. right. exists er. apply room_guard0. eapply room_seq; [apply room_set|]. apply room_bind_err. now apply room_from. }
  assert (N0 : forall (e : Enc nat), goes e -> either e False) by (intros e C; right; split; [tauto|now left]).
  destruct m as [m| |m|m|m|m|].
  - apply PUT. apply rmon_either. now apply H.
  - left. split; [exact I|]. apply room_guard0. apply room_panic.
  - apply PUT. apply N0. apply peerdown_goes.
  - apply PUT. apply peerup_either.
  - apply PUT. apply N0. apply init_goes.
  - apply PUT. apply N0. apply term_goes.
  - left. split; [exact I|]. apply room_guard0. apply room_panic.
Qed.
