(** Values as they should be do not stop the program in a build without checks. *)
From Verif Require Import Base BaseFacts M_Util M_Prefix M_Nlri M_Vpls M_Mvpn M_Evpn M_Flowspec M_Addrs M_Attr M_Update M_Cap M_Open M_Session M_Peer M_Bmp S_Stop F_Stop F_Stop2 F_Stop3.
Ltac Zify.zify_post_hook ::= idtac.

Lemma fit_prefix oc max len : len <= max -> ~ prefix_stops oc max len.
Proof. intros H (F & _). lia. Qed.
Lemma fit_labels ls b : ~ labels_stop false ls b.
Proof. intros (F & _). discriminate. Qed.
Lemma none_stops {A} (P Q : A -> Prop) v : (forall x, P x -> ~ Q x) -> Forall P v -> ~ Exists Q v.
Proof. intros H HF HE. apply Exists_exists in HE as (x & Hx & HQ). rewrite Forall_forall in HF. now apply (H x (HF x Hx)). Qed.
Lemma fit_rules {T} max (bits : T -> N) (stop : T -> Prop) v : (forall x, bits x <= max -> ~ stop x) -> Forall (comp_fits max bits) v -> ~ rules_stop stop v.
Proof.
  intros H HF (v1 & x & v2 & -> & Hx & _). apply Forall_app in HF as (_ & HF). inversion HF as [|? ? Hc _]; subst. destruct x; cbn in *; try exact Hx; now apply (H _ Hc).
Qed.
Lemma fit_addrs a : addrs_fit a -> addrs_typed a -> ~ addrs_stop false a.
Proof.
  intros H _. pose proof fit_labels as FL.
  destruct a; cbn [addrs_fit addrs_stop] in *; try tauto;
    try (revert H; apply none_stops; intros x Hx;
         unfold v4_stops, v6_stops, lu4_stops, lu6_stops, vpn4_stops, vpn6_stops, mdt4_stops, mdt6_stops, v4_stops, v6_stops; cbv zeta;
         first [now apply fit_prefix|intros [F|F]; [revert F; now apply fit_prefix|first [now apply FL in F|destruct F; discriminate]]]).
  - revert H. apply fit_rules. intros x Hx. now apply fit_prefix.
  - revert H. apply fit_rules. intros x Hx. now apply fit_prefix.
  - revert H. apply fit_rules. intros x Hx. now apply fit_prefix.
Qed.
Lemma fit_attr a : attr_fits a -> attr_typed a -> ~ attr_stops false a.
Proof. intros H1 H2. destruct a; cbn in *; try tauto; [intros (_ & F); revert F; now apply fit_addrs|now apply fit_addrs]. Qed.
Lemma fit_update p m : update_fits m -> update_typed m -> ~ update_stops false p m.
Proof.
  intros (F1 & F2 & F3) (T1 & T2 & T3) [(_ & H)|(_ & [(v1 & a & v2 & t & E & _ & _ & H)|(_ & _ & H)])].
  - revert H. now apply fit_addrs.
  - rewrite E in F3, T3. apply Forall_app in F3 as (_ & F3). apply Forall_app in T3 as (_ & T3). inversion F3; inversion T3; subst. revert H. now apply fit_attr.
  - revert H. now apply fit_addrs.
Qed.
Lemma fit_send p m : (forall u, m = MsgUpdate u -> update_typed u /\ update_fits u) -> never_stops (send_message false p m).
Proof.
  intros H. apply (send_exact false p m); [intros u E; now apply H|]. intros [F|(n & _ & (F & _))]; [|discriminate].
  destruct m; cbn in F; try exact F. destruct (H _ eq_refl) as (H1 & H2). revert F. now apply fit_update.
Qed.
