(** Proof that a received UPDATE sent on is received alike. *)
From Verif Require Import Base BaseFacts M_Util S_Wire M_Prefix S_Prefix M_Nlri S_Nlri F_Nlri M_Vpls S_Vpls M_Mvpn S_Mvpn M_Evpn S_Evpn M_Flowspec S_Flowspec M_Cap M_Open M_Session
  M_Addrs S_Addrs F_Addrs M_Attr S_Attr S_Attr3 F_Attr F_Attr2 M_Update S_Update F_Update S_Exact S_Exact2 F_Exact F_Exact2 F_Exact4 F_Exact6 S_Forward.
Ltac Zify.zify_post_hook ::= idtac.

(** ** Prefixes *)
Lemma keep_zeros w m len a s : (m <= w)%nat -> prefix_octets len = m -> be_bytes w a = s ++ repeat 0 (w - m) -> a < 2 ^ (8 * N.of_nat w) ->
  keep_octets (8 * N.of_nat w) len a = a.
Proof.
  intros Hm Hp E Ha. assert (V := be_val_be_bytes w a). rewrite E, be_val_app, repeat_length, be_val_zeros, N.add_0_r in V.
  rewrite <- V by exact Ha. unfold keep_octets. rewrite Hp. replace (8 * N.of_nat w - 8 * N.of_nat m) with (8 * N.of_nat (w - m)) by lia.
  rewrite N.div_mul by (apply N.pow_nonzero; discriminate). reflexivity.
Qed.
Lemma octets_le len w : len <= 8 * N.of_nat w -> (prefix_octets len <= w)%nat.
Proof.
  intros H. unfold prefix_octets. assert ((len + 7) / 8 < N.of_nat w + 1); [apply N.div_lt_upper_bound; lia|lia].
Qed.
Lemma pfx4_facts oc bits b x m : pfx4 oc bits b x m -> v4_wf x /\ v4_trunc x = x /\ bits = fst (v4_wire x) /\ (m <= length b)%nat /\ firstn m b = snd (v4_wire x).
Proof.
  intros (Hb & Hm & Hl & Ha & s & r & Eb & Ls & E). destruct x as [a l]. cbn [v4_len v4_addr] in *. subst l.
  assert (Hm4 : (m <= 4)%nat) by (rewrite Hm; now apply octets_le).
  split; [split; assumption|]. split; [|split; [reflexivity|split]].
  - unfold v4_trunc. cbn [v4_addr v4_len]. f_equal. apply (keep_zeros 4 m bits a s); auto.
  - rewrite Eb, app_length. lia.
  - unfold v4_wire. cbn [snd v4_len v4_addr]. rewrite <- Hm, E, Eb, <- Ls, !firstn_app, Nat.sub_diag, firstn_all. reflexivity.
Qed.
Lemma pfx6_facts oc bits b x m : pfx6 oc bits b x m -> v6_wf x /\ v6_trunc x = x /\ bits = fst (v6_wire x) /\ (m <= length b)%nat /\ firstn m b = snd (v6_wire x).
Proof.
  intros (Hb & Hm & Hl & Ha & s & r & Eb & Ls & E). destruct x as [a l]. cbn [v6_len v6_addr] in *. subst l.
  assert (Hm4 : (m <= 16)%nat) by (rewrite Hm; now apply octets_le).
  split; [split; assumption|]. split; [|split; [reflexivity|split]].
  - unfold v6_trunc. cbn [v6_addr v6_len]. f_equal. apply (keep_zeros 16 m bits a s); auto.
  - rewrite Eb, app_length. lia.
  - unfold v6_wire. cbn [snd v6_len v6_addr]. rewrite <- Hm, E, Eb, <- Ls, !firstn_app, Nat.sub_diag, firstn_all. reflexivity.
Qed.

(** ** Label stacks *)
Lemma label_bound b0 b1 b2 : b0 < 256 -> b1 < 256 -> b2 < 256 -> be_val [b0; b1; b2] / 16 < 2 ^ 20.
Proof.
  intros H0 H1 H2. apply N.div_lt_upper_bound; [discriminate|]. change (16 * 2 ^ 20) with 16777216. unfold be_val. cbn [fold_left]. lia.
Qed.
Lemma stack_facts oc bits b ls : stack_of oc bits b ls -> bytes_ok b -> Forall (fun l => l < 2 ^ 20) ls /\ Forall (fun l => ~ stack_ending l) (removelast ls).
Proof.
  induction 1 as [b|bits left b0 b1 b2 r Hb Hl He|bits left b0 b1 b2 r ls Hb Hl He St IH]; intros B; [split; constructor| |].
  - inversion B as [|? ? B0 B']; subst. inversion B' as [|? ? B1 B'']; subst. inversion B'' as [|? ? B2 _]; subst.
    split; [|constructor]. constructor; [now apply label_bound|constructor].
  - inversion B as [|? ? B0 B']; subst. inversion B' as [|? ? B1 B'']; subst. inversion B'' as [|? ? B2 B3]; subst.
    destruct (IH B3) as [F1 F2]. split; [constructor; [now apply label_bound|exact F1]|].
    destruct ls as [|l ls]; [constructor|]. change (removelast (?x :: l :: ls)) with (x :: removelast (l :: ls)). constructor; [|exact F2].
    intros Z. apply He. now left.
Qed.
Lemma stack_wf_of oc bits b ls : stack_of oc bits b ls -> bytes_ok b -> ls <> [] -> stack_wf ls.
Proof. intros St B Hn. destruct (stack_facts _ _ _ _ St B). repeat split; assumption. Qed.
Lemma ev_stack_of oc s ls : ev_labels oc s ls -> bytes_ok s -> (length ls <= 10)%nat -> ev_stack_wf ls.
Proof.
  intros St B L. split; [|exact L]. destruct ls as [|l ls]; [now left|right]. eapply stack_wf_of; [exact St|exact B|discriminate].
Qed.

(** ** Lists *)
Lemma many_all {T} (P : reading T) (Q : T -> Prop) : (forall b x k, bytes_ok b -> P b x k -> Q x) ->
  forall b v n, many P b v n -> bytes_ok b -> Forall Q v.
Proof.
  intros H b v n M. induction M as [|b x k v n Hb Hx M IH]; intros B; [constructor|]. constructor; [eapply H; eauto|]. apply IH. now apply Forall_skipn.
Qed.
Lemma many_pid_all {T} (P : reading T) (Q : T -> Prop) : (forall b x k, bytes_ok b -> P b x k -> Q x) ->
  forall b v n, many_pid P b v n -> bytes_ok b -> Forall (fun x => pid x < 2 ^ 32 /\ Q (pid_nlri x)) v.
Proof.
  intros H b v n M. induction M as [b Hb|b i s x k v n Hb Hi Hs Hx M IH]; intros B; [constructor|]. subst b. apply Forall_app in B as [_ B].
  constructor; [split; [exact Hi|eapply H; eauto]|]. apply IH. now apply Forall_skipn.
Qed.
Lemma item_all {T} oc (P : bit_reading T) (Q : T -> Prop) : (forall bits b x m, bytes_ok b -> P oc bits b x m -> Q x) ->
  forall b x k, bytes_ok b -> item oc P b x k -> Q x.
Proof. intros H b x k B (bits & s & m & -> & Px & _). inversion B; subst. eapply H; eauto. Qed.
Lemma many_wire {T} oc (P : bit_reading T) (W : T -> N * list N) :
  (forall bits b x m, P oc bits b x m -> bits = fst (W x) /\ (m <= length b)%nat /\ firstn m b = snd (W x)) ->
  forall b v n, many (item oc P) b v n -> items_wire W v = b.
Proof.
  intros H b v n M. induction M as [|b x k v n Hb Hx M IH]; [reflexivity|]. cbn [items_wire flat_map]. unfold items_wire in IH. rewrite IH.
  destruct Hx as (bits & s & m & -> & Px & ->). destruct (H _ _ _ _ Px) as (<- & Lm & <-). cbn [skipn app]. f_equal. apply firstn_skipn.
Qed.

(** ** The form of the list *)
Lemma form_pid {T} oc (P : bit_reading T) (W : T -> N * list N) p afi sf b v n :
  asks_pid p afi sf b -> many_pid (item oc P) b v n -> use_pathid p afi sf (pid_items_wire W v) = true.
Proof.
  intros A M. apply use_pid_iff. destruct A as [A|(F & L & r & E)]; [now left|right]. split; [exact F|].
  destruct M as [b Hb|b i s x k v n Hb Hi Hs Hx M]; [lia|]. cbn [pid_items_wire flat_map pid pid_nlri]. split; [rewrite !app_length, length_be_bytes; cbn [length]; lia|].
  assert (Z : length (be_bytes 4 i) = 4%nat) by apply length_be_bytes. destruct (be_bytes 4 i) as [|x0 [|x1 t]]; try discriminate Z.
  rewrite E in Hb. cbn [app] in *. injection Hb as <- <- _. eexists. reflexivity.
Qed.
Lemma form_plain p afi sf b w : ~ asks_pid p afi sf b -> (w = b \/ forall r, w <> 0 :: r) -> use_pathid p afi sf w = false.
Proof.
  intros A H. destruct (use_pathid p afi sf w) eqn:E; [|reflexivity]. apply use_pid_iff in E. destruct H as [->|H]; [contradiction|].
  destruct E as [E|(_ & _ & r & E)]; [now elim A; left|]. now apply H in E.
Qed.
Lemma items_not_zero {T} (W : T -> N * list N) v : Forall (fun x => fst (W x) <> 0) v -> forall r, items_wire W v <> 0 :: r.
Proof. intros [|x v' Hx _] r E; [discriminate E|]. cbn [items_wire flat_map app] in E. injection E as E _. contradiction. Qed.

Definition good (p : params) (a : addrs) : Prop := addrs_wf a /\ addrs_trunc a = a /\ session_form p a.
Lemma map_id {T} (f : T -> T) v : Forall (fun x => f x = x) v -> map f v = v.
Proof. induction 1 as [|x v E _ IH]; [reflexivity|]. cbn [map]. congruence. Qed.

(** one address family with its wire form: [Q] holds of every item, [L] is required of it *)
Lemma fam_good {T} oc (P : bit_reading T) (W : T -> N * list N) (wf : T -> Prop) (tr : T -> T) (L : T -> Prop) plain withid p afi sf b a n :
  bytes_ok b -> family oc P plain withid p afi sf b a n ->
  (forall bits b x m, bytes_ok b -> P oc bits b x m -> L x -> wf x /\ tr x = x) ->
  ((forall bits b x m, P oc bits b x m -> bits = fst (W x) /\ (m <= length b)%nat /\ firstn m b = snd (W x)) \/ (forall x, wf x -> fst (W x) <> 0)) ->
  (exists v, a = plain v /\ (Forall L v -> Forall wf v /\ map tr v = v /\ use_pathid p afi sf (items_wire W v) = false)) \/
  (exists v, a = withid v /\ (Forall (fun x => L (pid_nlri x)) v -> Forall (pid_wf wf) v /\ map (pid_map tr) v = v /\ use_pathid p afi sf (pid_items_wire W v) = true)).
Proof.
  intros B [(A & v & M & ->)|(A & v & M & ->)] H K.
  - right. exists v. split; [reflexivity|]. intros HL. assert (F := many_pid_all _ (fun x => L x -> wf x /\ tr x = x) (item_all oc P _ H) _ _ _ M B).
    assert (F' : Forall (fun x => pid x < 2 ^ 32 /\ wf (pid_nlri x) /\ tr (pid_nlri x) = pid_nlri x) v).
    { rewrite Forall_forall in *. intros x Hx. destruct (F x Hx) as [Hp Hq]. split; [exact Hp|]. now apply Hq, HL. }
    split; [|split].
    + eapply Forall_impl; [|exact F']. intros x (X & Y & _). now split.
    + apply map_id. eapply Forall_impl; [|exact F']. intros [i x] (_ & _ & Z). unfold pid_map. cbn [pid pid_nlri] in *. congruence.
    + eapply form_pid; eassumption.
  - left. exists v. split; [reflexivity|]. intros HL. assert (F := many_all _ (fun x => L x -> wf x /\ tr x = x) (item_all oc P _ H) _ _ _ M B).
    assert (F' : Forall (fun x => wf x /\ tr x = x) v) by (rewrite Forall_forall in *; intros x Hx; now apply F, HL).
    split; [|split].
    + eapply Forall_impl; [|exact F']. now intros x [X _].
    + apply map_id. eapply Forall_impl; [|exact F']. now intros x [_ X].
    + eapply form_plain; [exact A|]. destruct K as [K|K]; [left; eapply many_wire; eassumption|right].
      apply items_not_zero. eapply Forall_impl; [|exact F']. intros x [X _]. now apply K.
Qed.

(** the parts *)
Lemma lab_good {T} oc (P : bit_reading T) (W : T -> N * list N) (wf : T -> Prop) (tr : T -> T) :
  (forall bits b x m, bytes_ok b -> P oc bits b x m -> wf x /\ tr x = x) ->
  forall bits b x m, bytes_ok b -> labelled P oc bits b x m -> labels_fit W x -> (labeled_wf wf x /\ fits (labeled_wire W) x) /\ lab_map tr x = x.
Proof.
  intros H bits b [q ls] m B (left & k & St & _ & Px & _) (Hn & Hf). cbn [lab_labels lab_prefix] in *.
  destruct (H _ _ _ _ (Forall_skipn _ _ _ B) Px) as [X Y]. split.
  - split; [|exact Hf]. split; [|exact X]. eapply stack_wf_of; eassumption.
  - unfold lab_map. cbn [lab_labels lab_prefix]. congruence.
Qed.
Lemma rd_good {T} oc (P : bit_reading T) (wf : T -> Prop) (tr : T -> T) :
  (forall bits b x m, bytes_ok b -> P oc bits b x m -> wf x /\ tr x = x) ->
  forall bits b x m, bytes_ok b -> distinguished P oc bits b x m -> withrd_wf wf x /\ rd_map tr x = x.
Proof.
  intros H bits b [q rd] m B (left & r & k & Eb & Hr & _ & Px & _). cbn [wrd_prefix wrd_rd] in *. subst b. apply Forall_app in B as [_ B].
  destruct (H _ _ _ _ B Px) as [X Y]. split; [split; assumption|]. unfold rd_map. cbn [wrd_prefix wrd_rd]. congruence.
Qed.
Lemma pfx4_good oc bits b x m : bytes_ok b -> pfx4 oc bits b x m -> v4_wf x /\ v4_trunc x = x.
Proof. intros _ H. apply pfx4_facts in H. tauto. Qed.
Lemma pfx6_good oc bits b x m : bytes_ok b -> pfx6 oc bits b x m -> v6_wf x /\ v6_trunc x = x.
Proof. intros _ H. apply pfx6_facts in H. tauto. Qed.
Lemma mdt4_good oc bits b x m : bytes_ok b -> mdt4 oc bits b x m -> mdt4_wf x /\ mdt4_trunc x = x.
Proof.
  intros _ (left & k & r & _ & Px & _ & Hg & _). apply pfx4_facts in Px as (X & Y & _). destruct x as [a g]. cbn [mdt4_addr mdt4_group] in *.
  split; [split; assumption|]. unfold mdt4_trunc. cbn [mdt4_addr mdt4_group]. congruence.
Qed.
Lemma mdt6_good oc bits b x m : bytes_ok b -> mdt6 oc bits b x m -> mdt6_wf x /\ mdt6_trunc x = x.
Proof.
  intros _ (left & k & r & _ & _ & Px & _ & Hg & _). apply pfx6_facts in Px as (X & Y & _). destruct x as [a g]. cbn [mdt6_addr mdt6_group] in *.
  split; [split; assumption|]. unfold mdt6_trunc. cbn [mdt6_addr mdt6_group]. congruence.
Qed.
Lemma mdt6r_good oc bits b x m : bytes_ok b -> distinguished mdt6 oc bits b x m -> v6_len (mdt6_addr (wrd_prefix x)) <= 63 -> mdt6r_wf x /\ rd_map mdt6_trunc x = x.
Proof. intros B H L. destruct (rd_good oc mdt6 mdt6_wf mdt6_trunc (mdt6_good oc) _ _ _ _ B H) as [X Y]. split; [split; assumption|exact Y]. Qed.
Lemma lab_not_zero {T} (W : T -> N * list N) (wf : T -> Prop) (x : labeled T) : labeled_wf wf x /\ fits (labeled_wire W) x -> fst (labeled_wire W x) <> 0.
Proof. intros (((Hn & _) & _) & _). unfold labeled_wire. cbn [fst]. destruct (lab_labels x); [contradiction|]. cbn [length]. lia. Qed.
Lemma rd_not_zero {T} (W : T -> N * list N) (x : withRd T) : fst (withrd_wire W x) <> 0.
Proof. unfold withrd_wire. cbn [fst]. lia. Qed.

(** the other families *)
Lemma mv_good b r k : bytes_ok b -> mv_reads ModeV4 b r k -> mv_wf ModeV4 r \/ exists x, r = MvT4 x.
Proof.
  intros _ (body & rest & j & _ & _ & H & _). destruct r; cbn [mv_body_reads] in H; try (left; exact (proj1 H)); [right; eauto|left; apply H].
Qed.
Lemma stack24 oc s ls : bytes_ok s -> length s = 3%nat -> ev_labels oc s ls -> exists l, ls = [l].
Proof.
  intros B L St. unfold ev_labels in St. rewrite L in St. change (8 * N.of_nat 3 mod 256) with 24 in St.
  inversion St as [| |bits left b0 b1 b2 r ls' Hb Hl He St' E1 E2 E3]; subst; [eauto|].
  assert (left = 0).
  { destruct Hl as (Hl & Hm & _). assert (D := N.div_mod (left + 24) 256 ltac:(discriminate)). rewrite Hm in D.
    destruct (N.eq_dec ((left + 24) / 256) 0) as [Z|Z]; [rewrite Z in D; lia|].
    assert ((left + 24) / 256 < 2) by (apply N.div_lt_upper_bound; lia). assert ((left + 24) / 256 = 1) by lia. rewrite H0 in D. lia. }
  subst left. inversion St'; subst; [eauto|lia..].
Qed.
Lemma ev_good oc b r k : bytes_ok b -> ev_reads oc b r k ->
  match r with Ev1 r => (length (ev1_labels r) <= 10)%nat | Ev2 r => (length (ev2_labels r) <= 10)%nat | _ => True end -> ev_wf r /\ ev5_ok r.
Proof.
  intros B (body & rest & j & Eb & _ & H & _) L. subst b. inversion B as [|? ? _ B']; subst. inversion B' as [|? ? _ B'']; subst. apply Forall_app in B'' as [Bb _]. clear B B'.
  destruct r as [r|r|r|r|r]; cbn [ev_body_reads ev_wf ev5_ok] in *.
  - destruct H as (s & E & H1 & H2 & H3 & H4 & _). subst body. do 4 (apply Forall_app in Bb as [_ Bb]).
    split; [|exact I]. repeat split; try assumption; try apply H1; try apply H2. all: now apply (ev_stack_of oc s).
  - destruct H as (s & E & H1 & H2 & H3 & H4 & H5 & H6 & _). subst body. do 7 (apply Forall_app in Bb as [_ Bb]).
    split; [|exact I]. split; [exact H1|]. split; [exact H2|]. split; [exact H3|]. split; [exact H4|]. split; [exact H5|]. now apply (ev_stack_of oc s).
  - destruct H as (_ & H1 & H2 & H3 & _). tauto.
  - destruct H as (_ & H1 & H2 & H3 & _). tauto.
  - destruct H as (a & g & t & u & s & E & _ & Ls & H1 & H2 & H3 & H4 & Ha & Hg & Ea & Eg & Hl & _). subst body.
    do 9 (apply Forall_app in Bb as [_ Bb]). destruct (stack24 oc s _ Bb Ls Hl) as (l & El).
    destruct r as [rd et e tag len pf gw ls]. cbn in *. subst pf gw ls. split; [|exact I].
    split; [exact H1|]. split; [exact H2|]. split; [exact H3|]. split; [exact H4|]. split; [exact Ha|]. split; [exact Hg|].
    apply (ev_stack_of oc s); [exact Hl|exact Bb|cbn [length]; lia].
Qed.
Lemma oper_bound o k v : oper_octets o k -> v < 256 ^ N.of_nat k -> v < 2 ^ 32.
Proof. intros [(_ & ->)|[(_ & ->)|(_ & ->)]] H; [change (256 ^ N.of_nat 1) with 256 in H|change (256 ^ N.of_nat 2) with 65536 in H|exact H]; lia. Qed.
Lemma val_all b v k : bytes_ok b -> many val_reads b v k -> Forall (fun x => fv_value x < 2 ^ 32) v.
Proof. intros B M. eapply many_all; [|exact M|exact B]. intros b' x j _ (o & k' & r & _ & O & H & _). eapply oper_bound; eassumption. Qed.
Lemma mask_all b v k : bytes_ok b -> many mask_reads b v k -> Forall (fun x => fm_value x < 2 ^ 32) v.
Proof. intros B M. eapply many_all; [|exact M|exact B]. intros b' x j _ (o & k' & r & _ & O & H & _). eapply oper_bound; eassumption. Qed.
Lemma rule_bytes b rule h : bytes_ok b -> rule_reads b rule h -> bytes_ok rule.
Proof.
  intros B (rest & [(_ & _ & ->)|(_ & hi & lo & _ & _ & _ & ->)]).
  - inversion B as [|? ? _ B']; subst. now apply Forall_app in B' as [B' _].
  - inversion B as [|? ? _ B']; subst. inversion B' as [|? ? _ B'']; subst. now apply Forall_app in B'' as [B'' _].
Qed.
Lemma fs_good {T} (P : reading T) (W : T -> list N) (wf : T -> Prop) b r k : bytes_ok b -> fs_reads P b r k -> rule_fits W r -> rule_ok W wf r.
Proof.
  intros B (h & body & j & R & H) (F1 & F2 & F3). split; [|split; [exact F1|split; assumption]].
  assert (Bb : bytes_ok body) by (apply rule_bytes in R; [now inversion R|exact B]).
  destruct r; cbn [fs_wf is_pfx] in *; try (now elim F1); destruct H as [H _]; eapply val_all || eapply mask_all; eassumption.
Qed.

Lemma all_true {T} (v : list T) : Forall (fun _ => True) v.
Proof. induction v; auto. Qed.
Ltac fam_case H L4 PG K :=
  let v' := fresh in let E := fresh in let Y := fresh in
  eapply fam_good in H; [|eassumption|exact PG|first [exact K|right; exact K]];
  destruct H as [(v' & E & Y)|(v' & E & Y)]; [first [discriminate E|injection E as <-]|first [discriminate E|injection E as <-]];
  destruct (Y L4) as (?W & ?M & ?U); split; [assumption|]; split; [cbn [addrs_trunc]; congruence|intros _; assumption].

Lemma nlri_good oc p afi sf b a n : bytes_ok b -> nlri_reads oc p afi sf b a n -> list_fits a -> good p a /\ get_afi_safi a = (afi, sf).
Proof.
  intros B H L. assert (G : get_afi_safi a = (afi, sf)) by (apply nlri_exact_l in H; [apply addrs_decode_family in H; tauto|exact B]).
  split; [|exact G].
  assert (P4 : forall bits b x m, bytes_ok b -> pfx4 oc bits b x m -> True -> v4_wf x /\ v4_trunc x = x) by (intros ? ? ? ? X Y _; exact (pfx4_good _ _ _ _ _ X Y)).
  assert (P6 : forall bits b x m, bytes_ok b -> pfx6 oc bits b x m -> True -> v6_wf x /\ v6_trunc x = x) by (intros ? ? ? ? X Y _; exact (pfx6_good _ _ _ _ _ X Y)).
  assert (W4 : (forall bits b x m, pfx4 oc bits b x m -> bits = fst (v4_wire x) /\ (m <= length b)%nat /\ firstn m b = snd (v4_wire x)) \/ (forall x, v4_wf x -> fst (v4_wire x) <> 0))
    by (left; intros ? ? ? ? X; apply pfx4_facts in X; tauto).
  assert (W6 : (forall bits b x m, pfx6 oc bits b x m -> bits = fst (v6_wire x) /\ (m <= length b)%nat /\ firstn m b = snd (v6_wire x)) \/ (forall x, v6_wf x -> fst (v6_wire x) <> 0))
    by (left; intros ? ? ? ? X; apply pfx6_facts in X; tauto).
  assert (L4 := lab_good oc pfx4 v4_wire v4_wf v4_trunc (pfx4_good oc)).
  assert (L6 := lab_good oc pfx6 v6_wire v6_wf v6_trunc (pfx6_good oc)).
  assert (V4 := lab_good oc (distinguished pfx4) (withrd_wire v4_wire) (withrd_wf v4_wf) (rd_map v4_trunc) (rd_good oc pfx4 v4_wf v4_trunc (pfx4_good oc))).
  assert (V6 := lab_good oc (distinguished pfx6) (withrd_wire v6_wire) (withrd_wf v6_wf) (rd_map v6_trunc) (rd_good oc pfx6 v6_wf v6_trunc (pfx6_good oc))).
  assert (M4 : forall bits b x m, bytes_ok b -> distinguished mdt4 oc bits b x m -> True -> withrd_wf mdt4_wf x /\ rd_map mdt4_trunc x = x)
    by (intros ? ? ? ? X Y _; exact (rd_good oc mdt4 mdt4_wf mdt4_trunc (mdt4_good oc) _ _ _ _ X Y)).
  assert (M6 := mdt6r_good oc).
  destruct a as [|v|v|v|v|v|v|v|v|v|v|v|v|v|v|v|v|v|v|v|v|v|v|v|v|v|v|v|v|v|v]; cbn [get_afi_safi] in G; injection G as <- <-; cbn [nlri_reads] in H; cbn [list_fits] in L.
  - contradiction.
  - fam_case H (all_true v) P4 W4.
  - fam_case H (all_true v) P4 W4.
  - fam_case H (all_true v) P4 W4.
  - fam_case H (all_true v) P4 W4.
  - fam_case H L L4 (lab_not_zero v4_wire v4_wf).
  - fam_case H L L4 (lab_not_zero v4_wire v4_wf).
  - fam_case H (all_true v) M4 (fun x (_ : withrd_wf mdt4_wf x) => rd_not_zero mdt4_wire x).
  - fam_case H (all_true v) M4 (fun x (_ : withrd_wf mdt4_wf x) => rd_not_zero mdt4_wire x).
  - fam_case H L V4 (lab_not_zero (withrd_wire v4_wire) (withrd_wf v4_wf)).
  - fam_case H L V4 (lab_not_zero (withrd_wire v4_wire) (withrd_wf v4_wf)).
  - fam_case H L V4 (lab_not_zero (withrd_wire v4_wire) (withrd_wf v4_wf)).
  - fam_case H L V4 (lab_not_zero (withrd_wire v4_wire) (withrd_wf v4_wf)).
  - fam_case H (all_true v) P6 W6.
  - fam_case H (all_true v) P6 W6.
  - fam_case H (all_true v) P6 W6.
  - fam_case H (all_true v) P6 W6.
  - fam_case H L L6 (lab_not_zero v6_wire v6_wf).
  - fam_case H L L6 (lab_not_zero v6_wire v6_wf).
  - fam_case H L M6 (fun x (_ : mdt6r_wf x) => rd_not_zero mdt6_wire x).
  - fam_case H L M6 (fun x (_ : mdt6r_wf x) => rd_not_zero mdt6_wire x).
  - fam_case H L V6 (lab_not_zero (withrd_wire v6_wire) (withrd_wf v6_wf)).
  - fam_case H L V6 (lab_not_zero (withrd_wire v6_wire) (withrd_wf v6_wf)).
  - fam_case H L V6 (lab_not_zero (withrd_wire v6_wire) (withrd_wf v6_wf)).
  - fam_case H L V6 (lab_not_zero (withrd_wire v6_wire) (withrd_wf v6_wf)).
  - split; [exact L|]. split; [reflexivity|]. intros X. discriminate X.
  - destruct H as (v' & H & E). injection E as <-. split; [|split; [reflexivity|intros X; discriminate X]].
    assert (F := many_all _ _ mv_good _ _ _ H B). cbn [addrs_wf]. rewrite Forall_forall in *. intros x Hx. split; [|now apply L].
    destruct (F x Hx) as [X|(y & ->)]; [exact X|]. now apply L in Hx.
  - destruct H as (v' & H & E). injection E as <-. split; [|split; [reflexivity|intros X; discriminate X]].
    assert (F := many_all _ _ (ev_good oc) _ _ _ H B). cbn [addrs_wf]. rewrite Forall_forall in *. intros x Hx. apply (F x Hx). now apply L.
  - destruct H as (v' & H & E). injection E as <-. split; [|split; [reflexivity|intros X; discriminate X]].
    assert (F := many_all _ _ (fs_good (item oc pfx4) fs4_wire v4_wf) _ _ _ H B). cbn [addrs_wf]. rewrite Forall_forall in *. intros x Hx. apply (F x Hx). now apply L.
  - destruct H as (v' & H & E). injection E as <-. split; [|split; [reflexivity|intros X; discriminate X]].
    assert (F := many_all _ _ (fs_good (fs6_reads oc) fs6_wire fs6_wf) _ _ _ H B). cbn [addrs_wf]. rewrite Forall_forall in *. intros x Hx. apply (F x Hx). now apply L.
  - destruct H as (v' & H & E). injection E as <-. split; [|split; [reflexivity|intros X; discriminate X]].
    assert (F := many_all _ _ (fs_good (item oc (distinguished pfx4)) fsv4_wire (withrd_wf v4_wf)) _ _ _ H B). cbn [addrs_wf]. rewrite Forall_forall in *. intros x Hx. apply (F x Hx). now apply L.
Qed.

(** ** Attributes *)
Lemma hop_good afi sf nhlen b nh k a : hop_reads afi sf nhlen b nh k -> get_afi_safi a = (afi, sf) -> nexthop_ok a nh.
Proof.
  intros H G. unfold nexthop_ok. rewrite G.
  destruct H as [x h r -> I _ Hx _|rd x r -> I _ Hr Hx|x h r -> I _ Hx _|rd x r -> I _ Hr Hx|x r -> I _ Hx];
    (split; [try exact Hx; split; assumption|]); cbn [In] in I; repeat (destruct I as [<-|I]; [exact Logic.I|]); contradiction.
Qed.
Lemma ip_of_mode m x : ip_wf x -> match m, x with ModeV4, IPv4 _ | ModeV6, IPv6 _ => True | _, _ => False end -> of_mode m x.
Proof. destruct m, x; cbn; tauto. Qed.
Lemma payload_good p tc b a : bytes_ok b -> In tc plain_codes -> payload p tc b a -> attr_fits p a -> attr_wf p a /\ attr_rt p a /\ attr_trunc a = a.
Proof.
  intros B I H (_ & F). cbn [plain_codes In] in I. repeat (destruct I as [<-|I]); [..|contradiction]; cbn [payload] in H.
  - destruct H as (c & r & _ & [(_ & ->)|[(_ & ->)|(_ & ->)]]); repeat split.
  - destruct H as (h & v & _ & _ & Hv & ->). split; [exact Hv|]. split; [exact F|reflexivity].
  - destruct H as (x & r & _ & Hx & ->). split; [exact Hx|]. split; [exact Logic.I|reflexivity].
  - destruct H as (v & r & _ & Hx & ->). split; [exact Hx|]. split; [exact Logic.I|reflexivity].
  - destruct H as (v & r & _ & Hx & ->). split; [exact Hx|]. split; [exact Logic.I|reflexivity].
  - destruct H as [(_ & ->)|(x & _ & Hx & ->)]; (split; [|split; [exact Logic.I|reflexivity]]); [reflexivity|exact Hx].
  - destruct H as (asn & ad & _ & -> & _). contradiction.
  - destruct H as (v & s & _ & Hv & (A & X) & ->). split; [|split; [exact Logic.I|reflexivity]]. split; [|exact A].
    rewrite Forall_forall in *. intros x Hx. now apply Hv, X.
  - destruct H as (x & r & _ & Hx & -> & _). split; [now apply ip_of_mode|]. split; [exact Logic.I|reflexivity].
  - destruct H as (v & r & _ & Hv & _ & ->). split; [exact Hv|]. split; [exact Logic.I|reflexivity].
  - destruct H as (v & s & r & _ & Hv & _ & (A & X) & ->). split; [|split; [exact Logic.I|reflexivity]]. split; [|exact A].
    rewrite Forall_forall in *. intros x Hx. now apply Hv, X.
  - destruct H as (asn & x & y & r & _ & H1 & H2 & H3 & ->). split; [|split; [exact Logic.I|reflexivity]]. repeat split; assumption.
  - destruct H as (v & s & _ & Hv & (A & X) & ->). split; [|split; [exact Logic.I|reflexivity]]. split; [|exact A].
    rewrite Forall_forall in *. intros x Hx. now apply Hv, X.
Qed.
Lemma snpas_bytes k s rest : snpas k s rest -> bytes_ok s -> bytes_ok rest.
Proof. induction 1 as [|k d s rest _ _ IH]; intros B; [exact B|]. inversion B as [|? ? _ B']; subst. apply Forall_app in B' as [_ B']. auto. Qed.
Lemma attr_good oc p tc f n b a : tc < 256 -> f < 256 -> bytes_ok b -> attr_reads oc p tc f n b a -> attr_fits p a -> attr_ok p a /\ attr_trunc a = a.
Proof.
  intros Ht Hf B R F. assert (X : attr_wf p a /\ attr_rt p a /\ attr_trunc a = a); [|destruct X as (X & Y & Z); split; [|exact Z]; split; [exact X|split; [exact Y|apply F]]].
  destruct R as [tc f n b a I P|f n b nh a P|f n b a P|f n b x P|f n asn s v A As P|tc f n v r I Lv].
  - eapply payload_good; eassumption.
  - destruct P as (afi & sf & nhlen & h & c & s & rest & k & -> & _ & Hh & Sn & Hn). do 4 (apply Forall_app in B as [_ B]). apply (snpas_bytes _ _ _ Sn) in B.
    destruct F as [_ F]. destruct (nlri_good _ _ _ _ _ _ _ B Hn F) as ((G1 & G2 & G3) & G). apply (hop_good _ _ _ _ _ _ a) in Hh; [|exact G].
    split; [split; [apply Hh|exact G1]|]. split; [split; assumption|]. cbn [attr_trunc]. congruence.
  - destruct P as (afi & sf & s & k & -> & _ & Hn). do 2 (apply Forall_app in B as [_ B]).
    destruct F as [_ F]. destruct (nlri_good _ _ _ _ _ _ _ B Hn F) as ((G1 & G2 & G3) & G).
    split; [exact G1|]. split; [exact G3|]. cbn [attr_trunc]. congruence.
  - now destruct F.
  - now destruct F.
  - apply Forall_app in B as [B _]. split; [|split; [exact Logic.I|reflexivity]]. split; [exact Ht|]. split; [exact Hf|]. split; [exact B|].
    intros K. apply I. clear - K. cbn in *. tauto.
Qed.
Lemma area_good oc p s v : area_of (attr_reads oc p) s v -> bytes_ok s -> Forall (attr_fits p) v -> Forall (attr_ok p) v /\ map attr_trunc v = v.
Proof.
  induction 1 as [|f tc d s a v _ R A IH]; intros B F; [split; [constructor|reflexivity]|].
  inversion F as [|? ? F1 F2]; subst. apply Forall_app in B as [B1 B2]. destruct (IH B2 F2) as [I1 I2].
  unfold frame in B1. apply Forall_app in B1 as [B0 B1]. apply Forall_app in B1 as [_ B1]. inversion B0 as [|? ? Bf B0']; subst. inversion B0' as [|? ? Bt _]; subst.
  destruct (attr_good _ _ _ _ _ _ _ Bt Bf B1 R F1) as [X Y]. split; [now constructor|]. cbn [map]. congruence.
Qed.
Lemma plain_good oc p b a : bytes_ok b -> plain_nlri oc p b a -> list_ok p a /\ nlri_norm p a = a.
Proof.
  intros B (n & H). unfold plain_nlri in H.
  assert (X : session_list p a = true /\ list_fits a).
  { unfold session_list. destruct (sp_mode p); cbn [nlri_reads] in H; destruct H as [(_ & v & _ & ->)|(_ & v & _ & ->)]; split; exact Logic.I || reflexivity. }
  destruct X as [X L]. assert (G : good p a) by (destruct (sp_mode p); eapply nlri_good in H; try eassumption; apply H).
  destruct G as (G1 & G2 & G3). split; [right; auto|]. unfold nlri_norm. now rewrite X.
Qed.
Lemma forward_l oc p b m buf : bytes_ok b -> update_decode oc p update_new b = Ok m -> forwardable p m -> (length (update_wire p m) <= length buf)%nat ->
  exists n out, update_encode oc p m buf = Ok (n, out) /\ update_decode oc p update_new (firstn n out) = Ok m.
Proof.
  intros B D (F & W) L. destruct m as [up wd l]. apply update_exact' in D as (v & El & R); [|exact B]. cbn [update_new u_attrs app] in El. subst v.
  destruct R as (w & s & nl & Eb & _ & _ & Rw & Ra & Rn). subst b. do 2 (apply Forall_app in B as [?Bx B]). do 2 (apply Forall_app in B as [?By B]).
  cbn [u_attrs] in F. destruct (plain_good _ _ _ _ Bx0 Rw) as [W1 W2]. destruct (plain_good _ _ _ _ B Rn) as [U1 U2]. destruct (area_good _ _ _ _ Ra By0 F) as [A1 A2].
  assert (K : update_ok p (mkUpd up wd l)).
  { split; [exact U1|]. split; [exact W1|]. split; [exact A1|]. unfold update_wire in W. rewrite !app_length in W. cbn [u_withdraws u_attrs] in *. lia. }
  destruct (update_roundtrip oc p _ buf K L) as [E1 E2]. exists (length (update_wire p (mkUpd up wd l))). eexists. split; [exact E1|].
  rewrite firstn_app, firstn_all, Nat.sub_diag, firstn_O, app_nil_r, E2. unfold update_norm. cbn [u_updates u_withdraws u_attrs]. now rewrite W2, U2, A2.
Qed.

(** ** What cannot be sent on *)
Lemma use_pid_nil p afi sf : use_pathid p afi sf [] = check_addpath_receive p afi sf.
Proof. unfold use_pathid. destruct (sp_fuzzy p), (check_addpath_receive p afi sf); reflexivity. Qed.
Local Arguments on_tail : simpl never.
Lemma aggregator_lost oc p asn a : asn < 2 ^ (8 * N.of_nat (as_octets p)) -> a < 2 ^ 32 ->
  let m := mkUpd (empty_list p) (empty_list p) [AAggregatorAS asn a] in
  (exists b, bytes_ok b /\ update_decode oc p update_new b = Ok m) /\
  forall buf, (11 <= length buf)%nat -> exists n out, update_encode oc p m buf = Ok (n, out) /\ update_decode oc p update_new (firstn n out) = Err EOther.
Proof.
  intros H1 H2 m.
  assert (Z : plain_nlri oc p [] (empty_list p)).
  { unfold empty_list. destruct (sp_mode p) eqn:E; unfold plain_nlri; rewrite E.
    - exists 0%nat. cbn [nlri_reads]. unfold family. destruct (check_addpath_receive p 1 1) eqn:K; rewrite <- use_pid_nil in K.
      + left. split; [now apply use_pid_iff|]. exists []. split; [apply many_pid_nil; cbn [length]; lia|reflexivity].
      + right. split; [now rewrite <- use_pid_iff, K|]. exists []. split; [now constructor|reflexivity].
    - exists 0%nat. cbn [nlri_reads]. unfold family. destruct (check_addpath_receive p 2 1) eqn:K; rewrite <- use_pid_nil in K.
      + left. split; [now apply use_pid_iff|]. exists []. split; [apply many_pid_nil; cbn [length]; lia|reflexivity].
      + right. split; [now rewrite <- use_pid_iff, K|]. exists []. split; [now constructor|reflexivity]. }
  split.
  - set (d := attr_wire p (AAggregatorAS asn a)). set (s := [192; 7] ++ [N.of_nat (length d)] ++ d).
    assert (Bd : bytes_ok d).
    { unfold d. cbn [attr_wire]. apply Forall_app; split; apply be_bytes_ok. }
    assert (Ld : length d = (as_octets p + 4)%nat) by (unfold d; cbn [attr_wire]; now rewrite app_length, !length_be_bytes).
    assert (La : (as_octets p <= 4)%nat) by (unfold as_octets; destruct (sp_as32 p); lia).
    assert (Es : s = frame 192 7 d ++ []) by (rewrite app_nil_r; unfold s, frame; cbn [len_octets]; change (len_octets 192) with 1%nat; rewrite be1; [reflexivity|rewrite Ld; lia]).
    assert (Ls : length s = (as_octets p + 7)%nat) by (unfold s; cbn [app length]; rewrite Ld; lia).
    assert (B : bytes_ok (be_bytes 2 0 ++ [] ++ be_bytes 2 (N.of_nat (length s)) ++ s ++ [])).
    { apply Forall_app; split; [apply be_bytes_ok|]. cbn [app]. apply Forall_app; split; [apply be_bytes_ok|]. rewrite app_nil_r. unfold s.
      apply Forall_cons; [reflexivity|]. apply Forall_cons; [reflexivity|]. apply Forall_cons; [unfold is_byte; rewrite Ld; lia|exact Bd]. }
    eexists. split; [exact B|]. apply update_exact'; [exact B|]. exists [AAggregatorAS asn a]. split; [reflexivity|].
    exists [], s, []. split; [reflexivity|]. split; [reflexivity|]. split; [rewrite Ls; clear - La; lia|]. split; [exact Z|]. split; [|exact Z].
    rewrite Es. apply area_more; [rewrite Ld; change (len_max 192) with 255; lia| |apply area_end].
    apply attr_exact; [exact Bd|]. now apply aggregator_decode_rfc.
  - assert (U : exists x, upd_nlri_decode oc p [] = Ok x).
    { unfold upd_nlri_decode, dec_fam. destruct (sp_mode p); rewrite use_pid_nil; destruct (check_addpath_receive p _ _); eexists; reflexivity. }
    intros buf L. do 11 (destruct buf as [|? buf]; [cbn [length] in L; lia|]). clear L H1 H2 Z.
    unfold m, empty_list, update_encode, upd_withdraws, upd_nlri_encode. cbn [u_withdraws u_attrs u_updates].
    destruct (sp_mode p) eqn:E, (sp_as32 p) eqn:F.
    all: [> destruct (check_addpath_receive p 1 1) eqn:K|destruct (check_addpath_receive p 1 1) eqn:K|destruct (check_addpath_receive p 2 1) eqn:K|destruct (check_addpath_receive p 2 1) eqn:K].
    all: cbn; unfold aggregator_encode; rewrite ?F; unfold ebind.
    all: repeat (rewrite on_tail_from by (cbn [length]; lia); cbn).
    all: eexists; eexists; (split; [reflexivity|]); cbn [firstn].
    all: unfold update_decode; cbn -[upd_nlri_decode upd_attrs N.to_nat]; change (N.to_nat 0) with 0%nat; cbn -[upd_nlri_decode upd_attrs N.to_nat].
    all: destruct U as (x & U); rewrite ?U; vm_compute; reflexivity.
Qed.
