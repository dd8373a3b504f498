From Coq Require Import Ascii String Permutation.
From Verif Require Import Base BaseFacts S_Attr S_Prefix S_Text F_Prefix F_Attr F_Text F_Text2 F_Text4 M_Util M_Prefix M_Nlri M_Vpls M_Mvpn M_Evpn M_Flowspec M_Addrs M_Attr M_Text M_Text2 M_Serde S_Serde F_Serde.
Ltac Zify.zify_post_hook ::= idtac.

(** ** Addresses that were read are in range *)
Lemma ipv4_text_lt s a : ipv4_text s a -> a < 2 ^ 32.
Proof.
  intros (s0 & s1 & s2 & s3 & b0 & b1 & b2 & b3 & _ & _ & _ & _ & _ & B & ->). exact (be_val_bound [b0; b1; b2; b3] B).
Qed.
Lemma parse_ipv4_lt s a : parse_ipv4 s = Ok a -> a < 2 ^ 32.
Proof. intros H. apply parse_ipv4_iff in H. now apply ipv4_text_lt with s. Qed.
Lemma read_number_lt w r m z s v rest : read_number w r m z s = Some (v, rest) -> v < 2 ^ w.
Proof.
  unfold read_number. destruct (read_digits r m 0 0 s) as [[[x c] t]|]; [|discriminate]. destruct (Nat.eqb c 0); [discriminate|].
  destruct (negb z && match s with [] => false | c0 :: _ => c0 =? 48 end && Nat.ltb 1 c)%bool; [discriminate|].
  destruct (x <? 2 ^ w) eqn:L; [|discriminate]. intros H. injection H as <- _. now apply N.ltb_lt.
Qed.
Lemma read_sep_inv {A} c i (p : parser A) s r : read_separator c i p s = Some r -> exists s', p s' = Some r.
Proof. unfold read_separator. destruct i; [eauto|]. destruct (read_char c s) as [[u s']|]; [eauto|discriminate]. Qed.
Lemma read_groups_lt : forall left i s gs v4 rest, read_groups left i s = (gs, v4, rest) -> Forall (fun g => g < 65536) gs /\ (length gs <= left)%nat.
Proof.
  induction left as [|left IH]; intros i s gs v4 rest; cbn [read_groups].
  - intros H. injection H as <- _ _. split; [constructor|cbn; lia].
  - destruct (match left with O => None | S _ => read_separator 58 i read_ipv4 s end) as [[a s']|] eqn:E.
    + destruct left as [|left]; [discriminate|]. apply read_sep_inv in E as (s'' & E). apply read_ipv4_iff in E as (t & _ & T & _).
      apply ipv4_text_lt in T. intros H. assert (G : gs = [N.shiftr a 16; N.land a 0xffff]) by congruence. clear H. subst gs.
      split; [|cbn; lia]. clear - T. constructor; [|constructor; [|constructor]].
      * rewrite N.shiftr_div_pow2. apply N.div_lt_upper_bound; [discriminate|]. exact T.
      * change 0xffff with (N.ones 16). rewrite N.land_ones. now apply N.mod_lt.
    + destruct (read_separator 58 i (read_number 16 16 4 true) s) as [[g s']|] eqn:E2.
      * destruct (read_groups left (S i) s') as [[gs' v4'] rest'] eqn:E3. intros H. injection H as <- _ _.
        apply read_sep_inv in E2 as (s'' & E2). apply read_number_lt in E2. apply IH in E3 as [F L]. split; [now constructor|cbn; lia].
      * intros H. injection H as <- _ _. split; [constructor|cbn; lia].
Qed.
Lemma parse_ipv6_lt s a : parse_ipv6 s = Ok a -> a < 2 ^ 128.
Proof.
  unfold parse_ipv6, parse_with. destruct (read_ipv6 s) as [[a' [|? ?]]|] eqn:E; try discriminate. intros H. injection H as <-.
  assert (G : exists gs, a' = ip6_new gs /\ length gs = 8%nat /\ Forall (fun g => g < 65536) gs).
  { unfold read_ipv6 in E. destruct (read_groups 8 0 s) as [[hd v4] s1] eqn:R1. apply read_groups_lt in R1 as [F1 L1].
    destruct (Nat.eqb_spec (length hd) 8) as [L|L]; [injection E as <- _; eauto|]. destruct v4; [discriminate|].
    destruct (read_char 58 s1) as [[? s2]|]; [|discriminate]. destruct (read_char 58 s2) as [[? s3]|]; [|discriminate].
    destruct (read_groups (8 - (length hd + 1)) 0 s3) as [[tl v4'] s4] eqn:R2. apply read_groups_lt in R2 as [F2 L2]. injection E as <- _.
    exists (hd ++ repeat 0 (8 - length tl - length hd) ++ tl). split; [reflexivity|]. split.
    - rewrite !app_length, repeat_length. clear - L L1 L2. lia.
    - apply Forall_app. split; [exact F1|]. apply Forall_app. split; [|exact F2]. apply Forall_forall. intros x I. apply repeat_spec in I as ->. reflexivity. }
  destruct G as (gs & -> & L & F). apply ip6_new_lt in F. rewrite L in F. exact F.
Qed.
Lemma prefix_parse_inv {A} (f : text -> res A) h s a l : h < 256 -> prefix_parse f h s = Ok (a, l) -> (exists t, f t = Ok a) /\ l < 256.
Proof.
  intros Hh. unfold prefix_parse. cbv zeta. destruct (Nat.ltb (length (split_on 47 s)) 2).
  - destruct (idx (split_on 47 s) 0) as [p| | |]; cbn [bind]; try discriminate. destruct (f p) as [x| | |] eqn:E; cbn [bind]; try discriminate.
    intros H. injection H as <- <-. eauto.
  - destruct (idx (split_on 47 s) 0) as [p| | |]; cbn [bind]; try discriminate. destruct (f p) as [x| | |] eqn:E; cbn [bind]; try discriminate.
    destruct (idx (split_on 47 s) 1) as [q| | |]; cbn [bind]; try discriminate. intros H. injection H as <- <-. split; [eauto|].
    destruct (parse_uint 8 q) as [n| | |] eqn:U; cbn [unwrap_or]; try exact Hh. apply parse_uint_iff in U. exact (proj1 U).
Qed.
Lemma macp_parse_any s p : macp_parse s = Ok p -> net_any (NetMac p).
Proof.
  unfold macp_parse. destruct (prefix_parse mac_parse 48 s) as [[a l]| | |] eqn:E; cbn [bind]; try discriminate. intros H. injection H as <-.
  apply prefix_parse_inv in E as [(t & T) L]; [|reflexivity]. split; [|exact L]. cbn [mc_addr].
  unfold mac_parse in T. destruct (mac_digits t 0 0) as [v c]. destruct (Nat.ltb c 1); [discriminate|]. injection T as <-. apply mac_from_u64_wf.
Qed.
Lemma v4_parse_any s p : v4_parse s = Ok p -> net_any (NetV4 p).
Proof.
  unfold v4_parse. destruct (prefix_parse parse_ipv4 32 s) as [[a l]| | |] eqn:E; cbn [bind]; try discriminate. intros H. injection H as <-.
  apply prefix_parse_inv in E as [(t & T) L]; [|reflexivity]. split; [now apply parse_ipv4_lt with t|exact L].
Qed.
Lemma v6_parse_any s p : v6_parse s = Ok p -> net_any (NetV6 p).
Proof.
  unfold v6_parse. destruct (prefix_parse parse_ipv6 128 s) as [[a l]| | |] eqn:E; cbn [bind]; try discriminate. intros H. injection H as <-.
  apply prefix_parse_inv in E as [(t & T) L]; [|reflexivity]. split; [now apply parse_ipv6_lt with t|exact L].
Qed.
Lemma net_parse_any s n : net_parse s = Ok n -> net_any n.
Proof.
  assert (M : (m <- macp_parse s ;; Ok (NetMac m)) = Ok n -> net_any n).
  { destruct (macp_parse s) as [p| | |] eqn:E; cbn [bind]; try discriminate. intros H. injection H as <-. now apply macp_parse_any with s. }
  unfold net_parse. destruct (v4_parse s) as [p| | |] eqn:E4.
  - intros H. injection H as <-. now apply v4_parse_any with s.
  - destruct (v6_parse s) as [p| | |] eqn:E6; try exact M. intros H. injection H as <-. now apply v6_parse_any with s.
  - destruct (v6_parse s) as [p| | |] eqn:E6; try exact M. intros H. injection H as <-. now apply v6_parse_any with s.
  - destruct (v6_parse s) as [p| | |] eqn:E6; try exact M. intros H. injection H as <-. now apply v6_parse_any with s.
Qed.

(** ** Sets *)
Fixpoint lexl (l m : list N) : comparison :=
  match l, m with
  | [], [] => Eq
  | [], _ => Lt
  | _, [] => Gt
  | x :: l', y :: m' => cmp_then (x ?= y) (lexl l' m')
  end.
Lemma lexl_laws : cmp_laws lexl.
Proof.
  constructor.
  - induction x as [|x l IH]; intros [|y m]; cbn [lexl]; try (split; discriminate); [split; reflexivity|].
    unfold cmp_then. destruct (N.compare_spec x y) as [->|Q|Q].
    + rewrite IH. split; congruence.
    + split; [discriminate|]. intros E. injection E as -> _. clear - Q. lia.
    + split; [discriminate|]. intros E. injection E as -> _. clear - Q. lia.
  - induction x as [|x l IH]; intros [|y m]; cbn [lexl]; try reflexivity. rewrite (N.compare_antisym x y), (IH m). unfold cmp_then. now destruct (x ?= y).
  - induction x as [|x l IH]; intros [|y m] [|z n]; cbn [lexl]; try discriminate; auto. unfold cmp_then.
    destruct (N.compare_spec x y) as [->|Q|Q]; try discriminate.
    + destruct (N.compare_spec y z) as [->|Q'|Q']; try discriminate; auto. apply IH.
    + intros _. destruct (N.compare_spec y z) as [->|Q'|Q']; try discriminate; intros _.
      * apply N.compare_lt_iff in Q. now rewrite Q.
      * assert (L : x < z) by (clear - Q Q'; lia). apply N.compare_lt_iff in L. now rewrite L.
Qed.
Lemma gcmp_lexl l : forall m, gcmp (GList (map GNum l)) (GList (map GNum m)) = lexl l m.
Proof.
  cbn [gcmp]. induction l as [|x l IH]; intros [|y m]; cbn [map lexl]; try reflexivity. now rewrite IH.
Qed.
Section MapSets.
  Context {A : Type} (g : A -> gval) (cmp : A -> A -> comparison) (E : forall x y, gcmp (g x) (g y) = cmp x y) (L : cmp_laws cmp).
  Lemma insert_map x l : bset_insert gcmp (g x) (map g l) = map g (bset_insert cmp x l).
  Proof. induction l as [|y l IH]; [reflexivity|]. cbn [map bset_insert]. rewrite E, IH. now destruct (cmp x y). Qed.
  Lemma bset_map l : bset_of gcmp (map g l) = map g (bset_of cmp l).
  Proof.
    unfold bset_of. enough (G : forall acc, fold_left (fun s x => bset_insert gcmp x s) (map g l) (map g acc) = map g (fold_left (fun s x => bset_insert cmp x s) l acc))
      by exact (G []).
    induction l as [|x l IH]; intros acc; [reflexivity|]. cbn [map fold_left]. now rewrite insert_map, IH.
  Qed.
  Lemma ascending_map l : ascending gcmp (map g l) <-> ascending cmp l.
  Proof.
    induction l as [|x l IH]; [tauto|]. cbn [map ascending]. rewrite IH, Forall_map. split; intros [H1 H2]; (split; [|exact H2]);
      (eapply Forall_impl; [|exact H1]); intros y; cbv beta; rewrite E; auto.
  Qed.
  Lemma bset_map_ok (P : gval -> Prop) l : Forall P (map g l) -> Forall P (bset_of gcmp (map g l)) /\ ascending gcmp (bset_of gcmp (map g l)).
  Proof.
    intros F. rewrite bset_map, ascending_map. destruct (bset_of_spec cmp L l) as [H1 H2]. split; [|exact H1].
    rewrite Forall_map in *. rewrite Forall_forall in *. intros y I. apply F. now apply H2.
  Qed.
End MapSets.

(** ** What is read belongs to the type *)
Lemma sbind_ok {A B} (x : sres A) (f : A -> sres B) b : sbind x f = SOk b -> exists a, x = SOk a /\ f a = SOk b.
Proof. destruct x; cbn [sbind]; try discriminate. eauto. Qed.
Lemma de_uint_inv w d v : de_uint w d = SOk v -> exists n, d = DNum n /\ v = GNum n /\ n < 2 ^ w.
Proof.
  destruct d; cbn [de_uint]; try discriminate. destruct (n <? 2 ^ w) eqn:L; [|discriminate]. intros H. injection H as <-. apply N.ltb_lt in L. eauto.
Qed.
Lemma de_octets_inv n d l : de_octets n d = SOk l -> exists ns, d = DSeq (map DNum ns) /\ l = map GNum ns /\ length ns = n /\ bytes_ok ns.
Proof.
  destruct d as [| | | | |ds| |]; cbn [de_octets]; try discriminate. generalize 0%nat. revert l ds. induction n as [|n IH]; intros l [|d ds] i; cbn [repeat seq_loop]; try discriminate.
  - intros H. injection H as <-. exists []. repeat split; constructor.
  - intros H. apply sbind_ok in H as (v & E & H). apply de_uint_inv in E as (x & -> & -> & Lx). apply sbind_ok in H as (l' & E & H). injection H as <-.
    apply IH in E as (ns & Ed & -> & L & B). injection Ed as ->. exists (x :: ns). repeat split; [cbn; congruence|now constructor].
Qed.
Lemma octets_val_lt ns : bytes_ok ns -> octets_val (map GNum ns) < 2 ^ (8 * N.of_nat (length ns)).
Proof. intros B. unfold octets_val. rewrite gnum_map. now apply be_val_bound. Qed.
Lemma de_ip4_lt hr d a : de_ip4 hr d = SOk a -> a < 2 ^ 32.
Proof.
  unfold de_ip4. destruct hr.
  - destruct d; try discriminate. destruct (parse_ipv4 s) as [x| | |] eqn:E; try discriminate. intros H. injection H as <-. now apply parse_ipv4_lt with s.
  - intros H. apply sbind_ok in H as (l & E & H). injection H as <-. apply de_octets_inv in E as (ns & _ & -> & L & B). apply octets_val_lt in B.
    rewrite L in B. exact B.
Qed.
Lemma de_ip6_lt hr d a : de_ip6 hr d = SOk a -> a < 2 ^ 128.
Proof.
  unfold de_ip6. destruct hr.
  - destruct d; try discriminate. destruct (parse_ipv6 s) as [x| | |] eqn:E; try discriminate. intros H. injection H as <-. now apply parse_ipv6_lt with s.
  - intros H. apply sbind_ok in H as (l & E & H). injection H as <-. apply de_octets_inv in E as (ns & _ & -> & L & B). apply octets_val_lt in B.
    rewrite L in B. exact B.
Qed.
Lemma de_ip_any hr d v : de_ip hr d = SOk v -> exists a, v = GIp a /\ ip_any a.
Proof.
  unfold de_ip. destruct hr.
  - destruct d; try discriminate. destruct (parse_ipv4 s) as [x| | |] eqn:E4.
    + intros H. injection H as <-. eexists. split; [reflexivity|]. now apply parse_ipv4_lt with s.
    + destruct (parse_ipv6 s) as [x| | |] eqn:E; try discriminate. intros H. injection H as <-. eexists. split; [reflexivity|]. now apply parse_ipv6_lt with s.
    + destruct (parse_ipv6 s) as [x| | |] eqn:E; try discriminate. intros H. injection H as <-. eexists. split; [reflexivity|]. now apply parse_ipv6_lt with s.
    + destruct (parse_ipv6 s) as [x| | |] eqn:E; try discriminate. intros H. injection H as <-. eexists. split; [reflexivity|]. now apply parse_ipv6_lt with s.
  - destruct d as [| | | | | | |k [d|]]; try discriminate. intros H. apply sbind_ok in H as ([|i] & _ & H); apply sbind_ok in H as (a & E & H); injection H as <-;
      (eexists; split; [reflexivity|]); [now apply de_ip4_lt in E|now apply de_ip6_lt in E].
Qed.
Lemma de_list_inv f : forall ds l, de_list f ds = SOk l -> Forall2 (fun d v => f d = SOk v) ds l.
Proof.
  induction ds as [|d ds IH]; intros l; cbn [de_list].
  - intros H. injection H as <-. constructor.
  - intros H. apply sbind_ok in H as (v & E & H). apply sbind_ok in H as (l' & E' & H). injection H as <-. constructor; auto.
Qed.
Lemma seq_loop_inv : forall fs ds i l, seq_loop i fs ds = SOk l -> length l = length fs /\ Forall2 (fun f v => exists d, f d = SOk v) fs l.
Proof.
  induction fs as [|f fs IH]; intros [|d ds] i l; cbn [seq_loop]; try discriminate.
  - intros H. injection H as <-. split; [reflexivity|constructor].
  - intros H. apply sbind_ok in H as (v & E & H). apply sbind_ok in H as (l' & E' & H). injection H as <-. apply IH in E' as [L F].
    split; [cbn; congruence|]. constructor; eauto.
Qed.
(** each entry that has been read comes from its field *)
Definition acc_ok (fs : list fld) (acc : list (option gval)) : Prop :=
  Forall2 (fun f a => match a with Some v => exists d, fld_de f d = SOk v | None => True end) fs acc.
Lemma put_ok fs : forall acc i f v d, acc_ok fs acc -> nth_error fs i = Some f -> fld_de f d = SOk v -> acc_ok fs (put acc i v).
Proof.
  induction fs as [|g fs IH]; intros acc i f v d H E D; inversion H as [|? a ? acc' H1 H2]; subst; destruct i as [|i]; cbn [nth_error] in E; try discriminate; cbn [put].
  - injection E as ->. constructor; eauto.
  - constructor; [exact H1|]. exact (IH acc' i f v d H2 E D).
Qed.
Lemma map_loop_inv fs : forall es acc acc', acc_ok fs acc -> map_loop fs acc es = SOk acc' -> acc_ok fs acc'.
Proof.
  induction es as [|[k d] es IH]; intros acc acc' H; cbn [map_loop].
  - intros E. injection E as <-. exact H.
  - destruct (field_key (map fld_name fs) k) as [i|]; [|now apply IH]. destruct (nth_error fs i) as [f|] eqn:F; [|discriminate].
    destruct (nth i acc None); [discriminate|]. intros E. apply sbind_ok in E as (v & D & E). apply IH in E; [exact E|]. now apply put_ok with f d.
Qed.
Lemma finish_inv fs : forall acc l, acc_ok fs acc -> finish fs acc = SOk l -> Forall2 (fun f v => (exists d, fld_de f d = SOk v) \/ snd f = Some v) fs l.
Proof.
  induction fs as [|f fs IH]; intros acc l H; inversion H as [|? a ? acc' H1 H2]; subst; cbn [finish].
  - intros E. injection E as <-. constructor.
  - intros E. apply sbind_ok in E as (v & D & E). apply sbind_ok in E as (l' & E' & E). injection E as <-. constructor; [|now apply (IH acc')].
    destruct a as [w|]; [injection D as <-; now left|]. destruct (snd f) as [w|]; [injection D as <-; now right|discriminate].
Qed.
Lemma de_struct_inv fs d v : de_struct fs d = SOk v -> exists l, v = GList l /\ Forall2 (fun f v => (exists d, fld_de f d = SOk v) \/ snd f = Some v) fs l.
Proof.
  destruct d; cbn [de_struct]; try discriminate.
  - intros H. apply sbind_ok in H as (l' & E & H). injection H as <-. exists l'. split; [reflexivity|]. apply seq_loop_inv in E as [_ F].
    clear - F. remember (map fld_de fs) as gs eqn:G. revert fs G. induction F as [|g v gs l' (d & Hd) _ IH]; intros [|f fs] G; cbn [map] in G; try discriminate; constructor.
    + injection G as -> _. left. eauto.
    + apply IH. now injection G.
  - intros H. apply sbind_ok in H as (acc & E & H). apply sbind_ok in H as (l' & E' & H). injection H as <-. exists l'. split; [reflexivity|].
    apply finish_inv with acc; [|exact E']. apply map_loop_inv in E; [exact E|]. clear. unfold acc_ok. induction fs as [|f fs IH]; cbn [map]; constructor; auto.
Qed.
Lemma de_pair_inv names miss fa fb d v : de_pair names miss fa fb d = SOk v -> exists da db a b, fa da = SOk a /\ fb db = SOk b /\ v = GPair a b.
Proof.
  destruct d as [| | | | |ds|es|]; cbn [de_pair]; try discriminate.
  - destruct ds as [|x ds]; [discriminate|]. intros H. apply sbind_ok in H as (a & A & H). destruct ds as [|y [|z ds]]; [discriminate| |].
    + apply sbind_ok in H as (b & B & H). injection H as <-. eauto 7.
    + apply sbind_ok in H as (b & B & H). discriminate.
  - intros H. apply sbind_ok in H as ([oa ob] & E & H).
    assert (G : forall es a b, match a with Some x => exists d, fa d = SOk x | None => True end -> match b with Some x => exists d, fb d = SOk x | None => True end ->
      pair_loop names fa fb a b es = SOk (oa, ob) ->
      match oa with Some x => exists d, fa d = SOk x | None => True end /\ match ob with Some x => exists d, fb d = SOk x | None => True end).
    { clear. induction es as [|[k d] es IH]; intros a b Ha Hb; cbn [pair_loop].
      - intros E. injection E as -> ->. auto.
      - intros E. apply sbind_ok in E as (sec & _ & E). destruct sec.
        + destruct b; [discriminate|]. apply sbind_ok in E as (v & D & E). apply IH in E; eauto.
        + destruct a; [discriminate|]. apply sbind_ok in E as (v & D & E). apply IH in E; eauto. }
    destruct (G es None None I I E) as [GA GB]. cbn [fst snd] in H.
    apply sbind_ok in H as (a & A & H). apply sbind_ok in H as (b & B & H). injection H as <-.
    unfold need in A, B. destruct oa as [x|]; [|discriminate]. destruct ob as [y|]; [|discriminate]. injection A as <-. injection B as <-.
    destruct GA as (da & GA). destruct GB as (db & GB). eauto 7.
Qed.
Definition wt_ok (t : ty) : Prop := sound_ty t -> forall hr d v, de hr t d = SOk v -> typed t v.
Lemma fs_typed hr fs : Forall (fun f => wt_ok (snd f)) fs -> sound_fs fs -> forall l,
  Forall2 (fun (f : fld) v => (exists d, fld_de f d = SOk v) \/ snd f = Some v) (map (fun f => match f with (nm, t) => (nm, de hr t, dflt t) end) fs) l -> typed_fs fs l.
Proof.
  induction 1 as [|[nm t] fs H _ IH]; intros Sd l F; cbn [map] in F; inversion F as [|? v ? l' F1 F2]; subst; cbn [typed_fs]; [exact I|].
  split; [|apply IH; [apply Sd|exact F2]]. cbn [fld_de fst snd] in F1. destruct F1 as [(d & D)|D]; [now apply (H (proj1 Sd) hr d)|].
  destruct t; cbn [dflt] in D; try discriminate. injection D as <-. exact I.
Qed.
Lemma well_typed t : wt_ok t.
Proof.
  induction t as [|w| | | |n|t IH|t IH|t IH|fs IH|vs IH|t IH|t IH|t IH|ps IH| |] using ty_rect'; intros Sd hr d v H; cbn [de] in H.
  - destruct d; try discriminate. injection H as <-. exact I.
  - apply de_uint_inv in H as (n & _ & -> & L). exact L.
  - apply sbind_ok in H as (a & E & H). injection H as <-. now apply de_ip4_lt in E.
  - apply sbind_ok in H as (a & E & H). injection H as <-. now apply de_ip6_lt in E.
  - apply de_ip_any in H as (a & -> & A). exact A.
  - apply sbind_ok in H as (l & E & H). injection H as <-. apply de_octets_inv in E as (ns & _ & -> & L & B). cbn [typed]. rewrite map_length. split; [exact L|].
    rewrite Forall_map. eapply Forall_impl; [|exact B]. intros x Hx. now exists x.
  - destruct d as [| | | | |ds| |]; cbn [de_seq] in H; try discriminate. apply sbind_ok in H as (l & E & H). injection H as <-. apply de_list_inv in E. cbn [typed].
    induction E as [|d v ds l Hd _ IHl]; constructor; auto. now apply (IH Sd hr d).
  - destruct d as [| | | | |ds| |]; cbn [de_seq] in H; try discriminate. apply sbind_ok in H as (l & E & H). injection H as <-. apply de_list_inv in E. cbn [typed].
    destruct Sd as [(w & ->)|(fs & -> & ND & F)].
    + assert (T : Forall (typed (TUint w)) l) by (induction E as [|d v ds l Hd _ IHl]; constructor; auto; now apply (IH I hr d)).
      assert (G : exists ns, l = map GNum ns).
      { clear - T. induction T as [|v l Hv _ (ns & ->)]; [now exists []|]. destruct v; cbn [typed] in Hv; try contradiction. now exists (n :: ns). }
      destruct G as (ns & ->). apply (bset_map_ok GNum N.compare); [reflexivity|apply N_laws|exact T].
    + assert (Sd : sound_ty (TStruct fs)).
      { split; [exact ND|]. clear - F. induction F as [|[nm t] fs (w & E) _ IH]; [exact I|]. cbn [snd] in E. subst t. split; [exact I|exact IH]. }
      assert (T : Forall (typed (TStruct fs)) l) by (induction E as [|d v ds l Hd _ IHl]; constructor; auto; now apply (IH Sd hr d)).
      assert (G : exists ns, l = map (fun x => GList (map GNum x)) ns).
      { clear - T F. induction T as [|v l Hv _ (ns & ->)]; [now exists []|]. destruct v as [| | | | |vl| | | | |]; cbn [typed] in Hv; try contradiction.
        assert (X : exists x, vl = map GNum x).
        { change (typed_fs fs vl) in Hv. revert vl Hv. induction F as [|[nm t] fs (w & Et) _ IHf]; intros [|v vl] Hv; cbn [typed_fs] in Hv; try contradiction; [now exists []|].
          destruct Hv as [Hv Hl]. cbn [snd] in Et. subst t. destruct v; cbn [typed] in Hv; try contradiction. destruct (IHf vl Hl) as (x & ->). now exists (n :: x). }
        destruct X as (x & ->). now exists (x :: ns). }
      destruct G as (ns & ->). apply (bset_map_ok (fun x => GList (map GNum x)) lexl); [exact gcmp_lexl|apply lexl_laws|exact T].
  - destruct d; try discriminate; [injection H as <-; exact I|]. apply sbind_ok in H as (w & E & H). injection H as <-. now apply (IH Sd hr d).
  - apply de_struct_inv in H as (l & -> & F). destruct Sd as [ND Sd]. exact (fs_typed hr fs IH Sd l F).
  - destruct d as [| | | | | | |k p]; cbn [de_enum] in H; try discriminate. apply sbind_ok in H as (i & _ & H).
    destruct Sd as [ND Sd]. change (sound_vs vs) in Sd. rewrite nth_error_map in H. destruct (nth_error vs i) as [[nm [t|]]|] eqn:E; cbn [option_map] in H; try discriminate.
    + destruct p as [d|]; [|discriminate]. apply sbind_ok in H as (w & D & H). injection H as <-.
      assert (T : typed t w).
      { rewrite Forall_forall in IH. pose proof (nth_error_In _ _ E) as E'. exact (IH _ E' (sound_vs_nth vs i nm t Sd E) hr d w D). }
      change (typed_vs (Some w) vs i). clear - E T. revert i E. induction vs as [|[nm' [t'|]] vs IH]; intros [|i] E; cbn in E; try discriminate; cbn [typed_vs]; [injection E as _ ->; exact T| |];
        now apply IH.
    + destruct p as [d|]; [discriminate|]. injection H as <-. change (typed_vs None vs i). clear - E. revert i E.
      induction vs as [|[nm' [t'|]] vs IH]; intros [|i] E; cbn in E; try discriminate; cbn [typed_vs]; auto.
  - apply de_pair_inv in H as (da & db & a & b & A & B & ->). split; [|now apply (IH Sd hr db)].
    unfold de_rd in A. apply de_struct_inv in A as (l & -> & F). inversion F as [|? x ? l1 F1 F2]; subst. inversion F2 as [|? y ? l2 F3 F4]; subst. inversion F4; subst.
    cbn [fld_de fst snd] in F1, F3. destruct F1 as [(d1 & D1)|D1]; [|discriminate]. destruct F3 as [(d2 & D2)|D2]; [|discriminate].
    apply de_uint_inv in D1 as (n1 & _ & -> & L1). apply de_uint_inv in D2 as (n2 & _ & -> & L2). now exists n1, n2.
  - apply de_pair_inv in H as (da & db & a & b & A & B & ->). split; [|now apply (IH Sd hr db)].
    destruct da as [| | | | |ds| |]; cbn [de_seq] in A; try discriminate. apply sbind_ok in A as (l & E & A). injection A as <-. exists l. split; [reflexivity|].
    apply de_list_inv in E. clear - E. induction E as [|x y ds l Hx _ IH]; constructor; auto. apply de_uint_inv in Hx as (n & _ & -> & L). now exists n.
  - apply de_pair_inv in H as (da & db & a & b & A & B & ->). split; [|now apply (IH Sd hr db)]. apply de_uint_inv in A as (n & _ & -> & L). now exists n.
  - destruct d as [| | | | | |es|]; cbn [de_flow] in H; try discriminate. destruct es as [|[k d] es]; [discriminate|]. apply sbind_ok in H as (i & _ & H).
    rewrite nth_error_map in H. destruct (nth_error ps i) as [t|] eqn:E; cbn [option_map] in H; [|discriminate]. apply sbind_ok in H as (w & D & H).
    destruct es; [|discriminate]. injection H as <-. destruct Sd as [_ Sd]. cbn [typed].
    assert (T : typed t w).
    { assert (St : sound_ty t).
      { clear - E Sd. revert i E. induction ps as [|p ps IH]; intros [|i] E; cbn in E; try discriminate; [injection E as ->; apply Sd|exact (IH (proj2 Sd) i E)]. }
      rewrite Forall_forall in IH. pose proof (nth_error_In _ _ E) as E'. exact (IH _ E' St hr d w D). }
    clear - E T. revert i E. induction ps as [|p ps IH]; intros [|i] E; cbn in E; try discriminate; [injection E as ->; exact T|now apply IH].
  - destruct d; cbn [de_net] in H; try discriminate. destruct (net_parse s) as [n| | |] eqn:E; try discriminate. injection H as <-. now apply net_parse_any with s.
  - discriminate.
Qed.
