(** Proofs about text forms: routes, communities, errors. *)
From Coq Require Import Ascii String ZArith.
From Verif Require Import Base BaseFacts M_Util S_Wire F_Util M_Prefix S_Prefix F_Prefix M_Nlri S_Nlri M_Vpls S_Vpls M_Session M_Evpn S_Evpn M_Mvpn S_Mvpn
  M_Attr S_Attr M_Flowspec M_Text S_Text F_Text F_Text2 M_Text2 S_Text2 F_Text3.
Ltac Zify.zify_post_hook ::= idtac.

(** literals become lists of characters *)
Ltac texts E :=
  repeat match type of E with context [txt ?s] => let v := eval vm_compute in (txt s) in change (txt s) with v in E end;
  cbn [app] in E; repeat (rewrite <- app_assoc in E; cbn [app] in E).
Lemma tl_eq {A} (a b : A) l l' : a :: l = b :: l' -> l = l'.
Proof. congruence. Qed.
Ltac side := first [assumption | apply dec_not; lia | apply hex_not; lia | apply hex2_not; lia | apply hex8_not; lia | apply esi_not; lia | apply ipv4_no58
  | apply labels_not; lia | apply addr_not; [apply ip_chars|lia] | apply addr_not; [apply rd_chars|lia] ].
Ltac cutE E E1 := apply cut in E as [E1 E]; [|side|side].

(** ** EVPN *)
Lemma evpn_inj r r' : ev_any r -> ev_any r' -> evpn_fmt r = evpn_fmt r' -> r = r'.
Proof.
  destruct r as [r|r|r|r|r], r' as [r'|r'|r'|r'|r']; intros H H' E; unfold evpn_fmt in E; try (texts E; discriminate E);
    cbn [ev_any] in H, H'.
  - unfold evpn1_fmt in E. texts E. do 2 apply tl_eq in E. destruct H as (R & S & T), H' as (R' & S' & T').
    apply rd_cut in E as [Er E]; [|assumption|assumption]. apply esi_cut in E as (Et & Ee & E); [|assumption|assumption]. cutE E Eg. apply hex8_inj in Eg. apply labels_inj in E.
    destruct r, r'; cbn in *. now subst.
  - unfold evpn2_fmt in E. texts E. do 2 apply tl_eq in E. destruct H as (R & S & T & M & I), H' as (R' & S' & T' & M' & I').
    apply rd_cut in E as [Er E]; [|assumption|assumption]. apply esi_cut in E as (Et & Ee & E); [|assumption|assumption]. cutE E Eg. apply hex8_inj in Eg. apply tl_eq in E.
    apply mac_cut in E as [Em E]; [|assumption|assumption]. do 2 apply tl_eq in E.
    assert (X : match ev2_ip r with Some a => ip_fmt a | None => [] end = match ev2_ip r' with Some a => ip_fmt a | None => [] end /\ labels_fmt (ev2_labels r) = labels_fmt (ev2_labels r')).
    { apply cut in E; [exact E| |]; [destruct (ev2_ip r)|destruct (ev2_ip r')]; first [side|intros []]. }
    clear E. destruct X as [Ei El]. apply labels_inj in El.
    assert (ev2_ip r = ev2_ip r') as Eip.
    { assert (Ne : forall a, ip_wf a -> ip_fmt a <> []).
      { intros [a|a] W Z; cbn [ip_fmt ip_wf] in *; [apply ipv4_rt in W|apply ipv6_rt in W]; rewrite Z in W; vm_compute in W; discriminate W. }
      destruct (ev2_ip r), (ev2_ip r'); [f_equal; now apply ip_inj| | |reflexivity]; exfalso; [now apply Ne in Ei|symmetry in Ei; now apply Ne in Ei]. }
    destruct r, r'; cbn in *. now subst.
  - unfold evpn3_fmt in E. texts E. do 2 apply tl_eq in E. destruct H as (R & T & I), H' as (R' & T' & I').
    apply rd_cut in E as [Er E]; [|assumption|assumption]. cutE E Eg. apply hex8_inj in Eg. apply ip_inj in E; [|assumption|assumption]. destruct r, r'; cbn in *. now subst.
  - unfold evpn4_fmt in E. texts E. do 2 apply tl_eq in E. destruct H as (R & (T & L & B) & I), H' as (R' & (T' & L' & B') & I').
    apply rd_cut in E as [Er E]; [|assumption|assumption]. cutE E Et. apply dec_inj in Et. cutE E Ee. apply esi_inj in Ee; try assumption. apply ip_inj in E; [|assumption|assumption].
    destruct r, r'; cbn in *. now subst.
  - unfold evpn5_fmt in E. texts E. do 2 apply tl_eq in E. destruct H as (R & S & I & G), H' as (R' & S' & I' & G').
    apply rd_cut in E as [Er E]; [|assumption|assumption]. apply esi_cut in E as (Et & Ee & E); [|assumption|assumption]. cutE E Eg. apply dec_inj in Eg.
    cutE E Ep. apply ip_inj in Ep; [|assumption|assumption]. cutE E El. apply dec_inj in El. apply rcut in E as [Ew E]; [|side|side]. apply ip_inj in Ew; [|assumption|assumption].
    apply labels_inj in E. destruct r, r'; cbn in *. now subst.
Qed.

(** ** MVPN *)
Lemma v4_cut a b (x y : text) : of_mode ModeV4 a -> of_mode ModeV4 b -> ip_fmt a ++ 58 :: x = ip_fmt b ++ 58 :: y -> a = b /\ x = y.
Proof.
  destruct a as [a|a], b as [b|b]; cbn [of_mode ip_fmt]; intros A B E; try contradiction. apply cut in E as [E ->]; [|apply ipv4_no58|apply ipv4_no58].
  split; [f_equal; now apply ipv4_inj|reflexivity].
Qed.
Lemma v4_wf a : of_mode ModeV4 a -> ip_wf a.
Proof. destruct a; cbn; tauto. Qed.
Ltac two E := do 2 apply tl_eq in E.
Lemma mvpn_inj r r' : mv_plain r -> mv_plain r' -> mvpn_fmt r = mvpn_fmt r' -> r = r'.
Proof.
  assert (M3 : forall (a b : mvpn3) x y, mv3_wf ModeV4 a -> mv3_wf ModeV4 b -> mvpn3_fmt a ++ 58 :: x = mvpn3_fmt b ++ 58 :: y -> a = b /\ x = y).
  { intros a b x y (R & A & B & C) (R' & A' & B' & C') E. unfold mvpn3_fmt in E. texts E. apply rd_cut in E as [E1 E]; [|assumption|assumption].
    apply v4_cut in E as [E2 E]; [|assumption|assumption]. apply v4_cut in E as [E3 E]; [|assumption|assumption]. apply v4_cut in E as [E4 E]; [|assumption|assumption].
    destruct a, b; cbn in *. now subst. }
  assert (M67 : forall a b : mvpn67, mv67_wf ModeV4 a -> mv67_wf ModeV4 b -> mvpn67_fmt a = mvpn67_fmt b -> a = b).
  { intros a b (R & A & B & C) (R' & A' & B' & C') E. unfold mvpn67_fmt in E. texts E. apply rd_cut in E as [E1 E]; [|assumption|assumption]. cutE E E2. apply dec_inj in E2.
    apply v4_cut in E as [E3 E]; [|assumption|assumption]. apply ip_inj in E; [|now apply v4_wf|now apply v4_wf]. destruct a, b; cbn in *. now subst. }
  destruct r as [r|r|r|r|r|r|r], r' as [r'|r'|r'|r'|r'|r'|r']; intros H H' E; unfold mvpn_fmt in E; try (texts E; discriminate E); cbn [mv_plain mv_wf] in H, H'; f_equal.
  - texts E. two E. destruct H as [R A], H' as [R' A']. apply rd_cut in E as [E1 E]; [|assumption|assumption]. apply ip_inj in E; [|assumption|assumption]. destruct r, r'; cbn in *. now subst.
  - texts E. two E. apply rd_cut in E as [E1 E]; [|assumption|assumption]. apply dec_inj in E. destruct r, r'; cbn in *. now subst.
  - texts E. two E. apply (f_equal (fun s => s ++ [58])) in E. apply M3 in E as [E _]; assumption.
  - texts E. two E. destruct H as [R A], H' as [R' A']. apply M3 in E as [E1 E]; [|assumption|assumption]. apply ip_inj in E; [|now apply v4_wf|now apply v4_wf]. destruct r, r'; cbn in *. now subst.
  - texts E. two E. destruct H as (R & A & B), H' as (R' & A' & B'). apply rd_cut in E as [E1 E]; [|assumption|assumption]. apply v4_cut in E as [E2 E]; [|assumption|assumption].
    apply ip_inj in E; [|now apply v4_wf|now apply v4_wf]. destruct r, r'; cbn in *. now subst.
  - texts E. two E. now apply M67.
  - texts E. two E. now apply M67.
Qed.

(** *** IPv6 addresses between colons *)
Lemma ip6_groups_new gs : ip6_groups gs = ip6_new gs.
Proof. reflexivity. Qed.
Lemma ip6_new_lt gs : Forall (fun g => g < 65536) gs -> ip6_new gs < 65536 ^ N.of_nat (length gs).
Proof.
  induction gs as [|g gs IH] using rev_ind; intros F; [reflexivity|]. apply Forall_app in F as [F G]. apply Forall_inv in G. cbv beta in G. rewrite ip6_new_app, app_length.
  change (65536 ^ N.of_nat (length [g])) with 65536. replace (ip6_new [g]) with g by reflexivity. rewrite Nat2N.inj_add, N.pow_add_r. change (65536 ^ N.of_nat (length [g])) with 65536.
  specialize (IH F). revert IH. generalize (65536 ^ N.of_nat (length gs)). generalize (ip6_new gs). clear - G. intros. lia.
Qed.
Lemma segments_new gs : length gs = 8%nat -> Forall (fun g => g < 65536) gs -> segments (ip6_new gs) = gs.
Proof.
  intros L F. pose proof (ip6_new_lt gs F) as H. rewrite L in H. change (65536 ^ N.of_nat 8) with (2 ^ 128) in H.
  pose proof (segments_val _ H) as V. pose proof (segments_wf (ip6_new gs)) as W. pose proof (length_segments (ip6_new gs)) as LS. revert V W LS. generalize (segments (ip6_new gs)). intros t V W LS.
  rewrite <- L in LS. clear H L. revert t V W LS. induction gs as [|g gs IH] using rev_ind; intros t V W LS.
  - destruct t; [reflexivity|discriminate LS].
  - apply Forall_app in F as [F G]. apply Forall_inv in G. rewrite app_length in LS. cbn [length] in LS.
    destruct (rev t) as [|x u] eqn:E; [apply (f_equal (@length N)) in E; rewrite rev_length in E; cbn in E; lia|].
    assert (t = rev u ++ [x]) as -> by (rewrite <- (rev_involutive t), E; reflexivity). clear E. apply Forall_app in W as [W X]. apply Forall_inv in X.
    rewrite app_length in LS. cbn [length] in LS. rewrite !ip6_new_app in V. change (65536 ^ N.of_nat (length [x])) with 65536 in V. change (65536 ^ N.of_nat (length [g])) with 65536 in V.
    replace (ip6_new [x]) with x in V by reflexivity. replace (ip6_new [g]) with g in V by reflexivity.
    assert (ip6_new (rev u) = ip6_new gs /\ x = g) as [V1 ->]. { revert V. generalize (ip6_new (rev u)), (ip6_new gs). cbv beta in X, G. clear - X G. intros. lia. }
    f_equal. apply IH; [assumption|assumption|assumption|lia].
Qed.
Lemma fmt_new gs : length gs = 8%nat -> Forall (fun g => g < 65536) gs -> 0 < hd 0 gs ->
  fmt_ipv6 (ip6_new gs) = let '(start, len) := zero_span gs 0 (O, O) (O, O) in
    if Nat.ltb 1 len then fmt_groups (firstn start gs) ++ txt "::" ++ fmt_groups (skipn (start + len) gs) else fmt_groups gs.
Proof.
  intros L F P. unfold fmt_ipv6. rewrite segments_new by assumption.
  assert (X : (N.shiftr (ip6_new gs) 32 =? 65535) = false); [|rewrite X; reflexivity].
  apply N.eqb_neq. rewrite N.shiftr_div_pow2. intros E. destruct gs as [|g gs]; [discriminate L|]. cbn [hd] in P. cbn [length] in L.
  change (g :: gs) with ([g] ++ gs) in E. rewrite ip6_new_app in E. assert (L7 : length gs = 7%nat) by lia. rewrite L7 in E. clear L7. replace (ip6_new [g]) with g in E by reflexivity.
  apply (f_equal (N.mul (2 ^ 32))) in E. pose proof (N.mul_div_le (g * 65536 ^ N.of_nat 7 + ip6_new gs) (2 ^ 32) ltac:(discriminate)) as Q.
  pose proof (N.mod_lt (g * 65536 ^ N.of_nat 7 + ip6_new gs) (2 ^ 32) ltac:(discriminate)) as M. pose proof (N.div_mod (g * 65536 ^ N.of_nat 7 + ip6_new gs) (2 ^ 32) ltac:(discriminate)) as D.
  rewrite E in D. revert D M. generalize ((g * 65536 ^ N.of_nat 7 + ip6_new gs) mod 2 ^ 32). generalize (ip6_new gs). change (65536 ^ N.of_nat 7) with 5192296858534827628530496329220096.
  change (2 ^ 32) with 4294967296. clear - P. intros. nia.
Qed.
Ltac spans := repeat match goal with H : group ?g |- context [?g =? 0] => replace (g =? 0) with false by (symmetry; apply N.eqb_neq; unfold group in H; lia) end.
Lemma mvpn_alike a b x c d (tail : text) : group a -> group b -> group x -> group c -> group d ->
  ip_fmt (IPv6 (ip6_groups [a; 0; 0; 0; 0; 0; b; x])) ++ txt ":" ++ ip_fmt (IPv6 (ip6_groups [c; 0; 0; 0; 0; 0; 0; d])) ++ tail =
  ip_fmt (IPv6 (ip6_groups [a; 0; 0; 0; 0; 0; 0; b])) ++ txt ":" ++ ip_fmt (IPv6 (ip6_groups [x; c; 0; 0; 0; 0; 0; d])) ++ tail.
Proof.
  intros A B X C D. rewrite !ip6_groups_new. cbn [ip_fmt].
  assert (Z : 0 < 65536) by reflexivity. 
  rewrite !fmt_new; try reflexivity; try (cbn [hd]; first [exact (proj1 A)|exact (proj1 C)|exact (proj1 X)]);
    try (repeat (apply Forall_cons; [first [exact Z|exact (proj2 A)|exact (proj2 B)|exact (proj2 C)|exact (proj2 D)|exact (proj2 X)]|]); apply Forall_nil).
  cbn [zero_span]. spans. cbn [N.eqb fst snd Nat.eqb Nat.ltb Nat.leb firstn skipn Nat.add].
  unfold fmt_groups. cbn [map joined]. change (txt "::") with [58; 58]. change (txt ":") with [58]. repeat (rewrite <- !app_assoc; cbn [app]). reflexivity.
Qed.
Lemma groups_differ a b x : group b -> group x -> group a -> ip6_groups [a; 0; 0; 0; 0; 0; b; x] <> ip6_groups [a; 0; 0; 0; 0; 0; 0; b].
Proof. unfold group, ip6_groups. cbn [fold_left]. lia. Qed.

(** ** Labeled, distinguished and numbered items *)
Lemma in_prefix_no (f : text) c : (forall s, f <> c :: s) -> forall t u, f ++ t <> c :: u \/ f = [].
Proof. intros H t u. destruct f as [|d f]; [now right|left]. cbn [app]. intros E. apply (H f). congruence. Qed.
Lemma withrd_inj {T} (f : T -> text) (P : T -> Prop) : (forall x y, P x -> P y -> f x = f y -> x = y) -> (forall x s, P x -> f x <> 60 :: 114 :: s) ->
  forall x y, withrd_wf P x -> withrd_wf P y -> withrd_fmt f x = withrd_fmt f y -> x = y.
Proof.
  intros I Q [x r] [y r'] [R X] [R' Y] E. unfold withrd_fmt in E. cbn [wrd_rd wrd_prefix] in *. destruct (rd_is_zero r) eqn:Z, (rd_is_zero r') eqn:Z'.
  - apply I in E; [|assumption|assumption]. unfold rd_is_zero in Z, Z'. apply andb_true_iff in Z as [Z1 Z2], Z' as [Z3 Z4]. rewrite N.eqb_eq in Z1, Z2, Z3, Z4. destruct r, r'; cbn in *. now subst.
  - exfalso. texts E. now apply Q in E.
  - exfalso. texts E. symmetry in E. now apply Q in E.
  - texts E. do 4 apply tl_eq in E. apply rd_cut_by in E as [-> E]; [|lia|assumption|assumption]. apply tl_eq in E. apply I in E; [|assumption|assumption]. now subst.
Qed.
Lemma labeled_inj {T} (f : T -> text) (P : T -> Prop) : (forall x y, P x -> P y -> f x = f y -> x = y) -> (forall x s, P x -> f x <> 60 :: 108 :: s) ->
  forall x y, P (lab_prefix x) -> P (lab_prefix y) -> labeled_fmt f x = labeled_fmt f y -> x = y.
Proof.
  intros I Q [x l] [y l'] X Y E. unfold labeled_fmt in E. cbn [lab_labels lab_prefix] in *. destruct l as [|a l], l' as [|b l'].
  - apply I in E; [|assumption|assumption]. now subst.
  - exfalso. texts E. now apply Q in E.
  - exfalso. texts E. symmetry in E. now apply Q in E.
  - texts E. do 3 apply tl_eq in E. cutE E E1. apply labels_inj in E1. apply tl_eq in E. apply I in E; [|assumption|assumption]. now rewrite E1, E.
Qed.
Lemma withpid_inj {T} (f : T -> text) (P : T -> Prop) : (forall x y, P x -> P y -> f x = f y -> x = y) -> (forall x s, P x -> f x <> 60 :: 112 :: s) ->
  forall x y, P (pid_nlri x) -> P (pid_nlri y) -> withpid_fmt f x = withpid_fmt f y -> x = y.
Proof.
  intros I Q [i x] [j y] X Y E. unfold withpid_fmt in E. cbn [pid pid_nlri] in *. destruct (N.eqb_spec i 0) as [->|Z], (N.eqb_spec j 0) as [->|Z'].
  - apply I in E; [|assumption|assumption]. now subst.
  - exfalso. texts E. now apply Q in E.
  - exfalso. texts E. symmetry in E. now apply Q in E.
  - texts E. do 8 apply tl_eq in E. cutE E E1. apply dec_inj in E1. apply tl_eq in E. apply I in E; [|assumption|assumption]. now subst.
Qed.
(** the whole stack, for items whose text does not begin with [<] *)
Lemma route_inj {T} (f : T -> text) (P : T -> Prop) : (forall x y, P x -> P y -> f x = f y -> x = y) -> (forall x s, P x -> f x <> 60 :: s) ->
  forall x y : withPathId (labeled (withRd T)), withrd_wf P (lab_prefix (pid_nlri x)) -> withrd_wf P (lab_prefix (pid_nlri y)) ->
  withpid_fmt (labeled_fmt (withrd_fmt f)) x = withpid_fmt (labeled_fmt (withrd_fmt f)) y -> x = y.
Proof.
  intros I Q. apply (withpid_inj (labeled_fmt (withrd_fmt f)) (fun l => withrd_wf P (lab_prefix l))).
  - intros x y X Y. apply (labeled_inj (withrd_fmt f) (withrd_wf P)); [|  |assumption|assumption].
    + apply (withrd_inj f P I). intros z s Z. now apply Q.
    + intros z s [R Z]. unfold withrd_fmt. destruct (rd_is_zero _); [now apply Q|]. change (txt "<rd:") with [60; 114; 100; 58]. cbn [app]. discriminate.
  - intros x s [R Z]. unfold labeled_fmt, withrd_fmt. destruct (lab_labels x).
    + destruct (rd_is_zero _); [now apply Q|]. change (txt "<rd:") with [60; 114; 100; 58]. cbn [app]. discriminate.
    + change (txt "<l:") with [60; 108; 58]. cbn [app]. discriminate.
Qed.
Lemma addr_head (s t : text) u : Forall addr_char s -> s ++ 47 :: t <> 60 :: u.
Proof. intros F E. destruct s as [|c s]; [discriminate E|]. apply Forall_inv in F. cbn [app] in E. assert (c = 60) as -> by congruence. unfold addr_char, hexc in F. clear - F. lia. Qed.
Lemma v4_text_inj x y : v4_any x -> v4_any y -> v4_fmt x = v4_fmt y -> x = y.
Proof. intros X Y E. apply v4_text_rt in X, Y. rewrite E, Y in X. congruence. Qed.
Lemma v6_text_inj x y : v6_any x -> v6_any y -> v6_fmt x = v6_fmt y -> x = y.
Proof. intros X Y E. apply v6_text_rt in X, Y. rewrite E, Y in X. congruence. Qed.
Lemma macp_text_inj x y : macp_any x -> macp_any y -> macp_fmt x = macp_fmt y -> x = y.
Proof. intros X Y E. apply macp_text_rt in X, Y. rewrite E, Y in X. congruence. Qed.
Lemma mdt4_text_inj x y : mdt4_any x -> mdt4_any y -> mdt4_fmt x = mdt4_fmt y -> x = y.
Proof. intros [X1 X2] [Y1 Y2] E. pose proof (mdt4_text_rt _ X1 X2) as A. pose proof (mdt4_text_rt _ Y1 Y2) as B. rewrite E, B in A. congruence. Qed.
Lemma mdt6_text_inj x y : mdt6_any x -> mdt6_any y -> mdt6_fmt x = mdt6_fmt y -> x = y.
Proof. intros [X1 X2] [Y1 Y2] E. pose proof (mdt6_text_rt _ X1 X2) as A. pose proof (mdt6_text_rt _ Y1 Y2) as B. rewrite E, B in A. congruence. Qed.
Lemma v4_route x y : withrd_wf v4_any (lab_prefix (pid_nlri x)) -> withrd_wf v4_any (lab_prefix (pid_nlri y)) ->
  withpid_fmt (labeled_fmt (withrd_fmt v4_fmt)) x = withpid_fmt (labeled_fmt (withrd_fmt v4_fmt)) y -> x = y.
Proof. apply route_inj; [apply v4_text_inj|]. intros p s _. unfold v4_fmt. change (txt "/") with [47]. apply addr_head, ipv4_chars. Qed.
Lemma v6_route x y : withrd_wf v6_any (lab_prefix (pid_nlri x)) -> withrd_wf v6_any (lab_prefix (pid_nlri y)) ->
  withpid_fmt (labeled_fmt (withrd_fmt v6_fmt)) x = withpid_fmt (labeled_fmt (withrd_fmt v6_fmt)) y -> x = y.
Proof. apply route_inj; [apply v6_text_inj|]. intros p s _. unfold v6_fmt. change (txt "/") with [47]. apply addr_head, ipv6_chars. Qed.
Lemma macp_route x y : withrd_wf macp_any (lab_prefix (pid_nlri x)) -> withrd_wf macp_any (lab_prefix (pid_nlri y)) ->
  withpid_fmt (labeled_fmt (withrd_fmt macp_fmt)) x = withpid_fmt (labeled_fmt (withrd_fmt macp_fmt)) y -> x = y.
Proof. apply route_inj; [apply macp_text_inj|]. intros p s [W _]. unfold macp_fmt. change (txt "/") with [47]. apply addr_head. now apply mac_chars. Qed.
Lemma mdt4_route x y : withrd_wf mdt4_any (lab_prefix (pid_nlri x)) -> withrd_wf mdt4_any (lab_prefix (pid_nlri y)) ->
  withpid_fmt (labeled_fmt (withrd_fmt mdt4_fmt)) x = withpid_fmt (labeled_fmt (withrd_fmt mdt4_fmt)) y -> x = y.
Proof.
  apply route_inj; [apply mdt4_text_inj|]. intros p s _. unfold mdt4_fmt, v4_fmt. change (txt "/") with [47]. rewrite <- !app_assoc. cbn [app]. apply addr_head, ipv4_chars.
Qed.
Lemma mdt6_route x y : withrd_wf mdt6_any (lab_prefix (pid_nlri x)) -> withrd_wf mdt6_any (lab_prefix (pid_nlri y)) ->
  withpid_fmt (labeled_fmt (withrd_fmt mdt6_fmt)) x = withpid_fmt (labeled_fmt (withrd_fmt mdt6_fmt)) y -> x = y.
Proof.
  apply route_inj; [apply mdt6_text_inj|]. intros p s _. unfold mdt6_fmt, v6_fmt. change (txt "/") with [47]. rewrite <- !app_assoc. cbn [app]. apply addr_head, ipv6_chars.
Qed.

(** ** VPLS, next hops *)
Lemma l2a_text x y : rd_wf (l2a_rd x) -> rd_wf (l2a_rd y) ->
  l2a_fmt x = l2a_fmt y <-> (l2a_rd x = l2a_rd y /\ l2a_site x = l2a_site y /\ l2a_offset x = l2a_offset y /\ l2a_range x = l2a_range y).
Proof.
  intros X Y. split.
  - intros E. unfold l2a_fmt in E. texts E. apply tl_eq in E. apply rd_cut_by in E as [E1 E]; [|lia|assumption|assumption]. apply tl_eq in E.
    cutE E E2. apply tl_eq in E. cutE E E3. apply tl_eq in E. apply dec_inj in E2, E3, E. auto.
  - intros (A & B & C & D). unfold l2a_fmt. now rewrite A, B, C, D.
Qed.
Lemma l2_cut x y : rd_wf (l2_rd x) -> rd_wf (l2_rd y) -> l2_fmt x = l2_fmt y -> x = y.
Proof.
  intros X Y E. unfold l2_fmt in E. texts E. apply tl_eq in E. apply rd_cut_by in E as [E1 E]; [|lia|assumption|assumption]. do 5 apply tl_eq in E.
  cutE E E2. cutE E E3. apply tl_eq in E. apply dec_inj in E2, E3, E. destruct x, y; cbn in *. now subst.
Qed.
Lemma nh_plain_fmt a : bgpaddr_fmt (nh_plain a) = bgpaddr_fmt a.
Proof. destruct a as [| | |[[|h] [|l]] x|[[|h] [|l]] x| |]; reflexivity. Qed.
Lemma nh_plain_any a : nh_any a -> nh_any (nh_plain a).
Proof. destruct a as [| | |[[|h] [|l]] x|[[|h] [|l]] x| |]; cbn; tauto. Qed.
Definition nh_rdz (a : bgpaddr) : Prop := match a with BAV4RD rd _ | BAV6RD rd _ => rd_is_zero rd = false | _ => True end.
Lemma nh_plain_rdz a : nh_rdz (nh_plain a).
Proof. destruct a as [| | |[[|h] [|l]] x|[[|h] [|l]] x| |]; cbn; try exact I; reflexivity. Qed.
Lemma addr_lt (s : text) u : Forall addr_char s -> s <> 60 :: u.
Proof. intros F ->. apply Forall_inv in F. unfold addr_char, hexc in F. clear - F. lia. Qed.
Lemma rd_not62 r x u : rd_fmt r ++ x <> 62 :: u.
Proof. destruct (rd_head r) as (c & s & -> & H). cbn [app]. intros E. assert (c = 62) as -> by congruence. clear - H. lia. Qed.
Lemma v4_noemp a : Forall addr_char (fmt_ipv4 a). Proof. apply ipv4_chars. Qed.
Lemma addr_115 (s : text) u : Forall addr_char s -> s <> 115 :: u.
Proof. intros F ->. apply Forall_inv in F. unfold addr_char, hexc in F. clear - F. lia. Qed.
Lemma nh_text a b : nh_any a -> nh_any b -> bgpaddr_fmt a = bgpaddr_fmt b <-> nh_plain a = nh_plain b.
Proof.
  intros A B. split; [|intros E; now rewrite <- (nh_plain_fmt a), <- (nh_plain_fmt b), E].
  rewrite <- (nh_plain_fmt a), <- (nh_plain_fmt b). apply nh_plain_any in A, B. pose proof (nh_plain_rdz a) as Za. pose proof (nh_plain_rdz b) as Zb. revert A B Za Zb.
  generalize (nh_plain a) (nh_plain b). clear a b. intros a b A B Za Zb E.
  destruct a as [|a|a|r a|r a|a|a], b as [|b|b|r' b|r' b|b|b]; cbn [nh_any nh_rdz] in *; try contradiction; cbn [bgpaddr_fmt] in E; unfold addr_rd_fmt in E; rewrite ?Za, ?Zb in E; unfold l2_fmt in E;
    try reflexivity.
  1-5: exfalso; texts E; first [symmetry in E; revert E; apply addr_lt; first [apply ipv4_chars|apply ipv6_chars]|apply tl_eq in E; symmetry in E; now apply rd_not62 in E].
  all: try (exfalso; texts E; first [revert E; apply addr_lt; first [apply ipv4_chars|apply ipv6_chars]|symmetry in E; revert E; apply addr_lt; first [apply ipv4_chars|apply ipv6_chars]|apply tl_eq in E; now apply rd_not62 in E]).
  - f_equal. now apply ipv4_inj.
  - now apply ipv4_not_ipv6 in E.
  - symmetry in E. now apply ipv4_not_ipv6 in E.
  - f_equal. now apply ipv6_inj.
  - texts E. apply tl_eq in E. destruct A as [R A], B as [R' B]. apply rd_cut_by in E as [-> E]; [|lia|assumption|assumption]. f_equal. now apply ipv4_inj.
  - texts E. apply tl_eq in E. destruct A as [R A], B as [R' B]. apply rd_cut_by in E as [-> E]; [|lia|assumption|assumption]. now apply ipv4_not_ipv6 in E.
  - texts E. apply tl_eq in E. destruct A as [R A]. apply rd_cut_by in E as [_ E]; [|lia|assumption|assumption]. exfalso. revert E. apply addr_115, ipv4_chars.
  - texts E. apply tl_eq in E. destruct A as [R A], B as [R' B]. apply rd_cut_by in E as [-> E]; [|lia|assumption|assumption]. symmetry in E. now apply ipv4_not_ipv6 in E.
  - texts E. apply tl_eq in E. destruct A as [R A], B as [R' B]. apply rd_cut_by in E as [-> E]; [|lia|assumption|assumption]. f_equal. now apply ipv6_inj.
  - texts E. apply tl_eq in E. destruct A as [R A]. apply rd_cut_by in E as [_ E]; [|lia|assumption|assumption]. exfalso. revert E. apply addr_115, ipv6_chars.
  - texts E. apply tl_eq in E. destruct B as [R B]. apply rd_cut_by in E as [_ E]; [|lia|assumption|assumption]. exfalso. symmetry in E. revert E. apply addr_115, ipv4_chars.
  - texts E. apply tl_eq in E. destruct B as [R B]. apply rd_cut_by in E as [_ E]; [|lia|assumption|assumption]. exfalso. symmetry in E. revert E. apply addr_115, ipv6_chars.
  - f_equal. apply l2_cut; [assumption|assumption|]. exact E.
Qed.
