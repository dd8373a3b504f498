(** Proofs about the texts that are read. *)
From Coq Require Import Ascii String.
From Verif Require Import Base BaseFacts M_Util S_Wire M_Prefix S_Prefix F_Prefix M_Nlri S_Nlri M_Vpls M_Attr M_Text S_Text F_Text F_Text2 S_Parse.
Ltac Zify.zify_post_hook ::= idtac.

Lemma group_iff s g : group_text s g <-> group s g.
Proof.
  unfold group_text, group. split; [tauto|]. intros (H & L). split; [exact H|split; [exact L|]]. destruct H as (ds & F & _ & ->).
  assert (E : length ds = length s) by (clear - F; induction F; cbn [length]; congruence).
  assert (D : Forall (fun d => d < 16) ds) by (clear - F; induction F as [|? ? ? ? X]; constructor; [apply X|assumption]).
  rewrite <- E in L. clear - L D. unfold digits_value.
  destruct ds as [|a [|b [|c [|d [|? ?]]]]]; cbn [length] in L; try lia; cbn [fold_left]; repeat match goal with H : Forall _ (_ :: _) |- _ => inversion H; clear H; subst end; lia.
Qed.
Lemma groups_iff l gs : Forall2 group_text l gs <-> Forall2 group l gs.
Proof. split; induction 1; constructor; auto; now apply group_iff. Qed.
Lemma group_colon s g : group s g -> ~ In 58 s.
Proof. intros (H & _) I. apply numeral16_chars in H. rewrite Forall_forall in H. apply H in I. lia. Qed.
Lemma ipv4_colon s a : ipv4_text s a -> ~ In 58 s.
Proof.
  intros (s0 & s1 & s2 & s3 & b0 & b1 & b2 & b3 & -> & C0 & C1 & C2 & C3 & _) I.
  assert (X : forall s v, canonical 10 s v -> ~ In 58 s).
  { intros s v (H & _) J. apply numeral10_chars in H. rewrite Forall_forall in H. apply H in J. lia. }
  apply in_app_iff in I as [I|[I|I]]; [exact (X _ _ C0 I)|discriminate|]. apply in_app_iff in I as [I|[I|I]]; [exact (X _ _ C1 I)|discriminate|].
  apply in_app_iff in I as [I|[I|I]]; [exact (X _ _ C2 I)|discriminate|exact (X _ _ C3 I)].
Qed.
Lemma parts_joined s l : parts (eq 58) s l <-> l <> [] /\ Forall (fun p => ~ In 58 p) l /\ s = joined 58 l.
Proof.
  assert (W : forall p, Forall (fun c => 58 <> c) p <-> ~ In 58 p).
  { intros p. rewrite Forall_forall. split; [intros H I; now apply (H 58)|intros H x I E; subst x; contradiction]. }
  split.
  - induction 1 as [s F|p c s ps F E H (NE & FA & ->)].
    + split; [discriminate|]. split; [constructor; [now apply W|constructor]|reflexivity].
    + subst c. split; [discriminate|]. split; [constructor; [now apply W|exact FA]|]. destruct ps; [contradiction|reflexivity].
  - intros (NE & FA & ->). induction FA as [|p l H FA IH]; [contradiction|]. destruct l as [|q l]; [constructor; now apply W|].
    cbn [joined]. constructor; [now apply W|reflexivity|]. apply IH. discriminate.
Qed.
Lemma groups_nocolon l gs : Forall2 group l gs -> Forall (fun p => ~ In 58 p) l.
Proof. induction 1; constructor; [eapply group_colon; eassumption|assumption]. Qed.
(** [gtext 0] is what the specification calls groups *)
Lemma groups_text s gs : some_groups groups s gs <-> exists l, Forall2 group_text l gs /\ s = gtext 0 l.
Proof.
  split.
  - intros [[-> ->]|(ps & P & F)]; [exists []; split; [constructor|reflexivity]|]. exists ps. split; [now apply groups_iff|]. now apply parts_joined in P.
  - intros (l & F & ->). apply groups_iff in F. destruct l as [|p l]; [inversion F; now left|]. right. exists (p :: l). split; [|exact F]. apply parts_joined.
    split; [discriminate|]. split; [eapply groups_nocolon; eassumption|reflexivity].
Qed.
Lemma groups4_text s gs : groups4 s gs <-> exists l hs q a, Forall2 group_text l hs /\ ipv4_text q a /\ gs = hs ++ [N.shiftr a 16; N.land a 0xffff] /\ s = gtext 0 (l ++ [q]).
Proof.
  assert (V : forall a, [N.shiftr a 16; N.land a 0xffff] = [a / 65536; a mod 65536]).
  { intros a. f_equal; [now rewrite N.shiftr_div_pow2|]. f_equal. change 0xffff with (N.ones 16). now rewrite N.land_ones. }
  split.
  - intros (ps & hs & q & a & P & F & Q & ->). apply parts_joined in P as (_ & _ & ->). exists ps, hs, q, a. rewrite V. repeat split; auto. now apply groups_iff.
  - intros (l & hs & q & a & F & Q & -> & ->). apply groups_iff in F. exists l, hs, q, a. rewrite V. repeat split; auto. apply parts_joined. split; [now destruct l|]. split; [|reflexivity].
    apply Forall_app. split; [eapply groups_nocolon; eassumption|]. constructor; [eapply ipv4_colon; eassumption|constructor].
Qed.

(** ** Reading groups *)
Lemma sep_inv {A} i (p : parser A) s a r : read_separator 58 i p s = Some (a, r) -> exists t, s = (match i with O => [] | S _ => [58] end) ++ t /\ p t = Some (a, r).
Proof.
  destruct i; cbn [read_separator]; intros H; [now exists s|]. destruct s as [|c s]; cbn [read_char] in H; [discriminate H|]. revert H. destruct (N.eqb_spec c 58) as [->|]; [|discriminate]. intros H. now exists s.
Qed.
Lemma read_groups_inv left : forall i s gs v4 rest, read_groups left i s = (gs, v4, rest) -> (length gs <= left)%nat /\ exists l hs, Forall2 group_text l hs /\
  ((v4 = false /\ gs = hs /\ s = gtext i l ++ rest) \/
   (v4 = true /\ exists q a, ipv4_text q a /\ gs = hs ++ [N.shiftr a 16; N.land a 0xffff] /\ s = gtext i (l ++ [q]) ++ rest)).
Proof.
  induction left as [|left IH]; intros i s gs v4 rest E; cbn [read_groups] in E.
  { injection E as <- <- <-. split; [reflexivity|]. exists [], []. split; [constructor|]. left. now destruct i. }
  destruct (match left with O => None | S _ => read_separator 58 i read_ipv4 s end) as [[a r]|] eqn:V.
  { destruct left as [|left]; [discriminate|]. injection E as <- <- <-. split; [cbn [length]; lia|]. exists [], []. split; [constructor|]. right. split; [reflexivity|].
    apply sep_inv in V as (t & -> & V). apply read_ipv4_iff in V as (q & -> & Q & _). exists q, a. split; [exact Q|]. split; [reflexivity|]. cbn [app]. rewrite gtext_cons.
    rewrite <- !app_assoc. reflexivity. }
  clear V. destruct (read_separator 58 i (read_number 16 16 4 true) s) as [[g r]|] eqn:G.
  - destruct (read_groups left (S i) r) as [[gs' v'] r'] eqn:R. injection E as <- <- <-. apply IH in R as (L & l & hs & F & X). split; [cbn [length]; lia|].
    apply sep_inv in G as (t & -> & G). apply read_number_iff in G; [|discriminate]. destruct G as (s' & -> & Nu & _ & Ls & B & _).
    exists (s' :: l), (g :: hs). split; [constructor; [split; [exact Nu|split; [exact Ls|exact B]]|exact F]|].
    destruct X as [(-> & -> & ->)|(-> & q & a & Q & -> & ->)]; [left|right].
    + split; [reflexivity|]. split; [reflexivity|]. now rewrite gtext_cons, <- !app_assoc.
    + split; [reflexivity|]. exists q, a. split; [exact Q|]. split; [reflexivity|]. cbn [app]. now rewrite gtext_cons, <- !app_assoc.
  - injection E as <- <- <-. split; [cbn [length]; lia|]. exists [], []. split; [constructor|]. left. now destruct i.
Qed.
Lemma read_groups_v4 (l : list text) hs (q : text) a : Forall2 group_text l hs -> ipv4_text q a -> forall left i, (length l + 2 <= left)%nat ->
  read_groups left i (gtext i (l ++ [q])) = (hs ++ [N.shiftr a 16; N.land a 0xffff], true, []).
Proof.
  intros F Q. induction F as [|s g l hs G F IH]; intros left i L; cbn [length] in L; (destruct left as [|left]; [lia|]); cbn [read_groups app].
  - assert (X : read_separator 58 i read_ipv4 (gtext i [q]) = Some (a, [])).
    { assert (R : read_ipv4 (q ++ []) = Some (a, [])) by (apply read_ipv4_iff; exists q; split; [reflexivity|split; [exact Q|exact I]]). rewrite gtext_cons. destruct i; exact R. }
    rewrite X. destruct left; [lia|]. reflexivity.
  - assert (S1 : follows (gtext (S i) (l ++ [q]))) by (destruct l; reflexivity).
    assert (X : forall A (p : parser A), read_separator 58 i p (gtext i (s :: l ++ [q])) = p (s ++ gtext (S i) (l ++ [q]))) by (intros A p; rewrite gtext_cons; destruct i; reflexivity).
    rewrite !X, read_ipv4_none; [|eapply numeral_hexc; apply G|exact S1]. rewrite (read_group s g) by assumption. rewrite IH by lia. now destruct left.
Qed.
Lemma ip6_value gs : ip6_new gs = digits_value 65536 gs. Proof. reflexivity. Qed.
Lemma F2_length {A B} (R : A -> B -> Prop) l m : Forall2 R l m -> length l = length m.
Proof. induction 1; cbn [length]; congruence. Qed.

Lemma parse_ipv6_iff s a : parse_ipv6 s = Ok a <-> ipv6_text s a.
Proof.
  unfold parse_ipv6, parse_with, ipv6_text, ipv6_groups. split.
  - unfold read_ipv6. destruct (read_groups 8 0 s) as [[h v] s1] eqn:R. apply read_groups_inv in R as (L & l & hs & F & X).
    destruct (Nat.eqb_spec (length h) 8) as [E|NE].
    + destruct s1; [|intros K; discriminate K]. intros E1. injection E1 as <-. rewrite ip6_value. exists h. split; [left; split; [|exact E]|reflexivity].
      destruct X as [(_ & -> & ->)|(_ & q & b & Q & -> & ->)]; rewrite app_nil_r.
      * left. assert (Y : some_groups groups (gtext 0 l) hs) by (apply groups_text; eauto). destruct Y as [[_ ->]|Y]; [discriminate|exact Y].
      * right. apply groups4_text. eauto 10.
    + destruct v; [intros K; discriminate K|]. destruct X as [(_ & -> & ->)|(Y & _)]; [|discriminate].
      destruct s1 as [|c1 s1]; [intros K; discriminate K|]. cbn [read_char]. destruct (N.eqb_spec c1 58) as [->|]; [|intros K; discriminate K].
      destruct s1 as [|c2 s1]; [intros K; discriminate K|]. cbn [read_char]. destruct (N.eqb_spec c2 58) as [->|]; [|intros K; discriminate K].
      destruct (read_groups (8 - (length hs + 1)) 0 s1) as [[t v2] s4] eqn:R2. destruct s4; [|intros K; discriminate K]. intros E1. apply (f_equal (fun r => match r with Ok x => x | _ => 0 end)) in E1. cbv beta iota in E1. subst a. rewrite ip6_value. eexists. split; [right|reflexivity].
      apply read_groups_inv in R2 as (L2 & l2 & ts & F2 & X). rewrite !app_nil_r in X.
      exists (gtext 0 l), hs, s1, t, (7 - length t - length hs)%nat. split; [reflexivity|]. split; [apply groups_text; eauto|]. split.
      { destruct X as [(_ & -> & ->)|(_ & q & b & Q & -> & ->)]; [left; apply groups_text; eauto|right; rewrite app_nil_r; apply groups4_text; eauto 10]. }
      replace (8 - length t - length hs)%nat with (S (7 - length t - length hs)) by lia. split; [reflexivity|]. rewrite !app_length, repeat_length. lia.
  - intros (gs & [(G & L)|(h & hs & t & ts & z & -> & G & T & -> & L)] & ->); rewrite <- ip6_value.
    + destruct G as [G|G].
      * assert (Y : some_groups groups s gs) by now right. apply groups_text in Y as (l & F & ->). unfold read_ipv6. rewrite <- (app_nil_r (gtext 0 l)).
        assert (LL := F2_length _ _ _ F). rewrite (read_groups_ok l gs F); [|lia|exact I|lia]. rewrite L. reflexivity.
      * apply groups4_text in G as (l & hs & q & b & F & Q & -> & ->). rewrite app_length in L. cbn [length] in L. assert (LL := F2_length _ _ _ F).
        unfold read_ipv6. rewrite (read_groups_v4 l hs q b F Q) by lia. rewrite app_length. cbn [length]. rewrite L. reflexivity.
    + rewrite !app_length, repeat_length in L. apply groups_text in G as (l & F & ->). assert (LL := F2_length _ _ _ F).
      unfold read_ipv6. rewrite (read_groups_ok l hs F); [|lia|reflexivity|intros; right; eauto].
      destruct (Nat.eqb_spec (length hs) 8); [lia|]. cbn [read_char N.eqb Pos.eqb].
      replace (8 - length ts - length hs)%nat with (S z) by lia.
      assert (R : exists v, read_groups (8 - (length hs + 1)) 0 t = (ts, v, [])).
      { destruct T as [T|T].
        - apply groups_text in T as (l2 & F2 & ->). assert (L2 := F2_length _ _ _ F2). exists false. rewrite <- (app_nil_r (gtext 0 l2)). apply read_groups_ok; [exact F2|lia|exact I|intros; now left].
        - apply groups4_text in T as (l2 & h2 & q & b & F2 & Q & -> & ->). assert (L2 := F2_length _ _ _ F2). rewrite app_length in L. cbn [length] in L. exists true. apply read_groups_v4; [exact F2|exact Q|lia]. }
      destruct R as (v & ->). replace (8 - length ts - length hs)%nat with (S z) by lia. reflexivity.
Qed.

(** ** Prefixes *)
Lemma mac_parse_iff s m : mac_parse s = Ok m <-> mac_digits_text s m.
Proof.
  unfold mac_digits_text. destruct (hex_digits_total s) as (ds & H). rewrite (mac_accepts_l s ds H). split.
  - destruct ds as [|d ds]; cbn [length Nat.eqb]; [discriminate|]. intros E. injection E as <-. exists (d :: ds). split; [exact H|]. split; [discriminate|reflexivity].
  - intros (ds' & H' & NE & ->). rewrite (hex_digits_fun _ _ H' _ H) in *. destruct ds; [contradiction|reflexivity].
Qed.
Lemma prefix_iff {A} (f : list N -> res A) (R : list N -> A -> Prop) host s a len : (forall s a, f s = Ok a <-> R s a) -> prefix_parse f host s = Ok (a, len) <-> prefix_text R host s a len.
Proof.
  intros H. unfold prefix_parse, prefix_text. cbv zeta. destruct (split_on 47 s) as [|h ps] eqn:E; [now apply split_by_nonempty in E|].
  assert (U : forall h' ps', parts (eq 47) s (h' :: ps') <-> h' = h /\ ps' = ps).
  { intros h' ps'. rewrite parts_split_on, E. split; [intros X; injection X as -> ->; auto|intros (-> & ->); reflexivity]. }
  destruct ps as [|l ps]; cbn [length Nat.ltb Nat.leb idx nth_error].
  - rewrite bind_ok. split.
    + intros X. apply bind_Ok_inv in X as (b & B & X). injection X as <- <-. exists h, []. split; [now apply U|]. split; [now apply H|reflexivity].
    + intros (h' & ps' & P & X & Y). apply U in P as (-> & ->). subst len. apply H in X. rewrite X. reflexivity.
  - rewrite !bind_ok. split.
    + intros X. apply bind_Ok_inv in X as (b & B & X). cbv beta in X. rewrite bind_ok in X. assert (b = a) by congruence. assert (X' : unwrap_or (parse_uint 8 l) host = len) by congruence. clear X. subst b len.
      exists h, (l :: ps). split; [now apply U|]. split; [now apply H|].
      unfold unwrap_or. destruct (parse_uint_res 8 l) as [[v X]|X]; rewrite X; [left; now apply parse_uint_iff|right]. split; [now apply parse_uint_err|reflexivity].
    + intros (h' & ps' & P & X & Y). apply U in P as (-> & ->). apply H in X. rewrite X, !bind_ok. unfold unwrap_or. destruct Y as [Y|(Y & ->)].
      * apply parse_uint_iff in Y. now rewrite Y.
      * apply parse_uint_err in Y. now rewrite Y.
Qed.
Lemma v4_parse_iff' s p : v4_parse s = Ok p <-> prefix_text ipv4_text 32 s (v4_addr p) (v4_len p).
Proof.
  rewrite <- (prefix_iff parse_ipv4 ipv4_text) by apply parse_ipv4_iff. unfold v4_parse. destruct (prefix_parse parse_ipv4 32 s) as [[a l]| | |]; cbn [bind]; split; try discriminate.
  - intros E. injection E as <-. reflexivity.
  - intros E. destruct p. cbn in E. injection E as -> ->. reflexivity.
Qed.
Lemma v6_parse_iff s p : v6_parse s = Ok p <-> prefix_text ipv6_text 128 s (v6_addr p) (v6_len p).
Proof.
  rewrite <- (prefix_iff parse_ipv6 ipv6_text) by apply parse_ipv6_iff. unfold v6_parse. destruct (prefix_parse parse_ipv6 128 s) as [[a l]| | |]; cbn [bind]; split; try discriminate.
  - intros E. injection E as <-. reflexivity.
  - intros E. destruct p. cbn in E. injection E as -> ->. reflexivity.
Qed.
Lemma macp_parse_iff s p : macp_parse s = Ok p <-> prefix_text mac_digits_text 48 s (mc_addr p) (mc_len p).
Proof.
  rewrite <- (prefix_iff mac_parse mac_digits_text) by apply mac_parse_iff. unfold macp_parse. destruct (prefix_parse mac_parse 48 s) as [[a l]| | |]; cbn [bind]; split; try discriminate.
  - intros E. injection E as <-. reflexivity.
  - intros E. destruct p. cbn in E. injection E as -> ->. reflexivity.
Qed.
(** a text is not both *)
Lemma v4_not_v6 s a b : ipv4_text s a -> ~ ipv6_text s b.
Proof.
  intros V X. assert (NC := ipv4_colon s a V). apply parse_ipv6_iff in X. apply parse_ipv4_iff in V. revert X. unfold parse_ipv6, parse_with.
  intros X. destruct (read_ipv6 s) as [[c r]|] eqn:E; [|discriminate]. destruct r; [|discriminate]. unfold read_ipv6 in E.
  destruct (read_groups 8 0 s) as [[h v] s1] eqn:R. apply read_groups_inv in R as (L & l & hs & F & Y).
  destruct (Nat.eqb_spec (length h) 8) as [E8|_].
  - assert (C : forall l' : list text, (2 <= length l')%nat -> s = gtext 0 l' ++ s1 -> False).
    { intros l' LL ->. apply NC. destruct l' as [|x [|y l']]; cbn [length] in LL; try lia. rewrite gtext_cons. cbn [app]. rewrite !in_app_iff. left. right. left. reflexivity. }
    assert (LF := F2_length _ _ _ F). destruct Y as [(_ & -> & Y)|(_ & q & d & _ & -> & Y)].
    + apply (C l); [lia|exact Y].
    + apply (C (l ++ [q])); [|exact Y]. rewrite app_length in *. cbn [length] in *. lia.
  - destruct v; [discriminate|]. destruct s1 as [|c1 s1]; [discriminate|]. cbn [read_char] in E. destruct (N.eqb_spec c1 58) as [->|]; [|discriminate].
    apply NC. destruct Y as [(_ & _ & ->)|(Y & _)]; [|discriminate]. apply in_app_iff. right. now left.
Qed.
Lemma v4_not_v6_prefix s a l b m : prefix_text ipv4_text 32 s a l -> ~ prefix_text ipv6_text 128 s b m.
Proof.
  intros (h & ps & P & X & _) (h' & ps' & P' & X' & _). apply parts_split_on in P. apply parts_split_on in P'. rewrite <- P in P'. injection P' as -> ->. eapply v4_not_v6; eassumption.
Qed.
Lemma prefix_res {A} (f : list N -> res A) host s : (forall s, answers (f s)) -> answers (prefix_parse f host s).
Proof.
  intros H. unfold prefix_parse. cbv zeta. destruct (split_on 47 s) as [|h ps] eqn:E; [now apply split_by_nonempty in E|].
  destruct ps; cbn [length Nat.ltb Nat.leb idx nth_error]; rewrite !bind_ok; destruct (H h) as [[a X]|X]; rewrite X; cbn [bind]; [left; eauto|right; reflexivity|left; eauto|right; reflexivity].
Qed.
Lemma with_res {A B} (x : res A) (f : A -> B) : answers x -> answers (a <- x ;; Ok (f a)).
Proof. intros [[a ->]| ->]; [left; eexists; reflexivity|now right]. Qed.
Lemma ipv4_res s : answers (parse_ipv4 s).
Proof. unfold parse_ipv4, parse_with. destruct (Nat.ltb 15 _); [now right|]. destruct (read_ipv4 s) as [[a [|? ?]]|]; [left; eauto|now right|now right]. Qed.
Lemma ipv6_res s : answers (parse_ipv6 s).
Proof. unfold parse_ipv6, parse_with. destruct (read_ipv6 s) as [[a [|? ?]]|]; [left; eauto|now right|now right]. Qed.
Lemma mac_res s : answers (mac_parse s).
Proof. unfold mac_parse. destruct (mac_digits s 0 0) as [v n]. destruct (Nat.ltb n 1); [now right|left; eauto]. Qed.
Lemma v4_res s : answers (v4_parse s).
Proof. unfold v4_parse. destruct (prefix_res parse_ipv4 32 s ipv4_res) as [[[a l] X]|X]; rewrite X; [left; eexists; reflexivity|now right]. Qed.
Lemma v6_res s : answers (v6_parse s).
Proof. unfold v6_parse. destruct (prefix_res parse_ipv6 128 s ipv6_res) as [[[a l] X]|X]; rewrite X; [left; eexists; reflexivity|now right]. Qed.
Lemma macp_res s : answers (macp_parse s).
Proof. unfold macp_parse. destruct (prefix_res mac_parse 48 s mac_res) as [[[a l] X]|X]; rewrite X; [left; eexists; reflexivity|now right]. Qed.
Lemma net_res s : answers (net_parse s).
Proof.
  unfold net_parse. destruct (v4_res s) as [[a X]|X]; rewrite X; [left; eauto|]. destruct (v6_res s) as [[b Y]|Y]; rewrite Y; [left; eauto|].
  destruct (macp_res s) as [[c Z]|Z]; rewrite Z; [left; eexists; reflexivity|now right].
Qed.
Lemma net_parse_iff s n : net_parse s = Ok n <-> net_text s n.
Proof.
  unfold net_parse. assert (N4 : (forall p, v4_parse s <> Ok p) <-> forall a l, ~ prefix_text ipv4_text 32 s a l).
  { split; [intros H a l X; apply (H (mkV4 a l)); now apply v4_parse_iff'|intros H p X; apply v4_parse_iff' in X; eapply H; eassumption]. }
  assert (N6 : (forall p, v6_parse s <> Ok p) <-> forall a l, ~ prefix_text ipv6_text 128 s a l).
  { split; [intros H a l X; apply (H (mkV6 a l)); now apply v6_parse_iff|intros H p X; apply v6_parse_iff in X; eapply H; eassumption]. }
  destruct (v4_res s) as [[p X]|X]; rewrite X.
  { split.
    - intros E. injection E as <-. cbn [net_text]. now apply v4_parse_iff'.
    - destruct n as [q|q|q]; cbn [net_text]; intros Y.
      + apply v4_parse_iff' in Y. congruence.
      + apply v4_parse_iff' in X. now apply v4_not_v6_prefix with (1 := X) in Y.
      + destruct Y as (_ & Y & _). apply v4_parse_iff' in X. now apply Y in X. }
  assert (M4 : forall p, v4_parse s <> Ok p) by congruence. pose proof (proj1 N4 M4) as K4. clear M4 N4. rename K4 into M4.
  destruct (v6_res s) as [[p Y]|Y]; rewrite Y.
  { split.
    - intros E. injection E as <-. cbn [net_text]. now apply v6_parse_iff.
    - destruct n as [q|q|q]; cbn [net_text]; intros Z.
      + now apply M4 in Z.
      + apply v6_parse_iff in Z. congruence.
      + destruct Z as (_ & _ & Z). apply v6_parse_iff in Y. now apply Z in Y. }
  assert (M6 : forall p, v6_parse s <> Ok p) by congruence. pose proof (proj1 N6 M6) as K6. clear M6 N6. rename K6 into M6. split.
  - intros E. apply bind_Ok_inv in E as (p & P & E). injection E as <-. cbn [net_text]. split; [now apply macp_parse_iff|auto].
  - destruct n as [q|q|q]; cbn [net_text]; intros Z; [now apply M4 in Z|now apply M6 in Z|]. destruct Z as (Z & _). apply macp_parse_iff in Z. now rewrite Z.
Qed.

(** ** MDT *)
Lemma two_parts s : (exists x y, split_on 64 s = [x; y] /\ parts (eq 64) s [x; y]) \/ (length (split_on 64 s) <> 2%nat /\ forall x y, ~ parts (eq 64) s [x; y]).
Proof.
  destruct (split_on 64 s) as [|x [|y [|z l]]] eqn:E; try (right; split; [discriminate|]; intros a b P; apply parts_split_on in P; rewrite E in P; discriminate).
  left. exists x, y. split; [reflexivity|]. now apply parts_split_on.
Qed.
Lemma mdt4_iff s m : mdt4_parse s = Ok m <-> at_text (fun t p => prefix_text ipv4_text 32 t (v4_addr p) (v4_len p)) ipv4_text s (mdt4_addr m) (mdt4_group m).
Proof.
  unfold mdt4_parse, at_text. cbv zeta. destruct (two_parts s) as [(x & y & E & P)|(L & NP)].
  - rewrite E. cbn [length Nat.eqb negb idx nth_error]. rewrite bind_ok. split.
    + intros H. apply bind_Ok_inv in H as (a & A & H). rewrite bind_ok in H. apply bind_Ok_inv in H as (g & G & H). injection H as <-. exists x, y. split; [exact P|].
      split; [now apply v4_parse_iff'|now apply parse_ipv4_iff].
    + intros (x' & y' & P' & A & G). apply parts_split_on in P'. rewrite E in P'. injection P' as -> ->. apply v4_parse_iff' in A. apply parse_ipv4_iff in G. rewrite A, !bind_ok, G. destruct m; reflexivity.
  - apply Nat.eqb_neq in L. rewrite L. cbn [negb]. split; [discriminate|]. intros (x & y & P & _). now apply NP in P.
Qed.
Lemma mdt6_iff s m : mdt6_parse s = Ok m <-> at_text (fun t p => prefix_text ipv6_text 128 t (v6_addr p) (v6_len p)) ipv6_text s (mdt6_addr m) (mdt6_group m).
Proof.
  unfold mdt6_parse, at_text. cbv zeta. destruct (two_parts s) as [(x & y & E & P)|(L & NP)].
  - rewrite E. cbn [length Nat.eqb negb idx nth_error]. rewrite bind_ok. split.
    + intros H. apply bind_Ok_inv in H as (a & A & H). rewrite bind_ok in H. apply bind_Ok_inv in H as (g & G & H). injection H as <-. exists x, y. split; [exact P|].
      split; [now apply v6_parse_iff|now apply parse_ipv6_iff].
    + intros (x' & y' & P' & A & G). apply parts_split_on in P'. rewrite E in P'. injection P' as -> ->. apply v6_parse_iff in A. apply parse_ipv6_iff in G. rewrite A, !bind_ok, G. destruct m; reflexivity.
  - apply Nat.eqb_neq in L. rewrite L. cbn [negb]. split; [discriminate|]. intros (x & y & P & _). now apply NP in P.
Qed.
Lemma mdt4_res s : answers (mdt4_parse s).
Proof.
  unfold mdt4_parse. cbv zeta. destruct (two_parts s) as [(x & y & E & _)|(L & _)]; [|apply Nat.eqb_neq in L; rewrite L; now right]. rewrite E. cbn [length Nat.eqb negb idx nth_error]. rewrite bind_ok.
  destruct (v4_res x) as [[a X]|X]; rewrite X; [|now right]. rewrite !bind_ok. destruct (ipv4_res y) as [[g Y]|Y]; rewrite Y; [left; eexists; reflexivity|now right].
Qed.
Lemma mdt6_res s : answers (mdt6_parse s).
Proof.
  unfold mdt6_parse. cbv zeta. destruct (two_parts s) as [(x & y & E & _)|(L & _)]; [|apply Nat.eqb_neq in L; rewrite L; now right]. rewrite E. cbn [length Nat.eqb negb idx nth_error]. rewrite bind_ok.
  destruct (v6_res x) as [[a X]|X]; rewrite X; [|now right]. rewrite !bind_ok. destruct (ipv6_res y) as [[g Y]|Y]; rewrite Y; [left; eexists; reflexivity|now right].
Qed.
(** ** Route distinguishers and communities *)
Lemma uint_res w s : answers (parse_uint w s). Proof. apply parse_uint_res. Qed.
Lemma rd_res s : answers (rd_parse s).
Proof.
  unfold rd_parse. cbv zeta. destruct (split_on 58 s) as [|h [|l ps]] eqn:E; [now apply split_by_nonempty in E| |]; cbn [length Nat.ltb Nat.leb idx nth_error]; rewrite !bind_ok;
  destruct (uint_res 32 h) as [[a X]|X]; rewrite X; cbn [bind]; try (now right); [left; eauto|]. destruct (uint_res 32 l) as [[b Y]|Y]; rewrite Y; cbn [bind]; [left; eauto|now right].
Qed.
Lemma community_res s : answers (community_parse s).
Proof.
  unfold community_parse. destruct (community_name s) as [c|]; [left; eauto|]. cbv zeta.
  destruct (split_on 58 (trim s)) as [|h [|l [|q ps]]] eqn:E; [now apply split_by_nonempty in E| | |]; cbn [length Nat.ltb Nat.leb idx nth_error]; rewrite ?bind_ok; [apply uint_res| |apply uint_res].
  destruct (uint_res 16 h) as [[a X]|X]; rewrite X; cbn [bind]; [|now right]. destruct (uint_res 16 l) as [[b Y]|Y]; rewrite Y; cbn [bind]; [left; eauto|now right].
Qed.
Lemma all_answers s : answers (v4_parse s) /\ answers (v6_parse s) /\ answers (macp_parse s) /\ answers (mac_parse s) /\ answers (net_parse s) /\
  answers (mdt4_parse s) /\ answers (mdt6_parse s) /\ answers (rd_parse s) /\ answers (community_parse s).
Proof. repeat split; [apply v4_res|apply v6_res|apply macp_res|apply mac_res|apply net_res|apply mdt4_res|apply mdt6_res|apply rd_res|apply community_res]. Qed.
