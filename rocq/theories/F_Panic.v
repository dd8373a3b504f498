(** Proofs of exactly which octets make the NLRI decoders panic (C102). *)
From Verif Require Import Base BaseFacts M_Util S_Wire F_Util M_Prefix S_Prefix M_Nlri S_Nlri F_Nlri F_Nlri2 M_Session M_Vpls F_Vpls M_Mvpn S_Mvpn F_Mvpn M_Evpn S_Evpn F_Evpn
  M_Flowspec S_Flowspec F_Flowspec M_Cap M_Addrs S_Addrs M_Attr S_Attr S_Attr3 F_Lay F_Attr4 S_Exact F_Exact F_Exact2 F_Exact3 F_Exact4 S_Panic.
Ltac Zify.zify_post_hook ::= idtac.

Lemma bind_Panic {A B} (e : res A) (f : A -> res B) : (x <- e ;; f x) = Panic <-> e = Panic \/ exists a, e = Ok a /\ f a = Panic.
Proof.
  destruct e as [a| | |]; cbn; split; intros H; try discriminate; auto.
  - right. eauto.
  - destruct H as [H|(x & E & H)]; [discriminate|]. now injection E as ->.
  - destruct H as [H|(x & E & H)]; discriminate.
  - destruct H as [H|(x & E & H)]; discriminate.
Qed.
Lemma bind_Panic_pure {A B} (e : res A) (f : A -> B) : (x <- e ;; Ok (f x)) = Panic <-> e = Panic.
Proof. destruct e; cbn; split; congruence. Qed.
Lemma idx_Panic {A} (l : list A) i : idx l i = Panic <-> (length l <= i)%nat.
Proof. unfold idx. rewrite <- nth_error_None. destruct (nth_error l i); split; congruence. Qed.
Lemma usub_Panic oc bits used : usub oc 8 bits used = Panic <-> oc = true /\ bits < used.
Proof. unfold usub. destruct (N.leb_spec used bits); destruct oc; split; try discriminate; auto; intros [X Y]; try discriminate; lia. Qed.

Lemma app_same_len {A} : forall (a a' b b' : list A), a ++ b = a' ++ b' -> length a = length a' -> a = a' /\ b = b'.
Proof. induction a as [|x a IH]; intros [|y a'] b b' E L; try discriminate L; [now split|]. cbn in E, L. injection E as -> E. injection L as L. destruct (IH _ _ _ E L) as [-> ->]. now split. Qed.

(** ** Lists *)
Definition step_crash {T} (step : list N -> res (T * nat)) (C : list N -> Prop) : Prop := forall s, bytes_ok s -> s <> [] -> step s = Panic <-> C s.
Lemma dec_loop_crash {T} (step : list N -> res (T * nat)) P C : step_exact step P -> advances P -> step_crash step C -> forall fuel buf pos, bytes_ok buf ->
  (length buf - pos < fuel)%nat -> dec_loop step fuel buf pos = Panic <-> many_crash P C (skipn pos buf).
Proof.
  intros E A K. induction fuel as [|fuel IH]; intros buf pos B L; [lia|]. cbn [dec_loop]. destruct (Nat.ltb_spec pos (length buf)) as [Hp|Hp].
  - rewrite rfrom_ok, bind_ok by lia. assert (Bs : bytes_ok (skipn pos buf)) by now apply Forall_skipn.
    assert (NE : skipn pos buf <> []) by (intros Z; apply (f_equal (@length N)) in Z; rewrite skipn_length in Z; cbn in Z; lia). split.
    + intros H. apply bind_Panic in H as [H|([x k] & E1 & H)]; [now apply mc_here, K|].
      apply E in E1; [|exact Bs]. pose proof (A _ _ _ E1) as Hk.
      apply bind_Panic in H as [H|([v q] & _ & H)]; [|discriminate]. apply IH in H; [|exact B|lia]. rewrite <- skipn_skipn' in H. eapply mc_next; eassumption.
    + intros H. apply bind_Panic. inversion H as [b _ Hc|b x k _ Hx Hm]; subst; [left; now apply K|right].
      exists (x, k). split; [now apply E|]. pose proof (A _ _ _ Hx) as Hk. apply bind_Panic. left. apply IH; [exact B|lia|]. now rewrite <- skipn_skipn'.
  - rewrite skipn_all2 by exact Hp. split; [discriminate|]. intros H. inversion H; contradiction.
Qed.
Lemma items_crash {T} (step : list N -> res (T * nat)) P C b : step_exact step P -> advances P -> step_crash step C -> bytes_ok b ->
  dec_loop step (S (length b)) b 0 = Panic <-> many_crash P C b.
Proof. intros E A K B. now rewrite (dec_loop_crash step P C E A K) by (auto; lia). Qed.
Lemma pid_loop_crash {T} oc (ex : extractor T) P C : step_exact (decode_bgpitem_from oc ex) P -> advances P -> step_crash (decode_bgpitem_from oc ex) C ->
  (forall s x k, bytes_ok s -> P s x k -> (k <= length s)%nat) -> forall fuel buf pos, bytes_ok buf ->
  (length buf - pos < fuel)%nat -> (pos <= length buf)%nat -> dec_pathid_loop oc ex fuel buf pos = Panic <-> many_pid_crash P C (skipn pos buf).
Proof.
  intros E A K Wi. induction fuel as [|fuel IH]; intros buf pos B L Lp; [lia|]. cbn [dec_pathid_loop]. assert (Ls := skipn_length pos buf).
  assert (Bs : bytes_ok (skipn pos buf)) by now apply Forall_skipn. destruct (Nat.ltb_spec (pos + 4) (length buf)) as [Hp|Hp].
  - rewrite rfrom_ok, bind_ok by lia. destruct (take_be 4 (skipn pos buf) Bs ltac:(lia)) as (i & s & Es & Hi & Br).
    rewrite Es, getn_u32_be, bind_ok by exact Hi. rewrite rfrom_ok, bind_ok by lia.
    assert (Et : skipn (pos + 4) buf = s) by (rewrite <- skipn_skipn', Es; reflexivity). rewrite Et.
    assert (NE : s <> []) by (intros ->; rewrite Es, app_length, length_be_bytes in Ls; cbn in Ls; lia).
    assert (L4 := length_be_bytes 4 i). clear Es Hi. remember (be_bytes 4 i) as w. clear Heqw. split.
    + intros H. apply bind_Panic in H as [H|([x k] & E1 & H)]; [apply mpc_here; auto; now apply K|].
      apply E in E1; [|exact Br]. pose proof (A _ _ _ E1) as Hk. pose proof (Wi _ _ _ Br E1) as Hw.
      assert (Lk : (pos + 4 + k <= length buf)%nat) by (rewrite <- Et, skipn_length in Hw; lia).
      apply bind_Panic in H as [H|([v q] & _ & H)]; [|discriminate]. apply IH in H; [|exact B|lia|exact Lk]. rewrite <- skipn_skipn', Et in H. eapply mpc_next; eassumption.
    + intros H. apply bind_Panic. inversion H as [i' s' Li _ Hc X|i' s' x k Li _ Hx Hm X]; (apply app_same_len in X as [_ ->]; [|congruence]).
      * left. now apply K.
      * right. exists (x, k). split; [now apply E|]. pose proof (A _ _ _ Hx) as Hk. pose proof (Wi _ _ _ Br Hx) as Hw.
        assert (Lk : (pos + 4 + k <= length buf)%nat) by (rewrite <- Et, skipn_length in Hw; lia).
        apply bind_Panic. left. apply IH; [exact B|lia|exact Lk|]. now rewrite <- skipn_skipn', Et.
  - split; [discriminate|]. intros H. exfalso. inversion H as [i s Li Hs _ X|i s x k Li Hs _ _ X]; rewrite <- X, app_length, Li in Ls; (destruct s; [contradiction|cbn in Ls; lia]).
Qed.

(** ** Labels *)
Lemma labels_loop_crash oc : forall fuel left buf p, bytes_ok buf -> left < 256 -> (p <= length buf)%nat -> (length buf - p < fuel)%nat ->
  labels_loop oc fuel left buf p = Panic <-> stack_crash oc left (skipn p buf).
Proof.
  induction fuel as [|fuel IH]; intros left buf p B Hl Hp Hf; [lia|]. destruct (N.eq_0_gt_0_cases left) as [->|H0].
  - cbn [labels_loop]. change (0 <? 0) with false. cbn iota. split; [discriminate|]. intros H. inversion H; lia.
  - destruct (Nat.le_gt_cases (p + 3) (length buf)) as [L3|L3].
    + assert (Bs : bytes_ok (skipn p buf)) by now apply Forall_skipn.
      assert (Es := firstn_skipn p buf). assert (Lp : length (firstn p buf) = p) by (rewrite firstn_length; lia).
      assert (Ls := skipn_length p buf). destruct (skipn p buf) as [|b0 [|b1 [|b2 r]]] eqn:Er; cbn [length] in Ls; try lia.
      assert (Tr : skipn (p + 3) buf = r) by (rewrite <- skipn_skipn', Er; reflexivity).
      inversion Bs as [|? ? B0 Bs1]; subst. inversion Bs1 as [|? ? B1 Bs2]; subst. inversion Bs2 as [|? ? B2 Br]; subst. cbv beta in B0, B1, B2.
      rewrite (labels_loop_step oc fuel left buf p b0 b1 b2 (skipn (p + 3) buf) (firstn p buf)) by (auto; now rewrite <- Es at 1).
      pose proof (entry_ends_dec b0 b1 b2 B2) as D. cbv zeta. split.
      * intros H. apply bind_Panic in H as [H|(l' & U & H)].
        -- apply usub_Panic in H as [-> H]. apply sc_bits; [lia|reflexivity].
        -- apply usub_less in U; [|exact Hl|reflexivity]. destruct (label_ends _) eqn:E1; [discriminate|destruct (negb (N.land b2 1 =? 0)) eqn:E2; [discriminate|]].
           apply bind_Panic in H as [H|([v q] & _ & H)]; [|discriminate]. assert (U1 := proj1 U). apply IH in H; auto; try lia.
           apply (sc_more oc left l'); auto. rewrite D. discriminate.
      * intros H. apply bind_Panic. inversion H as [bits b H1 H2|bits b H1 ->|bits l' c0 c1 c2 r' H1 U EE M]; subst.
        -- cbn [length] in H2. lia.
        -- left. apply usub_Panic. split; [reflexivity|lia].
        -- right. exists l'. split; [now apply usub_less|]. rewrite D in EE. apply not_true_is_false, orb_false_iff in EE as [-> ->].
           apply bind_Panic. left. apply IH; auto; [exact (proj1 U)|lia].
    + split.
      * intros _. apply sc_short; [exact H0|]. rewrite skipn_length. lia.
      * intros _. cbn [labels_loop]. apply N.ltb_lt in H0. rewrite H0. apply bind_Panic.
        destruct (idx buf p) as [x| | |] eqn:E0; [right; exists x; split; [reflexivity|]|unfold idx in E0; destruct (nth_error buf p); discriminate|now left|unfold idx in E0; destruct (nth_error buf p); discriminate].
        apply bind_Panic. destruct (idx buf (p + 1)) as [y| | |] eqn:E1; [right; exists y; split; [reflexivity|]|unfold idx in E1; destruct (nth_error buf (p + 1)); discriminate|now left|unfold idx in E1; destruct (nth_error buf (p + 1)); discriminate].
        apply bind_Panic. left. apply idx_Panic. lia.
Qed.
Lemma labels_panic oc bits b : bits < 256 -> bytes_ok b -> labels_extract oc bits b = Panic <-> stack_crash oc bits b.
Proof. intros Hb B. unfold labels_extract. rewrite labels_loop_crash by (auto; lia). reflexivity. Qed.
Lemma stack_used bits b ls : stack_of true bits b ls -> 24 * N.of_nat (length ls) <= bits.
Proof.
  induction 1 as [b|bits left b0 b1 b2 r H U _|bits left b0 b1 b2 r ls H U _ _ IH]; cbn [length].
  - reflexivity.
  - destruct U as (_ & _ & U). specialize (U eq_refl). clear - U. lia.
  - destruct U as (U1 & U2 & U3). specialize (U3 eq_refl). assert (left + 24 = bits \/ left + 24 < bits + 256 /\ False \/ bits + 256 <= left + 24).
    { destruct (N.lt_ge_cases (left + 24) 256) as [X|X]; [rewrite N.mod_small in U2 by exact X; now left|].
      right. right. rewrite <- U2. replace (left + 24) with (left + 24 - 256 + 1 * 256) by lia. rewrite N.mod_add by discriminate.
      pose proof (N.mod_le (left + 24 - 256) 256 ltac:(discriminate)). lia. }
    assert (left + 24 < 280) by lia. clear - IH U3 H0 H1. lia.
Qed.

(** ** Bit-counted routes *)
Definition ex_crash {T} (ex : extractor T) (C : bit_crash) : Prop := forall oc bits b, bits < 256 -> bytes_ok b -> ex oc bits b = Panic <-> C oc bits b.
Lemma dec4_np b : decode_addrv4_from b <> Panic.
Proof.
  unfold decode_addrv4_from. destruct (Nat.ltb_spec (length b) 4) as [L|L]; [discriminate|].
  destruct b as [|b0 [|b1 [|b2 [|b3 r]]]]; cbn [length] in L; try lia. discriminate.
Qed.
Lemma dec6_np b : bytes_ok b -> decode_addrv6_from b <> Panic.
Proof.
  intros B. destruct (Nat.ltb_spec (length b) 16) as [L|L].
  - unfold decode_addrv6_from. apply Nat.ltb_lt in L. rewrite L. discriminate.
  - destruct (take_be 16 b B L) as (v & r & -> & Hv & _). rewrite decode_addrv6_be by exact Hv. discriminate.
Qed.
Lemma bits_bytes_Panic oc bits : bits < 256 -> bits_bytes oc bits = Panic <-> oc = true /\ 249 <= bits.
Proof.
  intros H. unfold bits_bytes, uadd. change (2 ^ 8) with 256. destruct (N.ltb_spec (bits + 7) 256) as [L|L].
  - split; [discriminate|]. intros [_ X]. lia.
  - destruct oc; cbn; split; try discriminate; auto; [|intros [X _]; discriminate]. intros _. split; [reflexivity|lia].
Qed.
Lemma pfx4_panic : ex_crash v4_from_bits pfx_crash.
Proof.
  intros oc bits b Hb B. unfold v4_from_bits, pfx_crash. rewrite <- (bits_bytes_Panic oc bits Hb). split.
  - intros H. apply bind_Panic in H as [H|(k & E & H)]; [exact H|]. exfalso.
    destruct (32 <? bits) eqn:E1; [discriminate|]. rewrite orb_false_l in H. apply N.ltb_ge in E1. rewrite bits_bytes_ok in E by lia. apply Ok_inj in E. subst k.
    destruct (Nat.ltb_spec (length b) (prefix_octets bits)) as [L|L]; [discriminate|].
    destruct (bits =? 0); [discriminate|]. assert (K : (prefix_octets bits <= 4)%nat) by now apply (octets_le bits 4).
    rewrite fill_zeroed_ok, bind_ok in H by assumption. apply bind_Panic in H as [H|(a & _ & H)]; [now apply dec4_np in H|discriminate].
  - intros ->. reflexivity.
Qed.
Lemma pfx6_panic : ex_crash v6_from_bits pfx_crash.
Proof.
  intros oc bits b Hb B. unfold v6_from_bits, pfx_crash. rewrite <- (bits_bytes_Panic oc bits Hb). split.
  - intros H. apply bind_Panic in H as [H|(k & E & H)]; [exact H|]. exfalso.
    destruct (128 <? bits) eqn:E1; [discriminate|]. rewrite orb_false_l in H. apply N.ltb_ge in E1. rewrite bits_bytes_ok in E by lia. apply Ok_inj in E. subst k.
    destruct (Nat.ltb_spec (length b) (prefix_octets bits)) as [L|L]; [discriminate|].
    destruct (bits =? 0); [discriminate|]. assert (K : (prefix_octets bits <= 16)%nat) by now apply (octets_le bits 16).
    rewrite fill_zeroed_ok, bind_ok in H by assumption. apply bind_Panic in H as [H|(a & _ & H)]; [|discriminate].
    apply dec6_np in H; [exact H|]. apply Forall_app. split; [now apply Forall_firstn|apply bytes_zero].
  - intros ->. reflexivity.
Qed.
Lemma labelled_panic {T} (ex : extractor T) C : ex_crash ex C -> ex_crash (labeled_extract ex) (labelled_crash C).
Proof.
  intros E oc bits b Hb B. unfold labeled_extract, labelled_crash.
  assert (Ca : forall k, cast 8 (N.of_nat (3 * k) * 8) = 24 * N.of_nat k mod 256) by (intros k; unfold cast; change (2 ^ 8) with 256; f_equal; lia).
  split.
  - intros H. apply bind_Panic in H as [H|([ls n] & E1 & H)]; [left; now apply labels_panic in H|right]. apply labels_exact in E1 as [St ->]; auto.
    pose proof (stack_length _ _ _ _ St) as L. rewrite Ca in H. apply bind_Panic in H as [H|(l & U & H)].
    + exfalso. apply usub_Panic in H as [-> H]. apply stack_used in St. assert (M := N.mod_le (24 * N.of_nat (length ls)) 256 ltac:(discriminate)). clear - H St M. lia.
    + apply usub_less in U; [|exact Hb|apply N.mod_lt; discriminate]. rewrite rfrom_ok, bind_ok in H by exact L.
      apply bind_Panic in H as [H|([y k] & _ & H)]; [|discriminate]. exists ls, l. split; [exact St|]. split; [exact U|]. apply E in H; auto; [exact (proj1 U)|now apply Forall_skipn].
  - intros [H|(ls & l & St & U & H)]; apply bind_Panic; [left; now apply labels_panic|right].
    pose proof (stack_length _ _ _ _ St) as L. exists (ls, (3 * length ls)%nat). split; [now apply labels_exact|]. assert (UU := proj1 U).
    apply usub_less in U; [|exact Hb|apply N.mod_lt; discriminate]. rewrite Ca, U, bind_ok, rfrom_ok, bind_ok by exact L. apply bind_Panic. left. apply E; auto. now apply Forall_skipn.
Qed.
Lemma distinguished_panic {T} (ex : extractor T) C : ex_crash ex C -> ex_crash (withrd_extract ex) (distinguished_crash C).
Proof.
  intros E oc bits b Hb B. unfold withrd_extract, distinguished_crash. destruct (Nat.ltb_spec (length b) 8) as [L|L].
  - split; [discriminate|]. intros [X _]. lia.
  - destruct (take_rd b B L) as (rd0 & r0 & -> & W0 & B0). assert (Lr := rd_len rd0).
    rewrite rslice_front, bind_ok by exact Lr. rewrite decode_rd_exact, bind_ok by exact W0. change (cast 8 (N.of_nat 8 * 8)) with 64.
    rewrite (rfrom_peel _ _ 8) by (auto; lia). change (8 - 8)%nat with 0%nat. rewrite rfrom_0.
    assert (Es : skipn 8 (rd_wire rd0 ++ r0) = r0) by (now apply skipn_app_exact). rewrite Es. split.
    + intros H. split; [exact L|]. apply bind_Panic in H as [H|(l & U & H)]; [left; now apply usub_Panic in H|right]. apply usub_less in U; [|exact Hb|reflexivity].
      rewrite bind_ok in H. apply bind_Panic in H as [H|([y k] & _ & H)]; [|discriminate]. exists l. split; [exact U|]. apply E in H; auto. exact (proj1 U).
    + intros (_ & [H|(l & U & H)]); apply bind_Panic; [left; now apply usub_Panic|right]. exists l. split; [now apply usub_less|]. rewrite bind_ok. apply bind_Panic. left.
      apply E; auto. exact (proj1 U).
Qed.
Lemma fill_zeroed_Panic K n b : fill_zeroed K n b = Panic <-> (K < n)%nat \/ (length b < n)%nat.
Proof.
  split.
  - intros H. destruct (Nat.le_gt_cases n K); [|now left]. destruct (Nat.le_gt_cases n (length b)); [|now right]. rewrite fill_zeroed_ok in H by assumption. discriminate.
  - unfold fill_zeroed. destruct (Nat.leb_spec n K) as [L|L]; [|reflexivity]. intros [H|H]; [lia|]. apply bind_Panic. left. unfold rslice.
    replace (Nat.leb n (length b)) with false by (symmetry; now apply Nat.leb_gt). now rewrite ?andb_false_r.
Qed.
Lemma mdt4_panic : ex_crash mdt4_extract mdt4_crash.
Proof.
  intros oc bits b Hb B. unfold mdt4_extract, mdt4_crash. destruct (negb _) eqn:E0.
  - split; [discriminate|]. apply negb_true_iff, andb_false_iff in E0. rewrite !N.leb_gt in E0. lia.
  - apply negb_false_iff, andb_true_iff in E0 as [E0 E1]. apply N.leb_le in E0, E1. destruct (N.eqb_spec bits 32) as [->|Hn].
    + split; [|lia]. intros H. exfalso. change (decode_addrv4_from (repeat 0 4)) with (Ok 0 : res N) in H. rewrite bind_ok in H.
      apply bind_Panic in H as [H|(g & _ & H)]; [now apply dec4_np in H|discriminate].
    + rewrite usub_ok, bind_ok, bits_bytes_ok, bind_ok by lia. assert (O4 := octets_le (bits - 32) 4). change (8 * N.of_nat 4) with 32 in O4. split.
      * intros H. split; [lia|]. apply bind_Panic in H as [H|(bf & F & H)].
        -- apply fill_zeroed_Panic in H as [H|H]; [left|now right]. destruct (N.le_gt_cases (bits - 32) 32) as [X|X]; [apply O4 in X; lia|lia].
        -- exfalso. apply bind_Panic in H as [H|(a & _ & H)]; [now apply dec4_np in H|].
           destruct (Nat.le_gt_cases (prefix_octets (bits - 32)) (length b)) as [L|L];
             [|rewrite (proj2 (fill_zeroed_Panic _ _ _)) in F by (now right); discriminate].
           rewrite rfrom_ok, bind_ok in H by exact L. apply bind_Panic in H as [H|(g & _ & H)]; [now apply dec4_np in H|discriminate].
      * intros (_ & H). apply bind_Panic. left. apply fill_zeroed_Panic. destruct H as [H|H]; [left|now right].
        destruct (Nat.le_gt_cases (prefix_octets (bits - 32)) 4) as [X|X]; [apply O4 in X; lia|exact X].
Qed.
Lemma mdt6_panic : ex_crash mdt6_extract mdt6_crash.
Proof.
  intros oc bits b Hb B. unfold mdt6_extract, mdt6_crash. destruct (negb _) eqn:E0.
  - split; [discriminate|]. apply negb_true_iff, andb_false_iff in E0. rewrite !N.leb_gt in E0. lia.
  - apply negb_false_iff, andb_true_iff in E0 as [E0 E1]. apply N.leb_le in E0, E1. destruct (N.eqb_spec bits 128) as [->|Hn].
    + split; [|lia]. intros H. exfalso. change (decode_addrv6_from (repeat 0 16)) with (Ok 0 : res N) in H. rewrite bind_ok in H.
      apply bind_Panic in H as [H|(g & _ & H)]; [now apply dec6_np in H|discriminate].
    + rewrite usub_ok, bind_ok, bits_bytes_ok, bind_ok by lia. assert (O4 : (prefix_octets (bits - 128) <= 16)%nat) by (apply octets_le; lia). split.
      * intros H. split; [lia|]. apply bind_Panic in H as [H|(bf & F & H)].
        -- apply fill_zeroed_Panic in H as [H|H]; [lia|exact H].
        -- destruct (Nat.le_gt_cases (prefix_octets (bits - 128)) (length b)) as [L|L]; [exfalso|exact L]. rewrite fill_zeroed_ok in F by assumption. apply Ok_inj in F. subst bf.
           apply bind_Panic in H as [H|(a & _ & H)].
           { apply dec6_np in H; [exact H|]. apply Forall_app. split; [now apply Forall_firstn|apply bytes_zero]. }
           rewrite rfrom_ok, bind_ok in H by exact L. apply bind_Panic in H as [H|(g & _ & H)]; [|discriminate]. apply dec6_np in H; [exact H|now apply Forall_skipn].
      * intros (_ & H). apply bind_Panic. left. apply fill_zeroed_Panic. now right.
Qed.
Lemma item_panic {T} oc (ex : extractor T) C : ex_crash ex C -> step_crash (decode_bgpitem_from oc ex) (item_crash oc C).
Proof.
  intros E s B NE. unfold decode_bgpitem_from, item_crash. destruct s as [|bits s]; [contradiction|].
  rewrite idx_0, bind_ok. change (rfrom (bits :: s) 1) with (Ok s : res (list N)). rewrite bind_ok. apply Forall_cons_iff in B as [B1 B2]. split.
  - intros H. apply bind_Panic in H as [H|([y m] & _ & H)]; [|discriminate]. apply E in H; auto. eauto.
  - intros (bits' & s' & X & H). injection X as <- <-. apply bind_Panic. left. now apply E.
Qed.
Lemma family_panic {T} oc (ex : extractor T) P C wr wp p afi sf b : ex_exact ex P -> ex_within P -> ex_crash ex C -> bytes_ok b ->
  dec_fam oc ex wr wp p afi sf b = Panic <-> family_crash oc P C p afi sf b.
Proof.
  intros E W K B. unfold dec_fam, family_crash. assert (U := use_pid_iff p afi sf b). destruct (use_pathid p afi sf b).
  - assert (A : asks_pid p afi sf b) by now apply U. clear U.
    assert (X : decode_pathid_bgpitems_from oc ex b = Panic <-> many_pid_crash (item oc P) (item_crash oc C) b).
    { unfold decode_pathid_bgpitems_from. rewrite (pid_loop_crash oc ex (item oc P) (item_crash oc C)); auto using item_exact, item_advances, item_panic; try lia; [reflexivity|now apply item_within]. }
    split.
    + intros H. apply bind_Panic in H as [H|([v k] & _ & H)]; [|discriminate]. left. split; [exact A|now apply X].
    + intros [(_ & M)|(N & _)]; [|contradiction]. apply bind_Panic. left. now apply X.
  - assert (A : ~ asks_pid p afi sf b) by (intros Z; apply U in Z; discriminate). clear U.
    assert (X : decode_bgpitems_from oc ex b = Panic <-> many_crash (item oc P) (item_crash oc C) b).
    { apply items_crash; auto using item_exact, item_advances, item_panic. }
    split.
    + intros H. apply bind_Panic in H as [H|([v k] & _ & H)]; [|discriminate]. right. split; [exact A|now apply X].
    + intros [(N & _)|(_ & M)]; [contradiction|]. apply bind_Panic. left. now apply X.
Qed.
