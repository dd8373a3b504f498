(** Proofs about what octets mean: MDT, VPLS, MCAST-VPN and EVPN routes. *)
From Verif Require Import Base BaseFacts M_Util S_Wire F_Util M_Prefix S_Prefix M_Nlri S_Nlri F_Nlri F_Nlri2 M_Session M_Vpls F_Vpls M_Mvpn S_Mvpn F_Mvpn M_Evpn S_Evpn F_Evpn
  M_Cap M_Addrs S_Addrs M_Attr S_Attr S_Attr3 F_Lay F_Attr4 S_Exact F_Exact.
Ltac Zify.zify_post_hook ::= idtac.

Lemma take1 b : bytes_ok b -> (1 <= length b)%nat -> exists x r, b = [x] ++ r /\ x < 256 /\ bytes_ok r.
Proof. intros B H. destruct b as [|x r]; [cbn in H; lia|]. exists x, r. apply Forall_cons_iff in B as [B1 B2]. auto. Qed.
Lemma take_mode m b : bytes_ok b -> (ipl m <= length b)%nat -> exists x r, b = ip_bytes x ++ r /\ of_mode m x /\ bytes_ok r.
Proof. intros B H. apply take in H as (s & r & -> & Hs). apply bytes_app in B as [B Br]. apply (is_mode m s B) in Hs as (x & Hx & <-). now exists x, r. Qed.
Lemma take_raw k b : bytes_ok b -> (k <= length b)%nat -> exists s r, b = s ++ r /\ length s = k /\ bytes_ok s /\ bytes_ok r.
Proof. intros B H. apply take in H as (s & r & -> & Hs). apply bytes_app in B as [B1 B2]. now exists s, r. Qed.
Lemma rd_len rd : length (rd_wire rd) = 8%nat.
Proof. unfold rd_wire. now rewrite app_length, !length_be_bytes. Qed.
Lemma mode_len m x : of_mode m x -> length (ip_bytes x) = ipl m.
Proof. intros H. now apply of_mode_facts. Qed.
Ltac flen L := repeat rewrite app_length in L; rewrite ?rd_len, ?length_be_bytes in L; cbn [length] in L;
  repeat match goal with W : of_mode ?m ?x |- _ => match type of L with context [length (ip_bytes x)] => rewrite (mode_len m x W) in L end
    | W : length ?x = _ |- _ => match type of L with context [length x] => rewrite W in L end end; cbn [ipl] in L.

Lemma dec4_len b x : decode_addrv4_from b = Ok x -> (4 <= length b)%nat.
Proof. unfold decode_addrv4_from. destruct (Nat.ltb_spec (length b) 4); [discriminate|auto]. Qed.
Lemma dec6_len b x : decode_addrv6_from b = Ok x -> (16 <= length b)%nat.
Proof. unfold decode_addrv6_from. destruct (Nat.ltb_spec (length b) 16); [discriminate|auto]. Qed.

(** ** MDT *)
Lemma mdt4_exact : ex_exact mdt4_extract mdt4.
Proof.
  intros oc bits b [x g] m Hb B. unfold mdt4_extract, mdt4. cbn [mdt4_addr mdt4_group].
  split.
  - intros H. destruct (negb _) eqn:E0; [discriminate|]. apply negb_false_iff, andb_true_iff in E0 as [E0 E1]. apply N.leb_le in E0, E1.
    destruct (N.eqb_spec bits 32) as [->|Hn].
    + cbn [bind] in H. change (decode_addrv4_from (repeat 0 4)) with (Ok 0 : res N) in H. cbn [bind] in H. apply bind_Ok_inv in H as (g' & D & H).
      injection H as <- <- <-. exists 0, 0%nat. 
      assert (L := dec4_len _ _ D).
      destruct (take_be 4 b B L) as (v & r & -> & Hv & Br). rewrite decode_addrv4_be in D by exact Hv. apply Ok_inj in D. subst g'.
      exists r. split; [reflexivity|]. split; [|repeat split; auto]. apply pfx4_exact; auto; try reflexivity. 
    + rewrite usub_ok in H by lia. rewrite bind_ok, bits_bytes_ok, bind_ok in H by lia. apply bind_Ok_inv in H as (bf & F & H).
      apply bind_Ok_inv in H as (a & D & H). apply bind_Ok_inv in H as (s & R & H). apply rfrom_Ok_inv in R as [L ->]. apply bind_Ok_inv in H as (g' & D2 & H).
      injection H as <- <- <-. exists (bits - 32), (prefix_octets (bits - 32)).
      assert (K : (prefix_octets (bits - 32) <= 4)%nat) by (unfold fill_zeroed in F; destruct (Nat.leb_spec (prefix_octets (bits - 32)) 4); [assumption|discriminate]).
      rewrite fill_zeroed_ok in F by assumption. apply Ok_inj in F. 
      assert (Bs : bytes_ok (skipn (prefix_octets (bits - 32)) b)) by now apply Forall_skipn.
      assert (L4 := dec4_len _ _ D2).
      destruct (take_be 4 _ Bs L4) as (v & r & Es & Hv & Br). rewrite Es, decode_addrv4_be in D2 by exact Hv. apply Ok_inj in D2. subst g'. exists r.
      split; [lia|]. split; [|rewrite Es; repeat split; auto]. apply pfx4_exact; [lia|exact B|]. unfold v4_from_bits.
      rewrite bits_bytes_ok, bind_ok by lia. assert (bits - 32 <= 32) by (apply (octets_le (bits - 32) 4); exact K).
      replace (32 <? bits - 32) with false by (symmetry; now apply N.ltb_ge). rewrite orb_false_l. 
      replace (Nat.ltb (length b) (prefix_octets (bits - 32))) with false by (symmetry; now apply Nat.ltb_ge).
      replace (bits - 32 =? 0) with false by (symmetry; apply N.eqb_neq; lia). rewrite fill_zeroed_ok, bind_ok by assumption. rewrite F, D. reflexivity.
  - intros (l & k & r & -> & P & Es & Hg & ->). assert (P' := P). destruct P' as (Hl & -> & Hx & _).
    replace (negb _) with false by (symmetry; apply negb_false_iff, andb_true_iff; split; apply N.leb_le; lia).
    assert (Lk := pfx4_within _ _ _ _ _ P). apply pfx4_exact in P; [|lia|exact B]. unfold v4_from_bits in P. rewrite bits_bytes_ok, bind_ok in P by lia.
    replace (32 <? l) with false in P by (symmetry; now apply N.ltb_ge). rewrite orb_false_l in P.
    replace (Nat.ltb (length b) (prefix_octets l)) with false in P by (symmetry; now apply Nat.ltb_ge).
    destruct (N.eqb_spec l 0) as [->|Hn].
    + change (32 + 0 =? 32) with true. cbn iota. change (prefix_octets 0) with 0%nat in *. cbn [skipn] in Es. subst b.
      change (decode_addrv4_from (repeat 0 4)) with (Ok 0 : res N) in *. cbn [bind] in P |- *. rewrite decode_addrv4_be, bind_ok by exact Hg.
      injection P as <-. reflexivity.
    + replace (32 + l =? 32) with false by (symmetry; apply N.eqb_neq; lia). rewrite usub_ok, bind_ok by lia.
      replace (32 + l - 32) with l by lia. rewrite bits_bytes_ok, bind_ok by lia. apply bind_Ok_inv in P as (bf & -> & P). rewrite bind_ok.
      apply bind_Ok_inv in P as (a & -> & P). rewrite bind_ok, rfrom_ok, bind_ok by exact Lk. rewrite Es, decode_addrv4_be, bind_ok by exact Hg.
      injection P as <-. reflexivity.
Qed.
Lemma mdt6_exact : ex_exact mdt6_extract mdt6.
Proof.
  intros oc bits b [x g] m Hb B. unfold mdt6_extract, mdt6. cbn [mdt6_addr mdt6_group].
  split.
  - intros H. destruct (negb _) eqn:E0; [discriminate|]. apply negb_false_iff, andb_true_iff in E0 as [E0 E1]. apply N.leb_le in E0, E1.
    destruct (N.eqb_spec bits 128) as [->|Hn].
    + cbn [bind] in H. change (decode_addrv6_from (repeat 0 16)) with (Ok 0 : res N) in H. cbn [bind] in H. apply bind_Ok_inv in H as (g' & D & H).
      injection H as <- <- <-. exists 0, 0%nat. 
      assert (L := dec6_len _ _ D).
      destruct (take_be 16 b B L) as (v & r & -> & Hv & Br). rewrite decode_addrv6_be in D by exact Hv. apply Ok_inj in D. subst g'.
      exists r. split; [reflexivity|]. split; [exact E1|]. split; [|repeat split; auto]. apply pfx6_exact; auto; try reflexivity. 
    + rewrite usub_ok in H by lia. rewrite bind_ok, bits_bytes_ok, bind_ok in H by lia. apply bind_Ok_inv in H as (bf & F & H).
      apply bind_Ok_inv in H as (a & D & H). apply bind_Ok_inv in H as (s & R & H). apply rfrom_Ok_inv in R as [L ->]. apply bind_Ok_inv in H as (g' & D2 & H).
      injection H as <- <- <-. exists (bits - 128), (prefix_octets (bits - 128)).
      assert (K : (prefix_octets (bits - 128) <= 16)%nat) by (unfold fill_zeroed in F; destruct (Nat.leb_spec (prefix_octets (bits - 128)) 16); [assumption|discriminate]).
      rewrite fill_zeroed_ok in F by assumption. apply Ok_inj in F. 
      assert (Bs : bytes_ok (skipn (prefix_octets (bits - 128)) b)) by now apply Forall_skipn.
      assert (L4 := dec6_len _ _ D2).
      destruct (take_be 16 _ Bs L4) as (v & r & Es & Hv & Br). rewrite Es, decode_addrv6_be in D2 by exact Hv. apply Ok_inj in D2. subst g'. exists r.
      split; [lia|]. split; [exact E1|]. split; [|rewrite Es; repeat split; auto]. apply pfx6_exact; [lia|exact B|]. unfold v6_from_bits.
      rewrite bits_bytes_ok, bind_ok by lia. assert (bits - 128 <= 128) by (apply (octets_le (bits - 128) 16); exact K).
      replace (128 <? bits - 128) with false by (symmetry; now apply N.ltb_ge). rewrite orb_false_l. 
      replace (Nat.ltb (length b) (prefix_octets (bits - 128))) with false by (symmetry; now apply Nat.ltb_ge).
      replace (bits - 128 =? 0) with false by (symmetry; apply N.eqb_neq; lia). rewrite fill_zeroed_ok, bind_ok by assumption. rewrite F, D. reflexivity.
  - intros (l & k & r & -> & H254 & P & Es & Hg & ->). assert (P' := P). destruct P' as (Hl & -> & Hx & _).
    replace (negb _) with false by (symmetry; apply negb_false_iff, andb_true_iff; split; apply N.leb_le; lia).
    assert (Lk := pfx6_within _ _ _ _ _ P). apply pfx6_exact in P; [|lia|exact B]. unfold v6_from_bits in P. rewrite bits_bytes_ok, bind_ok in P by lia.
    replace (128 <? l) with false in P by (symmetry; now apply N.ltb_ge). rewrite orb_false_l in P.
    replace (Nat.ltb (length b) (prefix_octets l)) with false in P by (symmetry; now apply Nat.ltb_ge).
    destruct (N.eqb_spec l 0) as [->|Hn].
    + change (128 + 0 =? 128) with true. cbn iota. change (prefix_octets 0) with 0%nat in *. cbn [skipn] in Es. subst b.
      change (decode_addrv6_from (repeat 0 16)) with (Ok 0 : res N) in *. cbn [bind] in P |- *. rewrite decode_addrv6_be, bind_ok by exact Hg.
      injection P as <-. reflexivity.
    + replace (128 + l =? 128) with false by (symmetry; apply N.eqb_neq; lia). rewrite usub_ok, bind_ok by lia.
      replace (128 + l - 128) with l by lia. rewrite bits_bytes_ok, bind_ok by lia. apply bind_Ok_inv in P as (bf & -> & P). rewrite bind_ok.
      apply bind_Ok_inv in P as (a & -> & P). rewrite bind_ok, rfrom_ok, bind_ok by exact Lk. rewrite Es, decode_addrv6_be, bind_ok by exact Hg.
      injection P as <-. reflexivity.
Qed.

Lemma mdt4_within : ex_within mdt4.
Proof.
  intros oc bits b x m (l & k & r & _ & P & E & _ & ->). apply pfx4_within in P. apply (f_equal (@length N)) in E. rewrite skipn_length, app_length, length_be_bytes in E. lia.
Qed.
Lemma mdt6_within : ex_within mdt6.
Proof.
  intros oc bits b x m (l & k & r & _ & _ & P & E & _ & ->). apply pfx6_within in P. apply (f_equal (@length N)) in E. rewrite skipn_length, app_length, length_be_bytes in E. lia.
Qed.

(** ** Lists of prefixes *)
Lemma item_exact {T} oc (ex : extractor T) P : ex_exact ex P -> step_exact (decode_bgpitem_from oc ex) (item oc P).
Proof.
  intros E s x k B. unfold decode_bgpitem_from, item. destruct s as [|bits s].
  - split; [discriminate|]. intros (? & ? & ? & ? & _). discriminate.
  - rewrite idx_0, bind_ok. change (rfrom (bits :: s) 1) with (Ok s : res (list N)). rewrite bind_ok. apply Forall_cons_iff in B as [B1 B2]. split.
    + intros H. apply bind_Ok_inv in H as ([y m] & E1 & H). injection H as <- <-. apply E in E1; auto. exists bits, s, m. repeat split; auto. lia.
    + intros (bits' & s' & m & X & Q & ->). injection X as <- <-. apply E in Q; auto. rewrite Q, bind_ok. do 2 f_equal. lia.
Qed.
Lemma item_advances {T} oc (P : bit_reading T) : advances (item oc P).
Proof. intros s x k (bits & s' & m & _ & _ & ->). lia. Qed.
Lemma item_within {T} oc (P : bit_reading T) : ex_within P -> forall s x k, bytes_ok s -> item oc P s x k -> (k <= length s)%nat.
Proof. intros W s x k _ (bits & s' & m & -> & Q & ->). apply W in Q. cbn [length]. lia. Qed.
Lemma use_pid_iff p afi sf b : use_pathid p afi sf b = true <-> asks_pid p afi sf b.
Proof.
  unfold use_pathid, asks_pid. rewrite orb_true_iff, andb_true_iff.
  assert (E : is_addpath_nlri b = true <-> (5 <= length b)%nat /\ exists r, b = 0 :: 0 :: r); [|now rewrite E].
  unfold is_addpath_nlri. destruct (Nat.ltb_spec (length b) 5) as [L|L].
  - split; [discriminate|]. intros [X _]. lia.
  - destruct b as [|b0 [|b1 r]]; try (cbn in L; lia). rewrite andb_true_iff, !N.eqb_eq. split.
    + intros [-> ->]. split; [exact L|now exists r].
    + intros (_ & r' & X). injection X as -> -> _. auto.
Qed.
Lemma family_exact {T} oc (ex : extractor T) P wr wp p afi sf b a n : ex_exact ex P -> ex_within P -> bytes_ok b ->
  dec_fam oc ex wr wp p afi sf b = Ok (a, n) <-> family oc P wr wp p afi sf b a n.
Proof.
  intros E W B. unfold dec_fam, family. assert (U := use_pid_iff p afi sf b). destruct (use_pathid p afi sf b).
  - assert (A : asks_pid p afi sf b) by now apply U. clear U.
    assert (X : forall v n, decode_pathid_bgpitems_from oc ex b = Ok (v, n) <-> many_pid (item oc P) b v n).
    { intros v k. unfold decode_pathid_bgpitems_from. rewrite (pid_loop_exact oc ex (item oc P)); auto using item_exact, item_advances; try lia.
      - cbn [skipn Nat.add]. split; [now intros (m & -> & M)|eauto].
      - now apply item_within. }
    split.
    + intros H. apply bind_Ok_inv in H as ([v k] & E1 & H). injection H as <- <-. apply X in E1. left. eauto.
    + intros [(_ & v & M & ->)|(N & _)]; [|contradiction]. apply X in M. now rewrite M.
  - assert (A : ~ asks_pid p afi sf b) by (intros Z; apply U in Z; discriminate). clear U.
    assert (X : forall v n, decode_bgpitems_from oc ex b = Ok (v, n) <-> many (item oc P) b v n).
    { intros v k. apply items_exact; auto using item_exact, item_advances. }
    split.
    + intros H. apply bind_Ok_inv in H as ([v k] & E1 & H). injection H as <- <-. apply X in E1. right. eauto.
    + intros [(N & _)|(_ & v & M & ->)]; [contradiction|]. apply X in M. now rewrite M.
Qed.

(** ** Reading fields one after another *)
Ltac lenof a := lazymatch a with
  | rd_wire _ => constr:(8%nat) | be_bytes ?k _ => constr:(k) | [_] => constr:(1%nat)
  | ip_bytes (IPv4 _) => constr:(4%nat) | ip_bytes (IPv6 _) => constr:(16%nat)
  | _ => lazymatch goal with H : length a = ?k |- _ => constr:(k) end end.
Ltac lenp := first [apply rd_len | apply length_be_bytes | reflexivity | eassumption].
Ltac num e := let v := eval cbv in e in v.
Ltac isnat n := lazymatch n with O => idtac | S ?m => isnat m end.
Ltac peel1 :=
  match goal with
  | |- context [@rslice ?A (?a ++ ?b) ?i ?j] => let k := lenof a in
      isnat i; isnat j; lazymatch i with
      | O => rewrite (@rslice_front A a b j) by lenp
      | _ => let i' := num (i - k)%nat in let j' := num (j - k)%nat in
          rewrite (@rslice_peel A a b k i j) by (first [lenp | lia]); change (i - k)%nat with i'; change (j - k)%nat with j' end
  | |- context [@rfrom ?A (?a ++ ?b) ?i] => let k := lenof a in
      let i' := num (i - k)%nat in rewrite (@rfrom_peel A a b k i) by (first [lenp | lia]); change (i - k)%nat with i'
  | |- context [@idx ?A (?a ++ ?b) (S ?i)] => let k := lenof a in
      let i' := num (S i - k)%nat in rewrite (@idx_peel A a b k (S i)) by (first [lenp | lia]); change (S i - k)%nat with i'
  end.
Ltac run1 := first [peel1 | rewrite bind_ok | rewrite rfrom_0 | rewrite decode_rd_wire by assumption | rewrite decode_rd_exact by assumption
  | rewrite getn_u16_exact by assumption | rewrite getn_u32_exact by assumption | rewrite getn_u16_be by assumption | rewrite getn_u32_be by assumption
  | rewrite decode_addrv4_be by assumption | rewrite decode_addrv6_be by assumption].
Ltac run := repeat run1.

(** ** VPLS *)
Lemma l2a_eq oc rd si of ra s : rd_wf rd -> si < 2 ^ 16 -> of < 2 ^ 16 -> ra < 2 ^ 16 -> (3 <= length s)%nat -> forall k, k = (14 + length s)%nat ->
  l2a_extract oc k (rd_wire rd ++ be_bytes 2 si ++ be_bytes 2 of ++ be_bytes 2 ra ++ s) =
  ('(ls, _) <- labels_extract oc (8 * N.of_nat (length s) mod 256) s ;; Ok (mkL2A rd si of ra ls)).
Proof.
  intros W H1 H2 H3 L k ->. unfold l2a_extract. destruct (Nat.ltb_spec (14 + length s) 17); [lia|].
  replace (cast 8 (N.of_nat (14 + length s - 14) * 8)) with (8 * N.of_nat (length s) mod 256) by (unfold cast; change (2 ^ 8) with 256; f_equal; lia).
  change (2 ^ 16) with 65536 in *. run. destruct (labels_extract _ _ _) as [[ls q]| | |]; [|reflexivity..]. run. reflexivity.
Qed.
Lemma l2a_exact oc d x : bytes_ok d -> l2a_extract oc (length d) d = Ok x <-> (17 <= length d)%nat /\ exists s,
  d = rd_wire (l2a_rd x) ++ be_bytes 2 (l2a_site x) ++ be_bytes 2 (l2a_offset x) ++ be_bytes 2 (l2a_range x) ++ s /\
  rd_wf (l2a_rd x) /\ l2a_site x < 2 ^ 16 /\ l2a_offset x < 2 ^ 16 /\ l2a_range x < 2 ^ 16 /\
  stack_of oc (8 * N.of_nat (length s) mod 256) s (l2a_labels x).
Proof.
  intros B. assert (C : forall k, 8 * N.of_nat k mod 256 < 256) by (intros; apply N.mod_lt; discriminate). split.
  - intros H. assert (L : (17 <= length d)%nat) by (unfold l2a_extract in H; destruct (Nat.ltb_spec (length d) 17); [discriminate|assumption]).
    split; [exact L|]. destruct (take_rd d B) as (rd & r & -> & W & B1); [lia|]. flen L.
    destruct (take_be 2 r B1) as (si & r1 & -> & H1 & B2); [lia|]. flen L. destruct (take_be 2 r1 B2) as (of & r2 & -> & H2 & B3); [lia|]. flen L.
    destruct (take_be 2 r2 B3) as (ra & s & -> & H3 & B4); [lia|]. flen L.
    rewrite l2a_eq in H by (auto; try lia; rewrite !app_length, rd_len, !length_be_bytes; lia). apply bind_Ok_inv in H as ([ls q] & E & H). injection H as <-.
    apply labels_exact in E as [E _]; auto. exists s. cbn. auto 10.
  - intros (L & s & -> & W & H1 & H2 & H3 & St). flen L. apply bytes_app in B as [_ B]. do 3 apply bytes_app in B as [_ B].
    rewrite l2a_eq by (auto; try lia; rewrite !app_length, rd_len, !length_be_bytes; lia).
    rewrite (proj2 (labels_exact oc _ s (l2a_labels x) (3 * length (l2a_labels x)) (C _) B)) by auto. destruct x; reflexivity.
Qed.
Lemma vpls_exact oc : step_exact (decode_long_item (l2a_extract oc)) (vpls_reads oc).
Proof.
  intros b x n B. unfold decode_long_item, vpls_reads. split.
  - intros H. assert (L : (2 <= length b)%nat) by (apply bind_Ok_inv in H as (s2 & R & _); now apply rslice_Ok_inv in R as (_ & L & _)).
    destruct (take_be 2 b B L) as (l & r & -> & Hl & Br). assert (Hl' : l < 65536) by exact Hl. revert H. run. intros H.
    rewrite (rslice_peel _ _ 2) in H by (auto using length_be_bytes; lia). replace (N.to_nat l + 2 - 2)%nat with (N.to_nat l) in H by lia. change (2 - 2)%nat with 0%nat in H.
    assert (L2 : (N.to_nat l <= length r)%nat) by (apply bind_Ok_inv in H as (d & R & _); now apply rslice_Ok_inv in R as (_ & ? & _)).
    destruct (take_raw _ r Br L2) as (d & rest & -> & Ld & Bd & _). rewrite rslice_front, bind_ok, <- Ld in H by exact Ld. apply bind_Ok_inv in H as (y & E & H).
    injection H as <- <-. apply l2a_exact in E as (L17 & s & Es & E); auto. exists d, s, rest. replace (N.of_nat (length d)) with l by lia.
    split; [reflexivity|]. split; [reflexivity|]. split; [exact L17|]. split; [exact Hl|]. split; [exact Es|exact E].
  - intros (d & s & rest & -> & -> & L17 & Hl & Es & E). assert (Hl' : N.of_nat (length d) < 65536) by exact Hl. run.
    rewrite (rslice_peel _ _ 2) by (auto using length_be_bytes; lia). replace (N.to_nat (N.of_nat (length d)) + 2 - 2)%nat with (length d) by lia. change (2 - 2)%nat with 0%nat.
    rewrite rslice_front, bind_ok by reflexivity. rewrite Nat2N.id. apply bytes_app in B as [_ B]. apply bytes_app in B as [B _].
    rewrite (proj2 (l2a_exact oc d x B)); [reflexivity|]. split; [exact L17|]. now exists s.
Qed.
Lemma vpls_advances oc : advances (vpls_reads oc).
Proof. intros b x n (d & s & r & _ & -> & _). lia. Qed.
