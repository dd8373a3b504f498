(** Proofs that the relations of S_Exact3 are exactly what the capability, OPEN
    and NOTIFICATION decoders do. *)
From Verif Require Import Base BaseFacts M_Util F_Util M_Cap M_Open S_Cap F_Cap F_Open
  F_Attr4 F_Exact F_Exact4 F_Exact6 S_Exact3 F_Utf8.
Ltac Zify.zify_post_hook ::= idtac.

(** ** Entries *)
Lemma land_bit x k : negb (N.land x (2 ^ k) =? 0) = N.testbit x k.
Proof. exact (has_bit x k). Qed.
Lemma pos_bit x k : (0 <? N.land x (2 ^ k)) = N.testbit x k.
Proof.
  rewrite <- land_bit. destruct (N.land x (2 ^ k)); reflexivity.
Qed.

Lemma gr_run a x y : a < 65536 -> gr_decode (be_bytes 2 a ++ [x; y]) = Ok (mkGR a x (N.testbit y 7)).
Proof.
  intros Ha. unfold gr_decode. rewrite app_length, length_be_bytes. cbn [length Nat.add Nat.ltb Nat.leb].
  rewrite (rslice_front (be_bytes 2 a)) by apply length_be_bytes. cbn [bind].
  rewrite <- (app_nil_r (be_bytes 2 a)) at 1. rewrite getn_u16_be by exact Ha. cbn [bind].
  rewrite !(idx_peel (be_bytes 2 a) _ 2) by (try apply length_be_bytes; lia). cbn [Nat.sub idx nth_error bind].
  change 128 with (2 ^ 7). now rewrite land_bit.
Qed.
Lemma ap_run a x y : a < 65536 ->
  ap_decode (be_bytes 2 a ++ [x; y]) = Ok (mkAP a x (N.testbit y 1) (N.testbit y 0)).
Proof.
  intros Ha. unfold ap_decode. rewrite app_length, length_be_bytes. cbn [length Nat.add Nat.ltb Nat.leb].
  rewrite (rslice_front (be_bytes 2 a)) by apply length_be_bytes. cbn [bind].
  rewrite <- (app_nil_r (be_bytes 2 a)) at 1. rewrite getn_u16_be by exact Ha. cbn [bind].
  rewrite !(idx_peel (be_bytes 2 a) _ 2) by (try apply length_be_bytes; lia). cbn [Nat.sub idx nth_error bind].
  rewrite <- (pos_bit y 1), <- (pos_bit y 0). reflexivity.
Qed.

Lemma four b : bytes_ok b -> length b = 4%nat ->
  exists a x y, b = be_bytes 2 a ++ [x; y] /\ a < 65536 /\ x < 256 /\ y < 256.
Proof.
  intros B L. destruct (take_be 2 b B) as (a & r & -> & Ha & Br); [lia|].
  rewrite app_length, length_be_bytes in L.
  destruct r as [|x [|y [|? r]]]; try (cbn in L; lia).
  exists a, x, y. split; [reflexivity|]. split; [exact Ha|].
  split; [exact (Forall_inv Br)|exact (Forall_inv (Forall_inv_tail Br))].
Qed.

Lemma be_bytes_inj2 a b : be_bytes 2 a = be_bytes 2 b -> a < 65536 -> b < 65536 -> a = b.
Proof. intros E Ha Hb. now rewrite <- (be_val_be_bytes 2 a Ha), E, (be_val_be_bytes 2 b Hb). Qed.

Definition entry_exact {T} (k : nat) (dec : list N -> res T) (R : list N -> T -> Prop) : Prop :=
  (forall b c, bytes_ok b -> length b = k -> dec b = Ok c <-> R b c) /\
  (forall b c, R b c -> length b = k).

Lemma gr_entry : entry_exact 4 gr_decode gr_reads.
Proof.
  split.
  - intros b c B L. destruct (four b B L) as (a & x & y & -> & Ha & Hx & Hy). rewrite gr_run by exact Ha. split.
    + intros E. apply Ok_inj in E. subst c. split; [split; assumption|]. exists y. auto.
    + intros ((Wa & Ws) & fl & Hf & E & F). destruct c as [ca cs cf]; cbn [gr_afi gr_safi gr_fwd] in *.
      apply app_same_len in E as [E1 E2]; [|now rewrite !length_be_bytes].
      apply be_bytes_inj2 in E1; [|exact Ha|exact Wa]. congruence.
  - intros b c (_ & fl & _ & -> & _). now rewrite app_length, length_be_bytes.
Qed.
Lemma ap_entry' : entry_exact 4 ap_decode ap_reads.
Proof.
  split.
  - intros b c B L. destruct (four b B L) as (a & x & y & -> & Ha & Hx & Hy). rewrite ap_run by exact Ha. split.
    + intros E. apply Ok_inj in E. subst c. split; [split; assumption|]. exists y. auto.
    + intros ((Wa & Ws) & fl & Hf & E & F & G). destruct c as [ca cs cf cg]; cbn [ap_afi ap_safi ap_send ap_receive] in *.
      apply app_same_len in E as [E1 E2]; [|now rewrite !length_be_bytes].
      apply be_bytes_inj2 in E1; [|exact Ha|exact Wa]. congruence.
  - intros b c (_ & fl & _ & -> & _). now rewrite app_length, length_be_bytes.
Qed.
Lemma ll_entry : entry_exact 7 llgr_decode ll_reads.
Proof.
  split.
  - intros b c B L. split.
    + intros E. destruct (ll_dec_total b L) as (c' & E' & W). rewrite E in E'. apply Ok_inj in E'. subst c'.
      split; [now apply W|].
      destruct (take_be 2 b B) as (a & r & -> & Ha & Br); [lia|]. rewrite app_length, length_be_bytes in L.
      destruct r as [|x [|y r]]; try (cbn in L; lia).
      assert (Br' := Forall_inv_tail (Forall_inv_tail Br)).
      destruct (take_be 3 r Br') as (s & r' & -> & Hs & _); [cbn in L; lia|].
      cbn [length] in L. rewrite app_length, length_be_bytes in L. destruct r'; [|cbn in L; lia]. rewrite app_nil_r in *.
      assert (X : ll_wf (mkLLGR a x y s)).
      { split; [exact Ha|]. split; [exact (Forall_inv Br)|]. split; [exact (Forall_inv (Forall_inv_tail Br))|exact Hs]. }
      apply ll_dec in X. change (ll_wire (mkLLGR a x y s)) with (be_bytes 2 a ++ x :: y :: be_bytes 3 s) in X.
      rewrite E in X. apply Ok_inj in X. subst c. reflexivity.
    + intros (W & ->). now apply ll_dec.
  - intros b c (_ & ->). apply length_ll_wire.
Qed.

Lemma row_exact {T} k (dec : list N -> res T) R : (0 < k)%nat -> entry_exact k dec R ->
  forall fuel data cp v, bytes_ok data -> (cp <= length data)%nat -> (length data - cp <= fuel)%nat ->
  entries_loop k dec fuel data cp = Ok v <-> in_row R (skipn cp data) v.
Proof.
  intros Hk [E1 E2]. induction fuel as [|fuel IH]; intros data cp v B Hc Hf; cbn [entries_loop].
  - replace (Nat.ltb cp (length data)) with false by (symmetry; apply Nat.ltb_ge; lia).
    rewrite skipn_all2 by lia. split.
    + intros E. apply Ok_inj in E. subst v. exists []. split; [reflexivity|constructor].
    + intros (bs & E & F). destruct F as [|b c bs v Hb F]; [reflexivity|].
      apply E2 in Hb. apply (f_equal (@length N)) in E. cbn [concat length] in E. rewrite app_length in E. lia.
  - destruct (Nat.ltb_spec cp (length data)) as [Hp|Hp].
    + split.
      * intros E. apply bind_Ok_inv in E as (s & Es & E). apply bind_Ok_inv in E as (c & Ec & E).
        apply bind_Ok_inv in E as (v' & Ev & E). apply Ok_inj in E. subst v.
        apply rslice_Ok_inv in Es as (L1 & L2 & ->).
        assert (Ls : length (sub data cp (cp + k)) = k) by (rewrite length_sub by lia; lia).
        apply E1 in Ec; [|now apply Forall_sub|exact Ls].
        apply (IH data (cp + k)%nat) in Ev; [|exact B|lia|lia]. destruct Ev as (bs & Eb & F).
        exists (sub data cp (cp + k) :: bs). split; [|now constructor].
        cbn [concat]. rewrite <- Eb. unfold sub. replace (cp + k - cp)%nat with k by lia.
        rewrite <- skipn_skipn', firstn_skipn. reflexivity.
      * intros (bs & E & F). destruct F as [|b c bs v Hb F].
        { apply (f_equal (@length N)) in E. rewrite skipn_length in E. cbn in E. lia. }
        assert (Lb := E2 _ _ Hb). cbn [concat] in E.
        assert (Ll : (cp + k <= length data)%nat).
        { apply (f_equal (@length N)) in E. rewrite skipn_length, app_length in E. lia. }
        rewrite rslice_ok by lia. cbn [bind].
        assert (Es : sub data cp (cp + k) = b).
        { unfold sub. replace (cp + k - cp)%nat with k by lia. rewrite E, firstn_app, <- Lb, Nat.sub_diag, firstn_all. cbn [firstn]. apply app_nil_r. }
        rewrite Es. replace (dec b) with (Ok c).
        2:{ symmetry. apply E1; [|exact Lb|exact Hb]. rewrite <- Es. now apply Forall_sub. }
        cbn [bind]. replace (entries_loop k dec fuel data (cp + k)) with (Ok v); [reflexivity|].
        symmetry. apply IH; [exact B|lia|lia|]. exists bs. split; [|exact F].
        rewrite <- skipn_skipn', E, skipn_app, <- Lb, Nat.sub_diag, skipn_all. reflexivity.
    + rewrite skipn_all2 by lia. split.
      * intros E. apply Ok_inj in E. subst v. exists []. split; [reflexivity|constructor].
      * intros (bs & E & F). destruct F as [|b c bs v Hb F]; [reflexivity|].
        apply E2 in Hb. apply (f_equal (@length N)) in E. cbn [concat length] in E. rewrite app_length in E. lia.
Qed.
Lemma row_length {T} k (dec : list N -> res T) R b v : entry_exact k dec R -> in_row R b v ->
  length b = (k * length v)%nat.
Proof.
  intros [_ E2] (bs & -> & F). induction F as [|x c bs v Hx F IH]; cbn [concat length]; [lia|].
  rewrite app_length, IH, (E2 _ _ Hx). lia.
Qed.

(** ** Capabilities *)
Lemma high_bit w : w < 2 ^ 16 -> N.testbit w 15 = N.testbit ((w / 2 ^ 8) mod 256) 7.
Proof.
  intros H. rewrite N.mod_small.
  - change 15 with (7 + 8). rewrite <- N.div_pow2_bits. reflexivity.
  - apply N.div_lt_upper_bound; [discriminate|]. exact H.
Qed.

Lemma empty_exact d c o : empty_cap d c = Ok o <-> o = Some c /\ d = [].
Proof.
  unfold empty_cap. destruct d; split; try discriminate.
  - intros E. apply Ok_inj in E. auto.
  - intros [-> _]. reflexivity.
  - intros [_ E]. discriminate.
Qed.

Lemma cap_exact code d o : bytes_ok d -> from_type_and_data code d = Ok o <-> cap_reads code d o.
Proof.
  intros B. destruct o as [c|].
  2:{ (* None *)
    assert (T := td_total code d). split.
    - intros E. rewrite E in T. inversion T as [|X|]. exact X.
    - intros [K|(-> & L & K)].
      + unfold from_type_and_data. unfold known_codes in K. cbn [In] in K.
        repeat match goal with |- context [code =? ?n] =>
          destruct (N.eqb_spec code n); [exfalso; apply K; intuition congruence|] end. reflexivity.
      + unfold from_type_and_data. cbn [N.eqb Pos.eqb]. rewrite L. cbn [Nat.eqb negb].
        do 5 (destruct d as [|? d]; try discriminate L). assert (Sp := safi_of_spec n n0 n1 n2).
        destruct (safi_of_bytes n n0 n1 n2); [now apply K in Sp|reflexivity]. }
  unfold cap_reads. split.
  - intros E. assert (T := td_total code d). rewrite E in T.
    inversion T as [| |c' -> W L F]. subst c'. clear T. split; [reflexivity|].
    destruct c as [s|st t v|n| |v| |v|h dn| ].
    + unfold from_type_and_data in E. cbn [cap_code N.eqb Pos.eqb] in E.
      do 5 (destruct d as [|? d]; try discriminate L). cbn [length Nat.eqb negb] in E.
      assert (Sp := safi_of_spec n n0 n1 n2). destruct (safi_of_bytes n n0 n1 n2); congruence.
    + unfold from_type_and_data in E. cbn [cap_code N.eqb Pos.eqb] in E.
      match type of E with (if ?x then _ else _) = _ => destruct x eqn:C; [discriminate|] end.
      apply orb_false_elim in C as [C _]. apply Nat.ltb_ge in C.
      destruct (take_be 2 d B) as (w & e & Ed & Hw & Be); [exact C|].
      apply bind_Ok_inv in E as (d0 & E0 & E). apply bind_Ok_inv in E as (s & Es & E).
      apply bind_Ok_inv in E as (t' & Et & E). apply bind_Ok_inv in E as (v' & Ev & E).
      apply Ok_inj in E. exists w, e.
      apply (row_exact 4 gr_decode gr_reads) in Ev; [|lia|exact gr_entry|exact B|exact C|lia].
      assert (X : N.land t' 4095 = t /\ v' = v /\ negb (N.land d0 128 =? 0) = st) by (repeat split; congruence).
      destruct X as (X1 & X2 & X3). subst v'.
      rewrite Ed in E0, Es, Ev. rewrite (rslice_front (be_bytes 2 w)) in Es by apply length_be_bytes.
      apply Ok_inj in Es. subst s. rewrite <- (app_nil_r (be_bytes 2 w)) in Et. rewrite getn_u16_be in Et by exact Hw.
      apply Ok_inj in Et. subst t'. rewrite skipn_app, length_be_bytes, skipn_all2, Nat.sub_diag in Ev by (rewrite length_be_bytes; lia).
      cbn [skipn app] in Ev. split; [exact Hw|]. split; [exact Ed|]. split; [|split; [|exact Ev]].
      * rewrite <- X3. change 128 with (2 ^ 7). rewrite land_bit, high_bit by exact Hw.
        assert (Y : (w / 2 ^ 8) mod 256 = d0); [|now rewrite Y].
        { unfold idx in E0. cbn [be_bytes app nth_error] in E0. now apply Ok_inj in E0. }
      * rewrite <- X1. change 4095 with (2 ^ 12 - 1). now rewrite land_mask.
    + unfold from_type_and_data in E. cbn [cap_code N.eqb Pos.eqb] in E.
      rewrite L in E. cbn [cap_payload] in E, L. rewrite length_be_bytes in E, L. cbn [Nat.eqb negb] in E.
      apply bind_Ok_inv in E as (n' & En & E). apply Ok_inj in E. assert (n' = n) by congruence. subst n'. clear E.
      destruct (take_be 4 d B) as (n' & r & -> & Hn & _); [lia|].
      rewrite app_length, length_be_bytes in L. destruct r; [|cbn in L; lia].
      rewrite getn_u32_be in En by exact Hn. apply Ok_inj in En. subst n'. split; [exact Hn|apply app_nil_r].
    + cbn [cap_payload] in L. destruct d; [reflexivity|discriminate].
    + unfold from_type_and_data in E. cbn [cap_code N.eqb Pos.eqb] in E.
      match type of E with (if ?x then _ else _) = _ => destruct x; [discriminate|] end.
      apply bind_Ok_inv in E as (v' & Ev & E). apply Ok_inj in E. assert (v' = v) by congruence. subst v'.
      apply (row_exact 4 ap_decode ap_reads) in Ev; [exact Ev|lia|exact ap_entry'|exact B|lia|lia].
    + cbn [cap_payload] in L. destruct d; [reflexivity|discriminate].
    + unfold from_type_and_data in E. cbn [cap_code N.eqb Pos.eqb] in E.
      match type of E with (if ?x then _ else _) = _ => destruct x; [discriminate|] end.
      apply bind_Ok_inv in E as (v' & Ev & E). apply Ok_inj in E. assert (v' = v) by congruence. subst v'.
      apply (row_exact 7 llgr_decode ll_reads) in Ev; [exact Ev|lia|exact ll_entry|exact B|lia|lia].
    + destruct F as [F1 F2]. subst dn. split; [|split; [reflexivity|exact F1]].
      apply utf8_exact. now destruct (W B) as (_ & _ & U & _).
    + cbn [cap_payload] in L. destruct d; [reflexivity|discriminate].
  - intros (-> & H). destruct c as [s|st t v|n| |v| |v|h dn| ].
    + subst d. apply (from_td_ok (CapMP s)); [split; [exact I|cbn; lia]|intros (? & ? & ?); discriminate].
    + destruct H as (w & e & Hw & -> & -> & -> & R). unfold from_type_and_data. cbn [cap_code N.eqb Pos.eqb].
      assert (Le := row_length 4 gr_decode _ _ _ gr_entry R). rewrite app_length, length_be_bytes.
      replace (Nat.ltb (2 + length e) 2) with false by (symmetry; apply Nat.ltb_ge; lia).
      replace (2 + length e - 2)%nat with (length v * 4)%nat by lia. rewrite Nat.mod_mul by discriminate.
      cbn [Nat.eqb negb orb].
      assert (E0 : idx (be_bytes 2 w ++ e) 0 = Ok ((w / 2 ^ 8) mod 256)) by reflexivity. rewrite E0. cbn [bind].
      rewrite (rslice_front (be_bytes 2 w)) by apply length_be_bytes. cbn [bind].
      rewrite <- (app_nil_r (be_bytes 2 w)) at 1. rewrite getn_u16_be by exact Hw. cbn [bind].
      replace (entries_loop 4 gr_decode (2 + length e) (be_bytes 2 w ++ e) 2) with (Ok v).
      2:{ symmetry. apply (row_exact 4 gr_decode gr_reads); [lia|exact gr_entry|exact B| | | ].
          1,2: rewrite app_length, length_be_bytes; lia.
          rewrite skipn_app, length_be_bytes, skipn_all2, Nat.sub_diag by (rewrite length_be_bytes; lia). exact R. }
      cbn [bind]. change 128 with (2 ^ 7). rewrite land_bit, <- high_bit by exact Hw.
      change 4095 with (2 ^ 12 - 1). now rewrite land_mask.
    + destruct H as (Hn & ->). apply (from_td_ok (CapASN32 n)); [split; [exact Hn|cbn; lia]|intros (? & ? & ?); discriminate].
    + subst d. reflexivity.
    + unfold from_type_and_data. cbn [cap_code N.eqb Pos.eqb].
      assert (Le := row_length 4 ap_decode _ _ _ ap_entry' H).
      rewrite land3_mod. replace (length d mod 4)%nat with 0%nat by (rewrite Le, Nat.mul_comm; symmetry; now apply Nat.mod_mul).
      cbn [Nat.eqb negb]. replace (entries_loop 4 ap_decode (length d) d 0) with (Ok v); [reflexivity|].
      symmetry. apply (row_exact 4 ap_decode ap_reads); [lia|exact ap_entry'|exact B|lia|lia|exact H].
    + subst d. reflexivity.
    + unfold from_type_and_data. cbn [cap_code N.eqb Pos.eqb].
      assert (Le := row_length 7 llgr_decode _ _ _ ll_entry H).
      replace (length d mod 7)%nat with 0%nat by (rewrite Le, Nat.mul_comm; symmetry; now apply Nat.mod_mul).
      cbn [Nat.eqb negb]. replace (entries_loop 7 llgr_decode (length d) d 0) with (Ok v); [reflexivity|].
      symmetry. apply (row_exact 7 llgr_decode ll_reads); [lia|exact ll_entry|exact B|lia|lia|exact H].
    + destruct H as (U & -> & ->). apply utf8_exact in U.
      unfold from_type_and_data. cbn [cap_code N.eqb Pos.eqb]. rewrite rfrom_0. cbn [bind idx nth_error].
      rewrite Nat2N.id. rewrite rfrom_ok by (cbn [length]; lia). cbn [bind skipn].
      replace (Nat.ltb (length (h ++ [0])) (length h)) with false by (symmetry; apply Nat.ltb_ge; rewrite app_length; lia).
      change (N.of_nat (length h) :: h ++ [0]) with ([N.of_nat (length h)] ++ h ++ [0]).
      rewrite (rslice_peel [N.of_nat (length h)] _ 1) by (try reflexivity; lia).
      replace (1 + length h - 1)%nat with (length h) by lia. cbn [Nat.sub].
      rewrite rslice_front by reflexivity. cbn [bind]. unfold from_utf8 at 1. rewrite U. cbn [bind].
      rewrite (rfrom_peel [N.of_nat (length h)] _ 1) by (try reflexivity; lia).
      rewrite (rfrom_peel h [0] (length h)) by (try reflexivity; lia).
      replace (1 + length h - 1 - length h)%nat with 0%nat by lia. cbn [rfrom Nat.leb skipn bind].
      rewrite (idx_peel [N.of_nat (length h)] _ 1) by (try reflexivity; lia).
      rewrite (idx_peel h [0] (length h)) by (try reflexivity; lia).
      replace (1 + length h - 1 - length h)%nat with 0%nat by lia. cbn [idx nth_error bind].
      rewrite (rfrom_peel [N.of_nat (length h)] _ 1) by (try reflexivity; lia).
      rewrite (rfrom_peel h [0] (length h)) by (try reflexivity; lia).
      replace (1 + length h + 1 - 1 - length h)%nat with 1%nat by lia.
      cbn [rfrom Nat.leb length skipn bind N.to_nat Nat.ltb].
      rewrite (rslice_peel [N.of_nat (length h)] _ 1) by (try reflexivity; lia).
      rewrite (rslice_peel h [0] (length h)) by (try reflexivity; lia).
      replace (1 + length h + 1 - 1 - length h)%nat with 1%nat by lia.
      replace (1 + length h + 1 + 0 - 1 - length h)%nat with 1%nat by lia.
      change (rslice [0] 1 1) with (@Ok (list N) []). cbn [bind]. reflexivity.
    + subst d. reflexivity.
Qed.

(** ** from_buffer, optional parameters, OPEN *)
Lemma frame_split b : (2 <= length b)%nat -> bytes_ok b ->
  (exists code l r, b = code :: N.of_nat l :: r /\ (l < 256)%nat /\ (length r < l)%nat) \/
  (exists code d r, b = code :: N.of_nat (length d) :: d ++ r /\ (length d < 256)%nat /\ bytes_ok d /\ bytes_ok r).
Proof.
  intros L B. destruct b as [|code [|l r]]; try (cbn in L; lia).
  assert (Hl : l < 256) by exact (Forall_inv (Forall_inv_tail B)).
  assert (Br := Forall_inv_tail (Forall_inv_tail B)).
  destruct (Nat.lt_ge_cases (length r) (N.to_nat l)) as [H|H].
  - left. exists code, (N.to_nat l), r. rewrite N2Nat.id. split; [reflexivity|]. split; [lia|exact H].
  - right. exists code, (firstn (N.to_nat l) r), (skipn (N.to_nat l) r).
    rewrite firstn_length, Nat.min_l by exact H. rewrite N2Nat.id, firstn_skipn.
    split; [reflexivity|]. split; [lia|]. split; [now apply Forall_firstn|now apply Forall_skipn].
Qed.

Lemma from_buffer_short code l r : (length r < l)%nat -> from_buffer (code :: N.of_nat l :: r) = Err EInsufficient.
Proof.
  intros H. unfold from_buffer. change (Nat.ltb (length (code :: N.of_nat l :: r)) 2) with false.
  cbn [idx nth_error bind]. rewrite Nat2N.id.
  replace (Nat.ltb (length (code :: N.of_nat l :: r)) (l + 2)) with true; [reflexivity|].
  symmetry. apply Nat.ltb_lt. cbn [length]. lia.
Qed.
Lemma caps_cases b v : caps_read b v -> b = [] /\ v = [] \/
  exists code d r, b = code :: N.of_nat (length d) :: d ++ r /\ (length d < 256)%nat /\
    ((exists c w, v = c :: w /\ cap_reads code d (Some c) /\ caps_read r w) \/
     (cap_reads code d None /\ caps_read r v)).
Proof.
  intros [|code d c r w L R H|code d r w L R H]; [now left| |]; right; exists code, d, r;
    (split; [reflexivity|]); (split; [exact L|]); [left|right]; eauto.
Qed.
Lemma frame2_inj (c c' : N) d d' r r' :
  c :: N.of_nat (length d) :: d ++ r = c' :: N.of_nat (length d') :: d' ++ r' -> c = c' /\ d = d' /\ r = r'.
Proof.
  intros E. assert (E1 := f_equal (@hd N 0) E). assert (E2 := f_equal (@hd N 0) (f_equal (@tl N) E)).
  assert (E3 := f_equal (@tl N) (f_equal (@tl N) E)). cbn [hd tl] in E1, E2, E3.
  apply Nat2N.inj in E2. apply app_same_len in E3 as [-> ->]; auto.
Qed.
Lemma caps_front code d b v :
  caps_read (code :: N.of_nat (length d) :: d ++ b) v ->
  (exists c w, v = c :: w /\ cap_reads code d (Some c) /\ caps_read b w) \/
  (cap_reads code d None /\ caps_read b v).
Proof.
  intros H. apply caps_cases in H as [[E _]|(code' & d' & r & E & L & H)]; [discriminate|].
  apply frame2_inj in E as (<- & <- & <-). exact H.
Qed.
Lemma caps_short code l r v : (length r < l)%nat -> ~ caps_read (code :: N.of_nat l :: r) v.
Proof.
  intros Lr H. apply caps_cases in H as [[E _]|(code' & d' & r' & E & L & H)]; [discriminate|].
  assert (E2 := f_equal (@hd N 0) (f_equal (@tl N) E)).
  assert (E3 := f_equal (@tl N) (f_equal (@tl N) E)). cbn [hd tl] in E2, E3.
  apply Nat2N.inj in E2. subst r. rewrite app_length in Lr. lia.
Qed.
Lemma caps_nil v : caps_read [] v -> v = [].
Proof. intros H. apply caps_cases in H as [[_ E]|(? & ? & ? & E & _)]; [exact E|discriminate]. Qed.
Lemma params_cases b v : params_read b v -> ((length b <= 1)%nat /\ v = []) \/
  exists p r u w, b = 2 :: N.of_nat (length p) :: p ++ r /\ (length p < 256)%nat /\ v = u ++ w /\
    caps_read p u /\ params_read r w.
Proof.
  intros [b' L|p r u w L R H]; [now left|right]. exists p, r, u, w. auto.
Qed.

Lemma caps_exact fuel : forall buf pos n v q, bytes_ok buf -> (n <= fuel)%nat ->
  open_caps_loop fuel buf pos n = Ok (v, q) <->
  n = 0%nat /\ v = [] /\ q = pos \/
  (pos + n <= length buf)%nat /\ q = (pos + n)%nat /\ caps_read (sub buf pos (pos + n)) v.
Proof.
  induction fuel as [|fuel IH]; intros buf pos n v q B Hn.
  { assert (n = 0%nat) by lia. subst n. cbn [open_caps_loop]. split.
    - intros E. apply Ok_inj in E. left. repeat split; congruence.
    - intros [(_ & -> & ->)|(_ & -> & R)]; [reflexivity|]. rewrite Nat.add_0_r in *.
      unfold sub in R. rewrite Nat.sub_diag in R. apply caps_nil in R. now subst v. }
  destruct n as [|n'].
  { cbn [open_caps_loop]. split.
    - intros E. apply Ok_inj in E. left. repeat split; congruence.
    - intros [(_ & -> & ->)|(_ & -> & R)]; [reflexivity|]. rewrite Nat.add_0_r in *.
      unfold sub in R. rewrite Nat.sub_diag in R. apply caps_nil in R. now subst v. }
  remember (S n') as n eqn:En. assert (Hn0 : n <> 0%nat) by lia.
  assert (Un : open_caps_loop (S fuel) buf pos n =
    (s <- eslice buf pos (pos + n) ;;
      ' (mc, used) <- from_buffer s ;;
      if Nat.ltb n used then Panic else
      ' (v, pos') <- open_caps_loop fuel buf (pos + used) (n - used) ;;
      match mc with inl cap => Ok (cap :: v, pos') | inr _ => Ok (v, pos') end)) by (subst n; reflexivity).
  rewrite Un. clear Un En n'.
  destruct (Nat.le_gt_cases (pos + n) (length buf)) as [Hl|Hl].
  2:{ split; [|intros [(? & _)|(? & _)]; lia].
      intros E. apply bind_Ok_inv in E as (s & Es & _). apply eslice_Ok_inv in Es as (_ & L & _). lia. }
  rewrite eslice_ok by lia. cbn [bind].
  assert (Ls : length (sub buf pos (pos + n)) = n) by (rewrite length_sub by lia; lia).
  assert (Bs : bytes_ok (sub buf pos (pos + n))) by now apply Forall_sub.
  destruct (Nat.le_gt_cases 2 n) as [H2|H2].
  2:{ split.
      - intros E. apply bind_Ok_inv in E as ([mc u] & E1 & _). unfold from_buffer in E1. rewrite Ls in E1.
        replace (Nat.ltb n 2) with true in E1 by (symmetry; apply Nat.ltb_lt; lia). discriminate.
      - intros [(? & _)|(_ & _ & R)]; [lia|]. exfalso.
        apply caps_cases in R as [[E _]|(code' & d' & r' & E & _)];
          rewrite E in Ls; cbn [length] in Ls; lia. }
  destruct (frame_split (sub buf pos (pos + n))) as [(code & l & r & E & Hl1 & Hl2)|(code & d & r & E & Hd & Bd & Br)]; [lia|exact Bs| | ].
  { split.
    - intros X. apply bind_Ok_inv in X as ([mc u] & E1 & _). rewrite E, from_buffer_short in E1 by exact Hl2. discriminate.
    - intros [(? & _)|(_ & _ & R)]; [lia|]. rewrite E in R. now apply caps_short in R. }
  assert (Ln : n = (2 + length d + length r)%nat) by (rewrite <- Ls, E; cbn [length]; rewrite app_length; lia).
  assert (Sr : sub buf (pos + (2 + length d)) (pos + (2 + length d) + (n - (2 + length d))) = r).
  { replace (pos + (2 + length d) + (n - (2 + length d)))%nat with (pos + n)%nat by lia.
    unfold sub in *. replace (pos + n - pos)%nat with n in E by lia.
    replace (pos + n - (pos + (2 + length d)))%nat with (n - (2 + length d))%nat by lia.
    rewrite <- skipn_skipn', <- skipn_firstn_comm, E.
    change (code :: N.of_nat (length d) :: d ++ r) with (([code; N.of_nat (length d)] ++ d) ++ r).
    rewrite skipn_app, skipn_all2 by (rewrite app_length; cbn [length]; lia).
    rewrite app_length. cbn [length app]. now replace (2 + length d - (2 + length d))%nat with 0%nat by lia. }
  rewrite E, from_buffer_frame by exact Hd. split.
  - intros X. apply bind_Ok_inv in X as ([mc u] & E1 & X). apply bind_Ok_inv in E1 as (o & Eo & E1).
    apply cap_exact in Eo; [|exact Bd].
    assert (u = (2 + length d)%nat) by (destruct o; apply Ok_inj in E1; congruence). subst u.
    replace (Nat.ltb n (2 + length d)) with false in X by (symmetry; apply Nat.ltb_ge; lia).
    apply bind_Ok_inv in X as ([v' q'] & E2 & X).
    apply IH in E2; [|exact B|lia]. rewrite Sr in E2.
    assert (E3 : q' = (pos + n)%nat /\ caps_read r v').
    { destruct E2 as [(Z & -> & ->)|(_ & -> & R)]; [|split; [lia|exact R]].
      assert (Lr0 : length r = 0%nat) by lia. split; [lia|]. apply length_zero_iff_nil in Lr0. rewrite Lr0. constructor. }
    destruct E3 as [-> R]. right. split; [exact Hl|].
    destruct o as [c|]; apply Ok_inj in E1; apply (f_equal fst) in E1; cbn [fst] in E1; subst mc; apply Ok_inj in X.
    + assert (v = c :: v' /\ q = (pos + n)%nat) as [-> ->] by (split; congruence).
      split; [reflexivity|]. now constructor.
    + assert (v = v' /\ q = (pos + n)%nat) as [-> ->] by (split; congruence).
      split; [reflexivity|]. now apply caps_none.
  - intros [(? & _)|(_ & -> & R)]; [lia|].
    assert (Go : forall w, caps_read r w -> open_caps_loop fuel buf (pos + (2 + length d)) (n - (2 + length d)) = Ok (w, (pos + n)%nat)).
    { intros w Rw. apply IH; [exact B|lia|]. right. rewrite Sr. split; [lia|]. split; [lia|exact Rw]. }
    apply caps_front in R as [(c & w & -> & R & Rw)|(R & Rw)]; [|].
    + apply cap_exact in R; [|exact Bd]. rewrite R. cbn [bind].
      replace (Nat.ltb n (2 + length d)) with false by (symmetry; apply Nat.ltb_ge; lia).
      rewrite (Go w Rw). reflexivity.
    + apply cap_exact in R; [|exact Bd]. rewrite R. cbn [bind].
      replace (Nat.ltb n (2 + length d)) with false by (symmetry; apply Nat.ltb_ge; lia).
      rewrite (Go v Rw). reflexivity.
Qed.

Lemma params_exact fuel : forall buf pos v, bytes_ok buf -> (pos <= length buf)%nat -> (length buf - pos <= fuel)%nat ->
  open_params_loop fuel buf pos = Ok v <-> params_read (skipn pos buf) v.
Proof.
  induction fuel as [|fuel IH]; intros buf pos v B Hp Hf; cbn [open_params_loop].
  { replace (Nat.ltb (pos + 1) (length buf)) with false by (symmetry; apply Nat.ltb_ge; lia).
    rewrite skipn_all2 by lia. split.
    - intros E. apply Ok_inj in E. subst v. apply params_end. cbn. lia.
    - intros R. apply params_cases in R as [[_ ->]|(p & r & u & w & E & _)]; [reflexivity|discriminate]. }
  destruct (Nat.ltb_spec (pos + 1) (length buf)) as [H|H].
  2:{ split.
      - intros E. apply Ok_inj in E. subst v. apply params_end. rewrite skipn_length. lia.
      - intros R. apply params_cases in R as [[_ ->]|(p & r & u & w & E1 & _)]; [reflexivity|].
        apply (f_equal (@length N)) in E1. rewrite skipn_length in E1. cbn [length] in E1. lia. }
  assert (Bs : bytes_ok (skipn pos buf)) by now apply Forall_skipn.
  assert (Ls : length (skipn pos buf) = (length buf - pos)%nat) by apply skipn_length.
  assert (I0 : idx buf pos = idx (skipn pos buf) 0).
  { unfold idx. now rewrite nth_error_skipn, Nat.add_0_r. }
  assert (I1 : idx buf (pos + 1) = idx (skipn pos buf) 1).
  { unfold idx. now rewrite nth_error_skipn. }
  rewrite I0, I1.
  destruct (skipn pos buf) as [|t [|ol s]] eqn:Es; try (cbn in Ls; lia).
  cbn [idx nth_error bind]. destruct (N.eqb_spec t 2) as [->|Ht]; cbn [negb].
  2:{ split; [discriminate|]. intros R. apply params_cases in R as [[X _]|(p & r & u & w & E1 & _)]; [cbn in X; lia|congruence]. }
  assert (Ho : ol < 256) by exact (Forall_inv (Forall_inv_tail Bs)).
  cbn [length] in Ls.
  assert (S2 : skipn (pos + 2) buf = s) by (rewrite <- skipn_skipn', Es; reflexivity).
  destruct (Nat.le_gt_cases (N.to_nat ol) (length buf)) as [Hol|Hol].
  2:{ split.
      - intros E. apply bind_Ok_inv in E as ([v1 q] & E1 & _). exfalso.
        destruct (length buf) as [|f] eqn:Lb; [lia|]. cbn [open_caps_loop] in E1.
        destruct (N.to_nat ol) as [|n'] eqn:El; [lia|].
        apply bind_Ok_inv in E1 as (z & Ez & _). apply eslice_Ok_inv in Ez as (_ & L & _). lia.
      - intros R. apply params_cases in R as [[X _]|(p & b & v1 & v2 & E1 & _)]; [cbn in X; lia|].
        assert (E2 := f_equal (@hd N 0) (f_equal (@tl N) E1)).
        assert (E3 := f_equal (@tl N) (f_equal (@tl N) E1)). cbn [hd tl] in E2, E3.
        apply (f_equal (@length N)) in E3. rewrite app_length in E3. lia. }
  split.
  - intros E. apply bind_Ok_inv in E as ([v1 q] & E1 & E). apply bind_Ok_inv in E as (v2 & E2 & E).
    apply Ok_inj in E. subst v.
    apply caps_exact in E1; [|exact B|lia].
    assert (E3 : (pos + 2 + N.to_nat ol <= length buf)%nat /\ q = (pos + 2 + N.to_nat ol)%nat /\ caps_read (sub buf (pos + 2) (pos + 2 + N.to_nat ol)) v1).
    { destruct E1 as [(Z & -> & ->)|X]; [|exact X]. rewrite Z, Nat.add_0_r. unfold sub. rewrite Nat.sub_diag.
      split; [lia|]. split; [reflexivity|constructor]. }
    destruct E3 as (L & -> & R). apply IH in E2; [|exact B|lia|lia].
    assert (Lp : length (sub buf (pos + 2) (pos + 2 + N.to_nat ol)) = N.to_nat ol) by (rewrite length_sub by lia; lia).
    assert (X : s = sub buf (pos + 2) (pos + 2 + N.to_nat ol) ++ skipn (pos + 2 + N.to_nat ol) buf).
    { unfold sub. rewrite S2. replace (pos + 2 + N.to_nat ol - (pos + 2))%nat with (N.to_nat ol) by lia.
      rewrite <- skipn_skipn', S2. symmetry. apply firstn_skipn. }
    rewrite X. replace ol with (N.of_nat (length (sub buf (pos + 2) (pos + 2 + N.to_nat ol)))) at 1 by (rewrite Lp; apply N2Nat.id).
    apply params_more; [lia|exact R|exact E2].
  - intros R. apply params_cases in R as [[X _]|(p & b & v1 & v2 & E1 & Lp & -> & Rc & Rp)]; [cbn in X; lia|].
    assert (E2 := f_equal (@hd N 0) (f_equal (@tl N) E1)).
    assert (E3 := f_equal (@tl N) (f_equal (@tl N) E1)). cbn [hd tl] in E2, E3. rewrite E3 in S2, Ls. rewrite E2, Nat2N.id.
    assert (Sp : sub buf (pos + 2) (pos + 2 + length p) = p).
    { unfold sub. rewrite S2. replace (pos + 2 + length p - (pos + 2))%nat with (length p) by lia.
      rewrite firstn_app, Nat.sub_diag, firstn_all. cbn [firstn]. apply app_nil_r. }
    rewrite app_length in Ls.
    replace (open_caps_loop (length buf) buf (pos + 2) (length p)) with (Ok (v1, (pos + 2 + length p)%nat)).
    2:{ symmetry. apply caps_exact; [exact B|lia|]. right. rewrite Sp. split; [lia|auto]. }
    cbn [bind]. replace (open_params_loop fuel buf (pos + 2 + length p)) with (Ok v2); [reflexivity|].
    symmetry. apply IH; [exact B|lia|lia|]. rewrite <- skipn_skipn', S2, skipn_app, Nat.sub_diag, skipn_all. exact Rp.
Qed.

Lemma be2 a b : a < 256 -> b < 256 -> be_bytes 2 (be_val [a; b]) = [a; b] /\ be_val [a; b] < 2 ^ 16.
Proof.
  intros Ha Hb. assert (B : bytes_ok [a; b]) by (constructor; [exact Ha|constructor; [exact Hb|constructor]]).
  split; [apply (be_bytes_be_val [a; b] B)|apply (be_val_bound [a; b] B)].
Qed.

Lemma be4 a b c d : a < 256 -> b < 256 -> c < 256 -> d < 256 ->
  be_bytes 4 (be_val [a; b; c; d]) = [a; b; c; d] /\ be_val [a; b; c; d] < 2 ^ 32.
Proof.
  intros. assert (B : bytes_ok [a; b; c; d]) by (repeat (apply Forall_cons; [assumption|]); apply Forall_nil).
  split; [apply (be_bytes_be_val [a; b; c; d] B)|apply (be_val_bound [a; b; c; d] B)].
Qed.

Lemma open_exact self buf m : bytes_ok buf -> open_decode self buf = Ok m <-> open_reads buf m.
Proof.
  intros B. destruct (Nat.lt_ge_cases (length buf) 10) as [L|L].
  { unfold open_decode. replace (Nat.ltb (length buf) 10) with true by (symmetry; apply Nat.ltb_lt; exact L).
    split; [discriminate|]. intros (_ & _ & _ & ol & p & -> & _).
    rewrite !app_length, !length_be_bytes in L. cbn [length] in L. lia. }
  destruct buf as [|vn [|a0 [|a1 [|h0 [|h1 [|r0 [|r1 [|r2 [|r3 [|ol p]]]]]]]]]]; try (cbn in L; lia).
  assert (Bs : forall x, In x [vn; a0; a1; h0; h1; r0; r1; r2; r3; ol] -> x < 256).
  { intros x Hx. unfold bytes_ok in B. rewrite Forall_forall in B. apply B. cbn [In] in *. tauto. }
  assert (H0 := Bs a0 ltac:(cbn; tauto)). assert (H1 := Bs a1 ltac:(cbn; tauto)).
  assert (H2 := Bs h0 ltac:(cbn; tauto)). assert (H3 := Bs h1 ltac:(cbn; tauto)).
  assert (H4 := Bs r0 ltac:(cbn; tauto)). assert (H5 := Bs r1 ltac:(cbn; tauto)).
  assert (H6 := Bs r2 ltac:(cbn; tauto)). assert (H7 := Bs r3 ltac:(cbn; tauto)). clear Bs.
  assert (Pe := fun v => params_exact (length (vn :: a0 :: a1 :: h0 :: h1 :: r0 :: r1 :: r2 :: r3 :: ol :: p)) _ 10 v B L ltac:(lia)).
  cbn [skipn] in Pe.
  destruct (be2 a0 a1 H0 H1) as [Ea La]. destruct (be2 h0 h1 H2 H3) as [Eh Lh].
  destruct (be4 r0 r1 r2 r3 H4 H5 H6 H7) as [Er Lr].
  unfold open_decode.
  change (Nat.ltb (length (vn :: a0 :: a1 :: h0 :: h1 :: r0 :: r1 :: r2 :: r3 :: ol :: p)) 10) with false.
  assert (Es : eslice (vn :: a0 :: a1 :: h0 :: h1 :: r0 :: r1 :: r2 :: r3 :: ol :: p) 1
    (length (vn :: a0 :: a1 :: h0 :: h1 :: r0 :: r1 :: r2 :: r3 :: ol :: p)) =
    Ok (a0 :: a1 :: h0 :: h1 :: r0 :: r1 :: r2 :: r3 :: ol :: p)).
  { rewrite eslice_ok by lia. f_equal. unfold sub. apply firstn_all2. cbn [length]. lia. }
  rewrite Es. remember (open_params_loop (length (vn :: a0 :: a1 :: h0 :: h1 :: r0 :: r1 :: r2 :: r3 :: ol :: p))
    (vn :: a0 :: a1 :: h0 :: h1 :: r0 :: r1 :: r2 :: r3 :: ol :: p) 10) as pl eqn:Epl. clear Epl Es.
  cbn [idx nth_error bind op_as op_hold op_rid op_caps app].
  rewrite !ntoh16_read by assumption.
  change (ip4_new r0 r1 r2 r3) with (be_val [r0; r1; r2; r3]).
  destruct (N.eqb_spec vn 4) as [->|Hv]; cbn [negb].
  2:{ split; [discriminate|]. intros (_ & _ & _ & ol' & p' & E & _).
      assert (E1 := f_equal (@hd N 0) E). cbn in E1. congruence. }
  split.
  - intros E. apply bind_Ok_inv in E as (caps & Ec & E). apply Ok_inj in E. subst m.
    apply Pe in Ec. split; [exact La|]. split; [exact Lh|]. split; [exact Lr|].
    cbn [op_as op_hold op_rid op_caps]. exists ol, p. rewrite Ea, Eh, Er. split; [reflexivity|exact Ec].
  - intros (Wa & Wh & Wr & ol' & p' & E & R). destruct m as [ma mh mr mc]. cbn [op_as op_hold op_rid op_caps] in *.
    assert (E1 := f_equal (@tl N) E). change (@tl N ([4] ++ ?x)) with x in E1. cbn [tl] in E1.
    change (a0 :: a1 :: h0 :: h1 :: r0 :: r1 :: r2 :: r3 :: ol :: p) with
      ([a0; a1] ++ [h0; h1] ++ [r0; r1; r2; r3] ++ [ol] ++ p) in E1.
    rewrite <- Ea, <- Eh, <- Er in E1.
    apply app_same_len in E1 as [X1 E1]; [|now rewrite !length_be_bytes].
    apply app_same_len in E1 as [X2 E1]; [|now rewrite !length_be_bytes].
    apply app_same_len in E1 as [X3 E1]; [|now rewrite !length_be_bytes].
    apply app_same_len in E1 as [_ ->]; [|reflexivity].
    apply be_bytes_inj in X1; [|exact La|exact Wa]. apply be_bytes_inj in X2; [|exact Lh|exact Wh].
    apply be_bytes_inj in X3; [|exact Lr|exact Wr]. subst ma mh mr.
    apply Pe in R. rewrite R. reflexivity.
Qed.

Lemma notif_exact self buf m : bytes_ok buf -> notif_decode self buf = Ok m <-> notif_reads (nt_data self) buf m.
Proof.
  intros B. unfold notif_reads. destruct buf as [|c [|s r]].
  1,2: split; [discriminate|]; intros (r & E & _); discriminate.
  unfold notif_decode. change (Nat.ltb (length (c :: s :: r)) 2) with false. cbn [idx nth_error bind].
  assert (G : forall d, Ok (mkNotif c s d) = Ok m <-> exists r0, c :: s :: r = nt_code m :: nt_sub m :: r0 /\ d = nt_data m /\ r0 = r).
  { intros d. destruct m as [mc ms md]. cbn [nt_code nt_sub nt_data]. split.
    - intros E. apply Ok_inj in E. exists r. repeat split; congruence.
    - intros (r0 & E & <- & ->). congruence. }
  destruct r as [|x [|y r]].
  - change (Nat.eqb (length [c; s]) 3) with false. change (Nat.ltb 3 (length [c; s])) with false. cbn [bind]. rewrite G. split.
    + intros (r0 & E & D & ->). exists []. auto.
    + intros (r0 & E & D). exists r0. assert (X := f_equal (fun l => tl (tl l)) E). cbn [tl] in X. subst r0. auto.
  - change (Nat.eqb (length [c; s; x]) 3) with true. change (Nat.ltb 3 (length [c; s; x])) with false. cbn [bind idx nth_error]. rewrite G. split.
    + intros (r0 & E & D & ->). exists [x]. auto.
    + intros (r0 & E & D). exists r0. assert (X := f_equal (fun l => tl (tl l)) E). cbn [tl] in X. subst r0. auto.
  - change (Nat.eqb (length (c :: s :: x :: y :: r)) 3) with false. change (Nat.ltb 3 (length (c :: s :: x :: y :: r))) with true.
    cbn [bind idx nth_error].
    assert (V : N.lor (N.shiftl x 8) y = be_val [x; y]).
    { rewrite lor_shiftl; [unfold be_val; cbn [fold_left]; change (2 ^ 8) with 256; lia|]. exact (Forall_inv (Forall_inv_tail (Forall_inv_tail (Forall_inv_tail B)))). }
    rewrite V, G. split.
    + intros (r0 & E & D & ->). exists (x :: y :: r). auto.
    + intros (r0 & E & D). exists r0. assert (X := f_equal (fun l => tl (tl l)) E). cbn [tl] in X. subst r0. auto.
Qed.

Lemma buffer_exact b r n : bytes_ok b -> from_buffer b = Ok (r, n) <->
  exists code d rest, b = code :: N.of_nat (length d) :: d ++ rest /\ (length d < 256)%nat /\
    n = (2 + length d)%nat /\
    match r with
    | inl c => cap_reads code d (Some c)
    | inr (code', d') => code' = code /\ d' = d /\ cap_reads code d None
    end.
Proof.
  intros B. destruct (Nat.lt_ge_cases (length b) 2) as [L|L].
  { unfold from_buffer. replace (Nat.ltb (length b) 2) with true by (symmetry; apply Nat.ltb_lt; exact L).
    split; [discriminate|]. intros (? & ? & ? & -> & _). cbn [length] in L. lia. }
  destruct (frame_split b L B) as [(code & l & s & -> & Hl & Ls)|(code & d & s & -> & Hd & Bd & Bs)].
  { rewrite from_buffer_short by exact Ls. split; [discriminate|].
    intros (code' & d & rest & E & _).
    assert (E2 := f_equal (@hd N 0) (f_equal (@tl N) E)).
    assert (E3 := f_equal (@tl N) (f_equal (@tl N) E)). cbn [hd tl] in E2, E3.
    apply Nat2N.inj in E2. subst s. rewrite app_length in Ls. lia. }
  rewrite from_buffer_frame by exact Hd. split.
  - intros E. apply bind_Ok_inv in E as (o & Eo & E). apply cap_exact in Eo; [|exact Bd].
    exists code, d, s. split; [reflexivity|]. split; [exact Hd|].
    destruct o as [c|]; apply Ok_inj in E;
      (assert (X := f_equal fst E); assert (Y := f_equal snd E); cbn [fst snd] in X, Y; subst r n); auto.
  - intros (code' & d' & s' & E & _ & -> & R). apply frame2_inj in E as (<- & <- & <-).
    destruct r as [c|[code' d']].
    + apply cap_exact in R; [|exact Bd]. now rewrite R.
    + destruct R as (-> & -> & R). apply cap_exact in R; [|exact Bd]. now rewrite R.
Qed.
