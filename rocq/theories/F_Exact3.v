(** Proofs about what octets mean: MCAST-VPN and EVPN routes. *)
From Verif Require Import Base BaseFacts M_Util S_Wire F_Util M_Prefix S_Prefix M_Nlri S_Nlri F_Nlri F_Nlri2 M_Session M_Vpls F_Vpls M_Mvpn S_Mvpn F_Mvpn M_Evpn S_Evpn F_Evpn
  M_Cap M_Addrs S_Addrs M_Attr S_Attr S_Attr3 F_Lay F_Attr4 S_Exact F_Exact F_Exact2.
Ltac Zify.zify_post_hook ::= idtac.

(** ** MCAST-VPN *)
Lemma rd_need b : (exists x, decode_rd_from b = Ok x) -> (8 <= length b)%nat.
Proof. intros [x H]. unfold decode_rd_from in H. destruct (Nat.leb_spec 8 (length b)); [assumption|discriminate]. Qed.
Lemma check_lens_Ok b i j k : check_lens b i j k = Ok tt -> idx b i = Ok k /\ idx b j = Ok k.
Proof.
  unfold check_lens. intros H. apply bind_Ok_inv in H as (x & E1 & H). destruct (N.eqb_spec x k) as [X|]; [|discriminate]. cbn [negb] in H.
  apply bind_Ok_inv in H as (y & E2 & H). destruct (N.eqb_spec y k) as [Y|]; [|discriminate]. rewrite X in E1. rewrite Y in E2. auto.
Qed.
Ltac leb_in H := match type of H with context [Nat.leb ?k ?l] => destruct (Nat.leb_spec k l); [|discriminate H] end.
Ltac t_rd B L := let rd := fresh "rd" in let r := fresh "r" in let W := fresh "W" in let B' := fresh "B" in
  destruct (take_rd _ B ltac:(lia)) as (rd & r & -> & W & B'); flen L; clear B; rename B' into B.
Ltac t_mode m B L := let x := fresh "x" in let r := fresh "r" in let W := fresh "M" in let B' := fresh "B" in
  destruct (take_mode m _ B ltac:(cbn [ipl]; lia)) as (x & r & -> & W & B'); flen L; clear B; rename B' into B.
Ltac t_1 B L := let x := fresh "o" in let r := fresh "r" in let W := fresh "O" in let B' := fresh "B" in
  destruct (take1 _ B ltac:(lia)) as (x & r & -> & W & B'); flen L; clear B; rename B' into B.
Ltac t_be k B L := let x := fresh "v" in let r := fresh "r" in let W := fresh "V" in let B' := fresh "B" in
  destruct (take_be k _ B ltac:(lia)) as (x & r & -> & W & B'); flen L; clear B; rename B' into B.

Lemma mvpn1_exact m b r n : bytes_ok b -> mvpn1_decode m b = Ok (r, n) <-> mv_body_reads m b (MvT1 r) n.
Proof.
  intros B. cbn [mv_body_reads]. split.
  - intros H. assert (L : (8 + ipl m <= length b)%nat).
    { unfold mvpn1_decode in H. apply bind_Ok_inv in H as ([rd k] & _ & H). destruct m; leb_in H; assumption. }
    t_rd B L. t_mode m B L. assert (W' : mv_wf m (MvT1 (mkMvpn1 rd x))) by (split; assumption).
    pose proof (mvpn1_dec m (mkMvpn1 rd x) r1 W') as D. cbn [mv_body mv1_rd mv1_orig] in D. rewrite <- app_assoc in D. rewrite D in H. injection H as <- <-.
    split; [exact W'|]. split; [|reflexivity]. exists r1. cbn [mv_body mv1_rd mv1_orig]. now rewrite <- app_assoc.
  - intros (W & (s & ->) & ->). now apply mvpn1_dec.
Qed.
Lemma mvpn2_exact m b r n : bytes_ok b -> mvpn2_decode b = Ok (r, n) <-> mv_body_reads m b (MvT2 r) n.
Proof.
  intros B. cbn [mv_body_reads]. split.
  - intros H. assert (L : (12 <= length b)%nat).
    { unfold mvpn2_decode in H. leb_in H; assumption. }
    t_rd B L. t_be 4%nat B L. assert (W' : mv_wf m (MvT2 (mkMvpn2 rd v))) by (split; assumption).
    pose proof (mvpn2_dec m (mkMvpn2 rd v) r1 W') as D. cbn [mv_body mv2_rd mv2_asn] in D. rewrite <- app_assoc in D. rewrite D in H. injection H as <- <-.
    split; [exact W'|]. split; [|reflexivity]. exists r1. cbn [mv_body mv2_rd mv2_asn]. now rewrite <- app_assoc.
  - intros (W & (s & ->) & ->). now apply (mvpn2_dec m).
Qed.
Lemma mode_bits m x : of_mode m x -> ip_bits x = match m with ModeV4 => 32 | ModeV6 => 128 end.
Proof. destruct m, x; cbn; intros H; try contradiction; reflexivity. Qed.
Lemma mv3_exact m b r n : bytes_ok b -> mvpn3_decode m b = Ok (r, n) <-> mv3_wf m r /\ (exists s, b = mv3_body r ++ s) /\ n = length (mv3_body r).
Proof.
  intros B. split.
  - intros H. assert (L : (10 + 3 * ipl m <= length b)%nat /\ check_lens b 8 (9 + ipl m) (match m with ModeV4 => 32 | ModeV6 => 128 end) = Ok tt).
    { unfold mvpn3_decode in H. apply bind_Ok_inv in H as ([rd k] & _ & H). destruct m; leb_in H; (split; [cbn [ipl]; lia|]);
      apply bind_Ok_inv in H as ([] & C & _); exact C. }
    destruct L as [L C]. apply check_lens_Ok in C as [C1 C2].
    t_rd B L. t_1 B L. t_mode m B L. t_1 B L. t_mode m B L. t_mode m B L. 
    pose proof (mode_len m x M) as Lx.
    rewrite (idx_peel _ _ 8) in C1, C2 by (auto using rd_len; lia). change (8 - 8)%nat with 0%nat in C1. injection C1 as C1.
    rewrite (idx_peel _ _ 1) in C2 by (auto; lia). rewrite (idx_peel _ _ _ _ Lx) in C2 by lia. replace (9 + ipl m - 8 - 1 - ipl m)%nat with 0%nat in C2 by lia. injection C2 as C2.
    assert (W' : mv3_wf m (mkMvpn3 rd x x0 x1)) by (split; [assumption|]; repeat (split; [assumption|]); assumption).
    pose proof (mvpn3_dec m (mkMvpn3 rd x x0 x1) r1 W') as D.
    assert (EB : rd_wire rd ++ [o] ++ ip_bytes x ++ [o0] ++ ip_bytes x0 ++ ip_bytes x1 ++ r1 = mv3_body (mkMvpn3 rd x x0 x1) ++ r1).
    { unfold mv3_body, lip. cbn [mv3_rd mv3_source mv3_group mv3_orig]. rewrite (mode_bits m x), (mode_bits m x0) by assumption. rewrite C1, C2. cbn [app].
      repeat (rewrite <- app_assoc; cbn [app]). reflexivity. }
    rewrite EB, D in H. injection H as <- <-. split; [exact W'|]. split; [|reflexivity]. exists r1. exact EB.
  - intros (W & (s & ->) & ->). now apply mvpn3_dec.
Qed.
Lemma mvpn67_exact m b r n : bytes_ok b -> mvpn67_decode m b = Ok (r, n) <-> mv67_wf m r /\ (exists s, b = mv67_body r ++ s) /\ n = length (mv67_body r).
Proof.
  intros B. split.
  - intros H. assert (L : (14 + 2 * ipl m <= length b)%nat /\ check_lens b 12 (13 + ipl m) (match m with ModeV4 => 32 | ModeV6 => 128 end) = Ok tt).
    { unfold mvpn67_decode in H. apply bind_Ok_inv in H as ([rd k] & _ & H). destruct m; leb_in H; (split; [cbn [ipl]; lia|]);
      apply bind_Ok_inv in H as ([] & C & _); exact C. }
    destruct L as [L C]. apply check_lens_Ok in C as [C1 C2].
    t_rd B L. t_be 4%nat B L. t_1 B L. t_mode m B L. t_1 B L. t_mode m B L. 
    pose proof (mode_len m x M) as Lx.
    rewrite (idx_peel _ _ 8) in C1, C2 by (auto using rd_len; lia). rewrite (idx_peel _ _ 4) in C1, C2 by (auto using length_be_bytes; lia).
    change (12 - 8 - 4)%nat with 0%nat in C1. injection C1 as C1.
    rewrite (idx_peel _ _ 1) in C2 by (auto; lia). rewrite (idx_peel _ _ _ _ Lx) in C2 by lia. replace (13 + ipl m - 8 - 4 - 1 - ipl m)%nat with 0%nat in C2 by lia. injection C2 as C2.
    assert (W' : mv67_wf m (mkMvpn67 rd v x x0)) by (split; [assumption|]; repeat (split; [assumption|]); assumption).
    pose proof (mvpn67_dec m (mkMvpn67 rd v x x0) r1 W') as D.
    assert (EB : rd_wire rd ++ be_bytes 4 v ++ [o] ++ ip_bytes x ++ [o0] ++ ip_bytes x0 ++ r1 = mv67_body (mkMvpn67 rd v x x0) ++ r1).
    { unfold mv67_body, lip. cbn [mv67_rd mv67_asn mv67_rp mv67_group]. rewrite (mode_bits m x), (mode_bits m x0) by assumption. rewrite C1, C2. cbn [app].
      repeat (rewrite <- app_assoc; cbn [app]). reflexivity. }
    rewrite EB, D in H. injection H as <- <-. split; [exact W'|]. split; [|reflexivity]. exists r1. exact EB.
  - intros (W & (s & ->) & ->). now apply mvpn67_dec.
Qed.
Lemma mvpn5_exact m b r n : bytes_ok b -> mvpn5_decode m b = Ok (r, n) <-> mv_body_reads m b (MvT5 r) n.
Proof.
  intros B. cbn [mv_body_reads]. split.
  - intros H. destruct m.
    + assert (L : (18 <= length b)%nat /\ check_lens b 8 13 32 = Ok tt).
      { unfold mvpn5_decode in H. apply bind_Ok_inv in H as ([rd k] & _ & H). leb_in H; split; [assumption|].
        apply bind_Ok_inv in H as ([] & C & _); exact C. }
      destruct L as [L C]. apply check_lens_Ok in C as [C1 C2].
      t_rd B L. t_1 B L. t_mode ModeV4 B L. t_1 B L. t_mode ModeV4 B L.
      pose proof (mode_len _ x M) as Lx. cbn [ipl] in Lx.
      rewrite (idx_peel _ _ 8) in C1, C2 by (auto using rd_len; lia). change (8 - 8)%nat with 0%nat in C1. injection C1 as C1.
      rewrite (idx_peel _ _ 1) in C2 by (auto; lia). rewrite (idx_peel _ _ _ _ Lx) in C2 by lia. change (13 - 8 - 1 - 4)%nat with 0%nat in C2. injection C2 as C2.
      assert (W' : mv_wf ModeV4 (MvT5 (mkMvpn5 rd x x0))) by (split; [assumption|]; repeat (split; [assumption|]); assumption).
      pose proof (mvpn5_dec (mkMvpn5 rd x x0) r0 W') as D.
      assert (EB : rd_wire rd ++ [o] ++ ip_bytes x ++ [o0] ++ ip_bytes x0 ++ r0 = mv_body (MvT5 (mkMvpn5 rd x x0)) ++ r0).
      { cbn [mv_body mv5_rd mv5_source mv5_group]. unfold lip. rewrite (mode_bits _ x M), (mode_bits _ x0 M0). rewrite C1, C2. cbn [app].
        repeat (rewrite <- app_assoc; cbn [app]). reflexivity. }
      rewrite EB, D in H. injection H as <- <-. split; [reflexivity|]. split; [exact W'|]. split; [|reflexivity]. exists r0. exact EB.
    + exfalso. unfold mvpn5_decode in H. apply bind_Ok_inv in H as ([rd k] & _ & H). leb_in H.
      apply bind_Ok_inv in H as ([] & _ & H). apply bind_Ok_inv in H as (s & A & _). apply addr_at_len in A. destruct s; cbn [ip_bytes] in A; rewrite length_be_bytes in A; discriminate.
  - intros (-> & W & (s & ->) & ->). now apply mvpn5_dec.
Qed.
Lemma mvpn4_exact m b r n : bytes_ok b -> mvpn4_decode m b = Ok (r, n) <-> mv_body_reads m b (MvT4 r) n.
Proof.
  intros B. cbn [mv_body_reads]. split.
  - intros H. unfold mvpn4_decode in H. destruct b as [|x [|y s]]; try discriminate.
    + cbn in H. destruct (negb (x =? 3)); discriminate.
    + rewrite idx_0, bind_ok in H. destruct (N.eqb_spec x 3) as [->|]; [|discriminate]. cbn [negb] in H. rewrite idx_1, bind_ok in H.
      destruct (N.eqb_spec y 22) as [->|]; [|discriminate]. cbn [negb] in H. change (rfrom (3 :: 22 :: s) 2) with (Ok s : res (list N)) in H. rewrite bind_ok in H.
      apply Forall_inv_tail, Forall_inv_tail in B. destruct (mvpn3_decode m s) as [[sp k]| | |] eqn:E; try discriminate.
      apply mv3_exact in E as (W & (t & ->) & ->); [|exact B]. change (3 :: 22 :: mv3_body sp ++ t) with ([3; 22] ++ mv3_body sp ++ t) in H. rewrite (rfrom_peel [3; 22] _ 2) in H by (auto; lia). replace (2 + length (mv3_body sp) - 2)%nat with (length (mv3_body sp)) in H by lia.
      rewrite (rfrom_peel _ _ _ _ eq_refl) in H by lia. rewrite Nat.sub_diag, rfrom_0, bind_ok in H. apply bind_Ok_inv in H as (o & D & H). injection H as <- <-.
      apply bytes_app in B as [_ B]. apply decode_addr_inv in D as [D1 D2]; [|exact B]. cbn [mv4_spmsi mv4_orig]. split; [exact W|]. split; [exact D1|]. split; [|reflexivity]. rewrite D2. reflexivity.
  - intros (W & Wo & -> & ->). destruct r as [sp o]. cbn [mv4_spmsi mv4_orig] in *. unfold mvpn4_decode. cbn [app]. rewrite idx_0, bind_ok, idx_1, bind_ok.
    change (negb (3 =? 3)) with false. change (negb (22 =? 22)) with false. cbn iota. 
    change (3 :: 22 :: mv3_body sp ++ ip_bytes o) with ([3; 22] ++ mv3_body sp ++ ip_bytes o).
    rewrite (rfrom_peel [3; 22] (mv3_body sp ++ ip_bytes o) 2) by (auto; lia). change (2 - 2)%nat with 0%nat. rewrite rfrom_0, bind_ok, mvpn3_dec by exact W.
    rewrite (rfrom_peel [3; 22] (mv3_body sp ++ ip_bytes o) 2) by (auto; lia). replace (2 + length (mv3_body sp) - 2)%nat with (length (mv3_body sp)) by lia.
    rewrite (rfrom_peel _ _ _ _ eq_refl) by lia. rewrite Nat.sub_diag, rfrom_0, bind_ok, decode_addr_be, bind_ok by exact Wo. reflexivity.
Qed.

Lemma take_body t l s : bytes_ok (t :: l :: s) -> (N.to_nat l <= length s)%nat -> exists body rest, s = body ++ rest /\ l = N.of_nat (length body) /\ (length body < 256)%nat /\ bytes_ok body.
Proof.
  intros B L. pose proof (Forall_inv (Forall_inv_tail B)) as Hl. unfold is_byte in Hl. apply Forall_inv_tail, Forall_inv_tail in B.
  destruct (take_raw _ s B L) as (body & rest & -> & Lb & Bb & _). exists body, rest. split; [reflexivity|]. split; [lia|]. split; [lia|exact Bb].
Qed.
Lemma mv_exact m : step_exact (mvpn_decode m) (mv_reads m).
Proof.
  intros b r n B. split.
  - intros H. destruct b as [|t [|l s]]; try discriminate. unfold mvpn_decode in H. rewrite idx_0, bind_ok, idx_1, bind_ok in H. cbv zeta in H.
    assert (A : forall T (dec : list N -> res (T * nat)) wrap, mvpn_arm dec wrap (t :: l :: s) (N.to_nat l) = Ok (r, n) ->
      exists body rest x k, s = body ++ rest /\ l = N.of_nat (length body) /\ (length body < 256)%nat /\ bytes_ok body /\ dec body = Ok (x, k) /\ r = wrap x /\ n = (k + 2)%nat).
    { intros T dec wrap X. assert (L : (N.to_nat l <= length s)%nat).
      { unfold mvpn_arm in X. apply bind_Ok_inv in X as (d & R & _). apply rslice_Ok_inv in R as (_ & L & _). cbn [length] in L. lia. }
      destruct (take_body t l s B L) as (body & rest & -> & -> & Lb & Bb). rewrite Nat2N.id, mvpn_arm_wire in X. apply bind_Ok_inv in X as ([x k] & E & X). injection X as <- <-.
      exists body, rest, x, k. repeat split; auto. }
    destruct (N.eqb_spec t 1) as [->|_]; [|destruct (N.eqb_spec t 2) as [->|_]; [|destruct (N.eqb_spec t 3) as [->|_]; [|destruct (N.eqb_spec t 4) as [->|_];
      [|destruct (N.eqb_spec t 5) as [->|_]; [|destruct (N.eqb_spec t 6) as [->|_]; [|destruct (N.eqb_spec t 7) as [->|_]; [|discriminate]]]]]]];
    apply A in H as (body & rest & x & k & -> & -> & Lb & Bb & E & -> & ->); exists body, rest, k; (split; [reflexivity|]); (split; [exact Lb|]); (split; [|reflexivity]).
    + now apply mvpn1_exact.
    + now apply mvpn2_exact.
    + now apply mv3_exact.
    + now apply mvpn4_exact.
    + now apply mvpn5_exact.
    + now apply mvpn67_exact.
    + now apply mvpn67_exact.
  - intros (body & rest & k & -> & Lb & R & ->). apply Forall_inv_tail, Forall_inv_tail, bytes_app in B as [B _]. rewrite mvpn_decode_wire.
    destruct r as [x|x|x|x|x|x|x].
    + apply mvpn1_exact in R; [|exact B]. now rewrite R, bind_ok.
    + apply mvpn2_exact in R; [|exact B]. now rewrite R, bind_ok.
    + apply mv3_exact in R; [|exact B]. now rewrite R, bind_ok.
    + apply mvpn4_exact in R; [|exact B]. now rewrite R, bind_ok.
    + apply mvpn5_exact in R; [|exact B]. now rewrite R, bind_ok.
    + apply mvpn67_exact in R; [|exact B]. now rewrite R, bind_ok.
    + apply mvpn67_exact in R; [|exact B]. now rewrite R, bind_ok.
Qed.
Lemma mv_advances m : advances (mv_reads m).
Proof. intros b r n (body & rest & k & _ & _ & _ & ->). lia. Qed.

(** ** EVPN *)
Lemma labels_at_exact oc (pre s : list N) p ls n : bytes_ok s -> length pre = p ->
  labels_at oc (pre ++ s) p = Ok (ls, n) <-> ev_labels oc s ls /\ n = (3 * length ls)%nat.
Proof.
  intros B Lp. unfold labels_at, ev_labels. destruct (Nat.ltb_spec (length (pre ++ s)) p) as [X|_]; [rewrite app_length in X; lia|].
  rewrite (rfrom_peel _ _ _ _ Lp) by lia. rewrite Nat.sub_diag, rfrom_0, bind_ok.
  replace (cast 8 (8 * N.of_nat (length (pre ++ s) - p))) with (8 * N.of_nat (length s) mod 256) by (unfold cast; change (2 ^ 8) with 256; rewrite app_length; do 2 f_equal; lia).
  apply labels_exact; [apply N.mod_lt; discriminate|exact B].
Qed.
Definition head1 (rd : bgpRD) (et : N) (e : esi) (tag : N) : list N := rd_wire rd ++ ([et] ++ e) ++ be_bytes 4 tag.
Lemma head1_len rd et e tag : length e = 9%nat -> length (head1 rd et e tag) = 22%nat.
Proof. intros H. unfold head1. rewrite !app_length, rd_len, length_be_bytes, H. reflexivity. Qed.
Lemma esi_read_all t e r : length e = 9%nat -> esi_read (([t] ++ e) ++ r) = Ok (t, e).
Proof. intros H. rewrite <- app_assoc. now apply esi_read_app. Qed.
Lemma evpn1_eq oc rd et e tag s : rd_wf rd -> length e = 9%nat -> tag < 2 ^ 32 ->
  evpn1_decode oc (rd_wire rd ++ ([et] ++ e) ++ be_bytes 4 tag ++ s) =
  ('(ls, n) <- labels_at oc (head1 rd et e tag ++ s) 22 ;; Ok (mkEvpn1 rd et e tag ls, (22 + n)%nat)).
Proof.
  intros W E H. unfold evpn1_decode, u32_at. rewrite decode_rd_wire, bind_ok by exact W. cbn [Nat.add].
  assert (L10 : length ([et] ++ e) = 10%nat) by (rewrite app_length, E; reflexivity).
  run. rewrite esi_read_all by exact E. run. unfold head1. rewrite <- !app_assoc. reflexivity.
Qed.
Lemma head1_app rd et e tag s : head1 rd et e tag ++ s = rd_wire rd ++ [et] ++ e ++ be_bytes 4 tag ++ s.
Proof. unfold head1. now rewrite <- !app_assoc. Qed.
Ltac ex_rest B := lazymatch type of B with bytes_ok ?r => exists r end.
Ltac t_esi B L := let et := fresh "et" in let e := fresh "e" in let r := fresh "r" in let W := fresh "E" in let Wt := fresh "T" in let Be := fresh "Be" in let B' := fresh "B" in
  destruct (take1 _ B ltac:(lia)) as (et & ? & -> & Wt & B'); flen L; clear B; rename B' into B;
  destruct (take_raw 9 _ B ltac:(lia)) as (e & r & -> & W & Be & B'); flen L; clear B; rename B' into B.
Lemma evpn1_exact oc b r n : bytes_ok b -> evpn1_decode oc b = Ok (r, n) <-> ev_body_reads oc b (Ev1 r) n.
Proof.
  intros B. cbn [ev_body_reads]. split.
  - intros H. assert (L : (22 <= length b)%nat).
    { unfold evpn1_decode in H. apply bind_Ok_inv in H as ([rd p] & D & H). assert (p = 8%nat) as ->.
      { unfold decode_rd_from in D. leb_in D. repeat binv D. now injection D. }
      binv H. apply bind_Ok_inv in H as ([et e] & _ & H). binv H. apply bind_Ok_inv in H as ([ls k] & A & _). unfold labels_at in A.
      destruct (Nat.ltb_spec (length b) (8 + 14)); [discriminate|lia]. }
    t_rd B L. t_esi B L. t_be 4%nat B L. rewrite (app_assoc [et] e) in H. rewrite evpn1_eq in H by assumption.
    apply bind_Ok_inv in H as ([ls k] & A & H). apply labels_at_exact in A as [A ->]; [|exact B|now apply head1_len]. injection H as <- <-. ex_rest B. cbn [ev1_rd ev1_esi_type ev1_esi ev1_tag ev1_labels].
    split; [reflexivity|]. split; [exact W|]. split; [split; [exact T|split; assumption]|]. split; [assumption|]. split; [exact A|reflexivity].
  - intros (s & -> & W & (T & E & Be) & Ht & St & ->). do 4 apply bytes_app in B as [_ B]. rewrite (app_assoc [_] _). rewrite evpn1_eq by assumption.
    rewrite (proj2 (labels_at_exact oc _ s 22 (ev1_labels r) (3 * length (ev1_labels r)) B (head1_len _ _ _ _ E))) by auto. destruct r; reflexivity.
Qed.
Definition ip_of (at_ : N) (t : list N) (p : nat) : res (option ipaddr * nat) :=
  if at_ =? 0 then Ok (None, p) else if at_ =? 32 then a <- decode_addrv4_from t ;; Ok (Some (IPv4 a), (p + 4)%nat)
  else if at_ =? 128 then a <- decode_addrv6_from t ;; Ok (Some (IPv6 a), (p + 16)%nat) else Err EOther.
Definition head2 (rd : bgpRD) (et : N) (e : esi) (tag ml : N) (m : list N) : list N := head1 rd et e tag ++ [ml] ++ m.
Lemma evpn2_eq oc rd et e tag ml m at_ t : rd_wf rd -> length e = 9%nat -> tag < 2 ^ 32 -> length m = 6%nat ->
  evpn2_decode oc (rd_wire rd ++ ([et] ++ e) ++ be_bytes 4 tag ++ [ml] ++ m ++ [at_] ++ t) =
  (if negb (ml =? 48) then Err EOther else '(ip, sz) <- ip_of at_ t 30 ;;
   '(ls, n) <- labels_at oc (head2 rd et e tag ml m ++ [at_] ++ t) sz ;; Ok (mkEvpn2 rd et e tag (rev m) ip ls, (sz + n)%nat)).
Proof.
  intros W E H Lm. unfold evpn2_decode, u32_at, v4_at, v6_at. rewrite decode_rd_wire, bind_ok by exact W. cbn [Nat.add].
  assert (L10 : length ([et] ++ e) = 10%nat) by (rewrite app_length, E; reflexivity).
  run. rewrite esi_read_all by exact E. run. change (idx ([ml] ++ m ++ [at_] ++ t) 0) with (Ok ml : res N). rewrite bind_ok. destruct (negb (ml =? 48)); [reflexivity|].
  run. change (idx ([at_] ++ t) 0) with (Ok at_ : res N).
  assert (M : mac_from_network_bytes m = Ok (rev m)). { do 7 (destruct m as [|? m]; try discriminate Lm). reflexivity. } rewrite M. run.
  replace (rd_wire rd ++ ([et] ++ e) ++ be_bytes 4 tag ++ [ml] ++ m ++ [at_] ++ t) with (head2 rd et e tag ml m ++ [at_] ++ t)
    by (unfold head2, head1; now rewrite <- !app_assoc).
  unfold ip_of. destruct (at_ =? 0); [reflexivity|]. destruct (at_ =? 32); [destruct (decode_addrv4_from t); reflexivity|].
  destruct (at_ =? 128); [destruct (decode_addrv6_from t); reflexivity|reflexivity].
Qed.
Lemma rd_pos b rd p : decode_rd_from b = Ok (rd, p) -> p = 8%nat.
Proof. unfold decode_rd_from. intros D. leb_in D. repeat binv D. now injection D. Qed.
Lemma ip_of_exact at_ t p o q : bytes_ok t -> ip_of at_ t p = Ok (o, q) <->
  exists s, [at_] ++ t = mac_ip o ++ s /\ bytes_ok s /\ match o with None => True | Some a => ip_wf a end /\ q = (p + length (mac_ip o) - 1)%nat.
Proof.
  intros B. unfold ip_of. split.
  - intros H. destruct (N.eqb_spec at_ 0) as [->|_]; [|destruct (N.eqb_spec at_ 32) as [->|_]; [|destruct (N.eqb_spec at_ 128) as [->|_]; [|discriminate]]].
    + injection H as <- <-. exists t. cbn. repeat split; auto. lia.
    + apply bind_Ok_inv in H as (a & D & H). injection H as <- <-. pose proof (dec4_len _ _ D) as L. destruct (take_be 4 t B L) as (v & r & -> & Hv & Br).
      rewrite decode_addrv4_be in D by exact Hv. apply Ok_inj in D. subst v. exists r. split; [reflexivity|]. split; [exact Br|]. split; [exact Hv|]. cbn. lia.
    + apply bind_Ok_inv in H as (a & D & H). injection H as <- <-. pose proof (dec6_len _ _ D) as L. destruct (take_be 16 t B L) as (v & r & -> & Hv & Br).
      rewrite decode_addrv6_be in D by exact Hv. apply Ok_inj in D. subst v. exists r. split; [reflexivity|]. split; [exact Br|]. split; [exact Hv|]. cbn. lia.
  - intros (s & E & Bs & W & ->). destruct o as [[a|a]|]; unfold mac_ip, lip in E; cbn [ip_bits ip_bytes app] in E; pose proof (f_equal (@hd N 0) E) as E0; pose proof (f_equal (@tl N) E) as E1; cbn [hd tl] in E0, E1; subst at_ t; clear E.
    + change (32 =? 0) with false. change (32 =? 32) with true. cbn iota. rewrite decode_addrv4_be, bind_ok by exact W. do 2 f_equal. cbn. lia.
    + change (128 =? 0) with false. change (128 =? 32) with false. change (128 =? 128) with true. cbn iota. rewrite decode_addrv6_be, bind_ok by exact W. do 2 f_equal. cbn. lia.
    + change (0 =? 0) with true. cbn iota. do 2 f_equal. cbn. lia.
Qed.
Lemma head2_len rd et e tag ml m : length e = 9%nat -> length m = 6%nat -> length (head2 rd et e tag ml m) = 29%nat.
Proof. intros H1 H2. unfold head2. rewrite !app_length, head1_len, H2 by exact H1. reflexivity. Qed.
Lemma mac_rev m : length m = 6%nat -> bytes_ok m -> mac_wf (rev m).
Proof. intros L B. split; [now rewrite rev_length|]. now apply Forall_rev. Qed.
Lemma mac_ip_pos o : (1 <= length (mac_ip o))%nat.
Proof. destruct o as [[]|]; cbn; lia. Qed.
Lemma evpn2_exact oc b r n : bytes_ok b -> evpn2_decode oc b = Ok (r, n) <-> ev_body_reads oc b (Ev2 r) n.
Proof.
  intros B. cbn [ev_body_reads]. split.
  - intros H. assert (L : (30 <= length b)%nat).
    { unfold evpn2_decode in H. apply bind_Ok_inv in H as ([rd p] & D & H). apply rd_pos in D as ->.
      binv H. apply bind_Ok_inv in H as ([et e] & _ & H). do 2 binv H. destruct (negb _); [discriminate|]. do 2 binv H. apply bind_Ok_inv in H as (at_ & A & _). apply idx_lt in A. lia. }
    t_rd B L. t_esi B L. t_be 4%nat B L. t_1 B L. destruct (take_raw 6 _ B ltac:(lia)) as (m & r' & -> & Lm & Bm & B'); flen L; clear B; rename B' into B. t_1 B L.
    rewrite (app_assoc [et] e) in H. rewrite evpn2_eq in H by assumption. destruct (N.eqb_spec o 48) as [->|]; [|discriminate]. cbn [negb] in H.
    apply bind_Ok_inv in H as ([ip sz] & I & H). apply ip_of_exact in I as (s & Es & Bs & Wi & ->); [|exact B]. rewrite Es in H.
    apply bind_Ok_inv in H as ([ls k] & A & H). rewrite app_assoc in A.
    apply labels_at_exact in A as [A ->]; [|exact Bs|rewrite app_length, head2_len by assumption; pose proof (mac_ip_pos ip); lia]. injection H as <- <-. exists s.
    cbn [ev2_rd ev2_esi_type ev2_esi ev2_tag ev2_labels ev2_mac ev2_ip]. rewrite rev_involutive, Es.
    split; [reflexivity|]. split; [exact W|]. split; [split; [exact T|split; assumption]|]. split; [assumption|]. split; [now apply mac_rev|]. split; [exact Wi|]. split; [exact A|]. 
    pose proof (mac_ip_pos ip). lia.
  - intros (s & -> & W & (T & E & Be) & Ht & (Lm & Bm) & Wi & St & ->). do 6 apply bytes_app in B as [_ B]. pose proof B as Bs. apply bytes_app in Bs as [_ Bs].
    rewrite (app_assoc [ev2_esi_type r] _). destruct (take1 _ B) as (at_ & t & E1 & _ & Bt); [rewrite app_length; pose proof (mac_ip_pos (ev2_ip r)); lia|].
    rewrite E1, evpn2_eq by (auto; now rewrite rev_length). change (negb (48 =? 48)) with false. cbn iota.
    rewrite (proj2 (ip_of_exact at_ t 30 (ev2_ip r) (30 + length (mac_ip (ev2_ip r)) - 1) Bt)) by (exists s; rewrite E1; auto). rewrite bind_ok, <- E1, app_assoc.
    rewrite (proj2 (labels_at_exact oc (head2 (ev2_rd r) (ev2_esi_type r) (ev2_esi r) (ev2_tag r) 48 (rev (ev2_mac r)) ++ mac_ip (ev2_ip r)) s (30 + length (mac_ip (ev2_ip r)) - 1) (ev2_labels r) (3 * length (ev2_labels r)) Bs
      ltac:(rewrite app_length, head2_len by (auto; now rewrite rev_length); pose proof (mac_ip_pos (ev2_ip r)); lia))) by auto.
    rewrite bind_ok. rewrite rev_involutive. pose proof (mac_ip_pos (ev2_ip r)). destruct r as [q1 q2 q3 q4 q5 q6 q7]; cbn [ev2_rd ev2_esi_type ev2_esi ev2_tag ev2_labels ev2_mac ev2_ip] in *. do 2 f_equal; lia.
Qed.
Definition ip_at (l : N) (t : list N) (p : nat) : res (ipaddr * nat) :=
  if l =? 32 then a <- decode_addrv4_from t ;; Ok (IPv4 a, (p + 4)%nat) else if l =? 128 then a <- decode_addrv6_from t ;; Ok (IPv6 a, (p + 16)%nat) else Err EOther.
Lemma ip_at_exact l t p a q : bytes_ok t -> ip_at l t p = Ok (a, q) <-> ip_wf a /\ (exists s, [l] ++ t = lip a ++ s) /\ q = (p + length (lip a) - 1)%nat.
Proof.
  intros B. split.
  - intros H. assert (X : ip_of l t p = Ok (Some a, q)).
    { unfold ip_of, ip_at in *. destruct (N.eqb_spec l 0) as [->|_]; [discriminate|]. destruct (l =? 32); [|destruct (l =? 128); [|discriminate]];
      apply bind_Ok_inv in H as (v & -> & H); injection H as <- <-; reflexivity. }
    apply ip_of_exact in X as (s & E & _ & W & ->); [|exact B]. split; [exact W|]. split; [now exists s|reflexivity].
  - intros (W & (s & E) & ->). assert (X : ip_of l t p = Ok (Some a, (p + length (lip a) - 1)%nat)).
    { apply ip_of_exact; [exact B|]. exists s. split; [exact E|]. split; [|split; [exact W|reflexivity]]. unfold lip in E. cbn [app] in E. injection E as _ ->. now apply bytes_app in B as [_ B]. }
    unfold ip_of, ip_at in *. destruct (N.eqb_spec l 0) as [->|_]; [discriminate|]. destruct (l =? 32); [|destruct (l =? 128); [|discriminate]];
      apply bind_Ok_inv in X as (v & -> & X); injection X as <- _; rewrite bind_ok; do 2 f_equal; cbn; lia.
Qed.
Lemma evpn3_eq rd tag l t : rd_wf rd -> tag < 2 ^ 32 ->
  evpn3_decode (rd_wire rd ++ be_bytes 4 tag ++ [l] ++ t) = ('(a, q) <- ip_at l t 13 ;; Ok (mkEvpn3 rd tag a, q)).
Proof.
  intros W H. unfold evpn3_decode, u32_at, v4_at, v6_at. rewrite decode_rd_wire, bind_ok by exact W. cbn [Nat.add]. run.
  change (idx ([l] ++ t) 0) with (Ok l : res N). rewrite bind_ok. run. unfold ip_at. destruct (l =? 32); [destruct (decode_addrv4_from t); reflexivity|].
  destruct (l =? 128); [destruct (decode_addrv6_from t); reflexivity|reflexivity].
Qed.
Lemma evpn3_exact oc b r n : bytes_ok b -> evpn3_decode b = Ok (r, n) <-> ev_body_reads oc b (Ev3 r) n.
Proof.
  intros B. cbn [ev_body_reads]. split.
  - intros H. assert (L : (13 <= length b)%nat).
    { unfold evpn3_decode in H. apply bind_Ok_inv in H as ([rd p] & D & H). apply rd_pos in D as ->. binv H. apply bind_Ok_inv in H as (l & A & _). apply idx_lt in A. lia. }
    t_rd B L. t_be 4%nat B L. t_1 B L. rewrite evpn3_eq in H by assumption. apply bind_Ok_inv in H as ([a q] & I & H). injection H as <- <-.
    apply ip_at_exact in I as (Wa & (s & Es) & ->); [|exact B]. cbn [ev3_rd ev3_tag ev3_ip]. rewrite Es. split; [now exists s|]. repeat (split; [assumption|]). unfold lip. cbn [length]. lia.
  - intros ((s & ->) & W & Ht & Wa & ->). do 2 apply bytes_app in B as [_ B]. destruct (take1 _ B) as (at_ & t & E1 & _ & Bt); [cbn; lia|].
    rewrite E1, evpn3_eq by assumption. rewrite (proj2 (ip_at_exact at_ t 13 (ev3_ip r) (13 + length (lip (ev3_ip r)) - 1) Bt)) by (split; [exact Wa|]; split; [now exists s|reflexivity]).
    rewrite bind_ok. destruct r as [q1 q2 q3]; cbn [ev3_rd ev3_tag ev3_ip] in *. do 2 f_equal; unfold lip; cbn [length]; lia.
Qed.
Lemma evpn4_eq rd et e l t : rd_wf rd -> length e = 9%nat ->
  evpn4_decode (rd_wire rd ++ ([et] ++ e) ++ [l] ++ t) = ('(a, q) <- ip_at l t 19 ;; Ok (mkEvpn4 rd et e a, q)).
Proof.
  intros W E. unfold evpn4_decode, u32_at, v4_at, v6_at. rewrite decode_rd_wire, bind_ok by exact W. cbn [Nat.add].
  assert (L10 : length ([et] ++ e) = 10%nat) by (rewrite app_length, E; reflexivity). run. rewrite esi_read_all by exact E. run.
  change (idx ([l] ++ t) 0) with (Ok l : res N). rewrite bind_ok. run. unfold ip_at. destruct (l =? 32); [destruct (decode_addrv4_from t); reflexivity|].
  destruct (l =? 128); [destruct (decode_addrv6_from t); reflexivity|reflexivity].
Qed.
Lemma evpn4_exact oc b r n : bytes_ok b -> evpn4_decode b = Ok (r, n) <-> ev_body_reads oc b (Ev4 r) n.
Proof.
  intros B. cbn [ev_body_reads]. split.
  - intros H. assert (L : (19 <= length b)%nat).
    { unfold evpn4_decode in H. apply bind_Ok_inv in H as ([rd p] & D & H). apply rd_pos in D as ->. binv H. apply bind_Ok_inv in H as ([et e] & _ & H). apply bind_Ok_inv in H as (l & A & _). apply idx_lt in A. lia. }
    t_rd B L. t_esi B L. t_1 B L. rewrite (app_assoc [et] e) in H. rewrite evpn4_eq in H by assumption. apply bind_Ok_inv in H as ([a q] & I & H). injection H as <- <-.
    apply ip_at_exact in I as (Wa & (s & Es) & ->); [|exact B]. cbn [ev4_rd ev4_esi_type ev4_esi ev4_ip]. rewrite Es. split; [now exists s|]. split; [exact W|].
    split; [split; [exact T|split; assumption]|]. split; [exact Wa|]. unfold lip. cbn [length]. lia.
  - intros ((s & ->) & W & (T & E & Be) & Wa & ->). do 3 apply bytes_app in B as [_ B]. destruct (take1 _ B) as (at_ & t & E1 & _ & Bt); [cbn; lia|].
    rewrite (app_assoc [ev4_esi_type r] _). rewrite E1, evpn4_eq by assumption. rewrite (proj2 (ip_at_exact at_ t 19 (ev4_ip r) (19 + length (lip (ev4_ip r)) - 1) Bt)) by (split; [exact Wa|]; split; [now exists s|reflexivity]).
    rewrite bind_ok. destruct r as [q1 q2 q3 q4]; cbn [ev4_rd ev4_esi_type ev4_esi ev4_ip] in *. do 2 f_equal; unfold lip; cbn [length]; lia.
Qed.
Definition head5 (rd : bgpRD) (et : N) (e : esi) (tag l : N) : list N := head1 rd et e tag ++ [l].
Lemma evpn5_eq oc rd et e tag l a t g u s : rd_wf rd -> length e = 9%nat -> tag < 2 ^ 32 -> a < 2 ^ 32 -> g < 2 ^ 32 -> length s = 3%nat ->
  (length t = 0%nat /\ length u = 0%nat \/ length t = 12%nat /\ length u = 12%nat) ->
  evpn5_decode oc (rd_wire rd ++ ([et] ++ e) ++ be_bytes 4 tag ++ [l] ++ be_bytes 4 a ++ t ++ be_bytes 4 g ++ u ++ s) =
  ('(ls, n) <- labels_at oc ((head5 rd et e tag l ++ be_bytes 4 a ++ t ++ be_bytes 4 g ++ u) ++ s) (31 + length t + length u) ;;
   Ok (mkEvpn5 rd et e tag l (IPv4 a) (IPv4 g) ls, (31 + length t + length u + n)%nat)).
Proof.
  intros W E H Ha Hg Ls C. unfold evpn5_decode, u32_at, v4_at. rewrite decode_rd_wire, bind_ok by exact W. cbn [Nat.add].
  assert (L10 : length ([et] ++ e) = 10%nat) by (rewrite app_length, E; reflexivity).
  assert (LT : length (rd_wire rd ++ ([et] ++ e) ++ be_bytes 4 tag ++ [l] ++ be_bytes 4 a ++ t ++ be_bytes 4 g ++ u ++ s) = (34 + length t + length u)%nat).
  { rewrite !app_length, rd_len, !length_be_bytes, Ls, E. cbn [length]. lia. }
  run. rewrite esi_read_all by exact E. run. rewrite LT.
  replace (rd_wire rd ++ ([et] ++ e) ++ be_bytes 4 tag ++ [l] ++ be_bytes 4 a ++ t ++ be_bytes 4 g ++ u ++ s) with
    ((head5 rd et e tag l ++ be_bytes 4 a ++ t ++ be_bytes 4 g ++ u) ++ s) by (unfold head5, head1; now rewrite <- !app_assoc).
  change (idx ([l] ++ be_bytes 4 a ++ t ++ be_bytes 4 g ++ u ++ s) 0) with (Ok l : res N). rewrite bind_ok.
  destruct C as [[C1 C2]|[C1 C2]]; rewrite C1, C2; cbn [Nat.add Nat.eqb].
  - destruct t; [|discriminate C1]. destruct u; [|discriminate C2]. cbn [app]. run. reflexivity.
  - run. reflexivity.
Qed.
Lemma head5_len rd et e tag l a t g u : length e = 9%nat -> length (head5 rd et e tag l ++ be_bytes 4 a ++ t ++ be_bytes 4 g ++ u) = (31 + length t + length u)%nat.
Proof. intros H. unfold head5. rewrite !app_length, head1_len, !length_be_bytes by exact H. cbn [length]. lia. Qed.
Lemma evpn5_exact oc b r n : bytes_ok b -> evpn5_decode oc b = Ok (r, n) <-> ev_body_reads oc b (Ev5 r) n.
Proof.
  intros B. cbn [ev_body_reads]. split.
  - intros H. assert (C : (length b = 34 + 0 + 0 \/ length b = 34 + 12 + 12)%nat).
    { destruct (evpn5_inv oc b r n B H) as (_ & C & _). exact C. }
    assert (X : exists z, (z = 0 \/ z = 12)%nat /\ length b = (34 + z + z)%nat) by (destruct C as [C|C]; [exists 0%nat|exists 12%nat]; auto). clear C. destruct X as (z & Z & L).
    assert (L0 : (34 + z + z <= length b)%nat) by lia.
    t_rd B L0. t_esi B L0. t_be 4%nat B L0. t_1 B L0. t_be 4%nat B L0.
    destruct (take_raw z _ B ltac:(lia)) as (t & r' & -> & Lt & Bt & B'); flen L0; clear B; rename B' into B. t_be 4%nat B L0.
    destruct (take_raw z _ B ltac:(lia)) as (u & s & -> & Lu & Bu & B'); flen L0; clear B; rename B' into B.
    assert (Ls : length s = 3%nat). { rewrite !app_length, rd_len, !length_be_bytes, Lt, Lu, E in L. cbn [length] in L. lia. }
    rewrite (app_assoc [et] e) in H. rewrite evpn5_eq in H by (auto; destruct Z as [->| ->]; auto).
    apply bind_Ok_inv in H as ([ls k] & A & H). apply labels_at_exact in A as [A ->]; [|exact B|now apply head5_len]. injection H as <- <-.
    exists v0, v1, t, u, s. cbn [ev5_rd ev5_esi_type ev5_esi ev5_tag ev5_len ev5_prefix ev5_gw ev5_labels]. split; [reflexivity|].
    split. { destruct Z as [->| ->]; [left|right; auto]. destruct t; [|discriminate]. destruct u; [|discriminate]. auto. }
    split; [exact Ls|]. split; [exact W|]. split; [split; [exact T|split; assumption]|]. split; [exact V|]. split; [exact O|]. split; [exact V0|]. split; [exact V1|].
    split; [reflexivity|]. split; [reflexivity|]. split; [exact A|]. rewrite L, Lt, Lu. lia.
  - intros (a & g & t & u & s & -> & C & Ls & W & (T & E & Be) & Ht & Hl & Ha & Hg & E1 & E2 & St & ->).
    assert (C' : length t = 0%nat /\ length u = 0%nat \/ length t = 12%nat /\ length u = 12%nat) by (destruct C as [[-> ->]|C]; auto).
    rewrite (app_assoc [ev5_esi_type r] _). rewrite evpn5_eq by assumption. do 9 apply bytes_app in B as [_ B].
    rewrite (proj2 (labels_at_exact oc _ s _ (ev5_labels r) (3 * length (ev5_labels r)) B (head5_len _ _ _ _ _ _ _ _ _ E))) by auto. rewrite bind_ok.
    destruct r as [q1 q2 q3 q4 q5 q6 q7 q8]. cbn [ev5_rd ev5_esi_type ev5_esi ev5_tag ev5_len ev5_prefix ev5_gw ev5_labels] in *. subst q6 q7.
    do 2 f_equal. rewrite !app_length, rd_len, !length_be_bytes, Ls, E. cbn [length]. lia.
Qed.
Lemma ev_exact oc : step_exact (evpn_decode oc) (ev_reads oc).
Proof.
  intros b r n B. split.
  - intros H. destruct b as [|t [|l s]]; try discriminate. unfold evpn_decode in H. rewrite idx_0, bind_ok, idx_1, bind_ok in H. cbv zeta in H.
    destruct (Nat.ltb_spec (length (t :: l :: s)) (N.to_nat l + 2)) as [|L]; [discriminate|]. cbn [length] in L.
    destruct (take_body t l s B ltac:(lia)) as (body & rest & -> & -> & Lb & Bb). rewrite Nat2N.id in H.
    exists body, rest. 
    destruct (N.eqb_spec t 1) as [->|_]; [|destruct (N.eqb_spec t 2) as [->|_]; [|destruct (N.eqb_spec t 3) as [->|_]; [|destruct (N.eqb_spec t 4) as [->|_];
      [|destruct (N.eqb_spec t 5) as [->|_]; [|discriminate]]]]];
    rewrite evpn_arm_wire in H; apply bind_Ok_inv in H as ([x k] & E & H); injection H as <- <-; exists k; (split; [reflexivity|]); (split; [exact Lb|]); (split; [|reflexivity]).
    + now apply evpn1_exact.
    + now apply evpn2_exact.
    + now apply evpn3_exact.
    + now apply evpn4_exact.
    + now apply evpn5_exact.
  - intros (body & rest & k & -> & Lb & R & ->). apply Forall_inv_tail, Forall_inv_tail, bytes_app in B as [B _]. rewrite evpn_decode_wire.
    destruct r as [x|x|x|x|x].
    + apply evpn1_exact in R; [|exact B]. now rewrite R, bind_ok.
    + apply evpn2_exact in R; [|exact B]. now rewrite R, bind_ok.
    + apply evpn3_exact in R; [|exact B]. now rewrite R, bind_ok.
    + apply evpn4_exact in R; [|exact B]. now rewrite R, bind_ok.
    + apply evpn5_exact in R; [|exact B]. now rewrite R, bind_ok.
Qed.
Lemma ev_advances oc : advances (ev_reads oc).
Proof. intros b r n (body & rest & k & _ & _ & _ & ->). lia. Qed.
