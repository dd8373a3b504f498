(** Proofs about routes with one label entry. *)
From Verif Require Import Base BaseFacts M_Util S_Wire F_Util M_Prefix S_Prefix F_Prefix M_Nlri S_Nlri F_Nlri M_Vpls M_Cap M_Open M_Session M_Mvpn S_Mvpn M_Evpn S_Evpn M_Flowspec S_Flowspec M_Addrs S_Addrs
  M_Attr S_Attr S_Exact S_Exact2 F_Exact F_Exact2 F_Exact3 F_Exact4 M_Order S_Order F_Order S_Relabel.
Ltac Zify.zify_post_hook ::= idtac.

Lemma not_pid p afi sf bits b : check_addpath_receive p afi sf = false -> 0 < bits -> ~ asks_pid p afi sf (bits :: b).
Proof. intros C H [X|(_ & _ & r & X)]; [congruence|]. injection X as X _. clear - X H. lia. Qed.
Lemma relabel_many {T} oc (P : bit_reading T) bits b0 b1 b2 c0 c1 c2 s v n : 0 < bits -> entry_ends b0 b1 b2 -> entry_ends c0 c1 c2 ->
  many (item oc (labelled P)) (bits :: b0 :: b1 :: b2 :: s) v n ->
  exists x w, v = x :: w /\ lab_labels x = [be_val [b0; b1; b2] / 16] /\ many (item oc (labelled P)) (bits :: c0 :: c1 :: c2 :: s) (mkLab (lab_prefix x) [be_val [c0; c1; c2] / 16] :: w) n.
Proof.
  intros Hb E E' H. inversion H as [|b x k w m _ I M]; subst. destruct I as (bits' & s' & m' & X & (left & j & St & Le & Pr & ->) & ->). injection X as <- <-.
  destruct x as [px lx]. cbn [lab_labels lab_prefix] in *.
  exists (mkLab px lx), w. split; [reflexivity|]. inversion St as [b|bits' l' d0 d1 d2 r H1 U EE|bits' l' d0 d1 d2 r ls H1 U EE M']; subst; [lia| |contradiction].
  split; [reflexivity|]. cbn [length lab_prefix] in *.
  apply many_cons; [discriminate| |].
  - exists bits, (c0 :: c1 :: c2 :: s), (3 * 1 + j)%nat. split; [reflexivity|]. split; [|reflexivity]. exists left, j. cbn [lab_labels lab_prefix length].
    split; [now apply (st_last oc bits l')|]. split; [exact Le|]. split; [exact Pr|reflexivity].
  - exact M.
Qed.
Lemma relabel_family {T} oc (P : bit_reading T) plain withid p afi sf bits b0 b1 b2 c0 c1 c2 s a n : check_addpath_receive p afi sf = false -> 0 < bits -> entry_ends b0 b1 b2 -> entry_ends c0 c1 c2 ->
  (forall v w, map unlabel v = map unlabel w -> addrs_unlabel (plain v) = addrs_unlabel (plain w)) ->
  family oc (labelled P) plain withid p afi sf (bits :: b0 :: b1 :: b2 :: s) a n ->
  exists a', family oc (labelled P) plain withid p afi sf (bits :: c0 :: c1 :: c2 :: s) a' n /\ addrs_unlabel a = addrs_unlabel a'.
Proof.
  intros C Hb E E' U [[A _]|[_ (v & M & ->)]]; [now apply not_pid in A|].
  destruct (relabel_many oc P bits b0 b1 b2 c0 c1 c2 s v n Hb E E' M) as (x & w & -> & _ & M').
  eexists. split; [right; split; [now apply not_pid|]; eexists; split; [exact M'|reflexivity]|]. apply U. reflexivity.
Qed.
Lemma relabel_nlri oc p afi sf bits b0 b1 b2 c0 c1 c2 s a n : In (afi, sf) label_families -> check_addpath_receive p afi sf = false -> 0 < bits ->
  bytes_ok (bits :: b0 :: b1 :: b2 :: s) -> bytes_ok [c0; c1; c2] -> entry_ends b0 b1 b2 -> entry_ends c0 c1 c2 ->
  addrs_decode oc p afi sf (bits :: b0 :: b1 :: b2 :: s) = Ok (a, n) ->
  exists a', addrs_decode oc p afi sf (bits :: c0 :: c1 :: c2 :: s) = Ok (a', n) /\ oeq oaddrs a a' = true /\ ocmp oaddrs a a' = Eq /\ ohash oaddrs a = ohash oaddrs a'.
Proof.
  intros F C Hb B B' E E' D. apply nlri_exact_l in D; [|exact B].
  assert (Bn : bytes_ok (bits :: c0 :: c1 :: c2 :: s)).
  { inversion B as [|? ? X1 X2]; subst. inversion X2 as [|? ? _ X3]; subst. inversion X3 as [|? ? _ X4]; subst. inversion X4 as [|? ? _ X5]; subst.
    apply Forall_cons; [exact X1|]. apply (Forall_app _ [c0; c1; c2] s). now split. }
  assert (G : exists a', nlri_reads oc p afi sf (bits :: c0 :: c1 :: c2 :: s) a' n /\ addrs_unlabel a = addrs_unlabel a').
  { unfold label_families in F. cbn [In] in F. destruct F as [F|[F|[F|[F|[F|[F|[]]]]]]]; injection F as <- <-; cbn [nlri_reads] in D |- *;
      (eapply relabel_family; [exact C|exact Hb|exact E|exact E'| |exact D]); intros v w X; cbn [addrs_unlabel]; now rewrite X. }
  destruct G as (a' & G & U). exists a'. split; [now apply nlri_exact_l|]. destruct laws_addrs as [L1 L2 _ _ L5]. split; [now apply L1|]. split; [now apply L2|now apply L5].
Qed.
Lemma no_bottom_many {T} oc (P : bit_reading T) bits b0 b1 b2 s v n : 24 < bits -> bits < 256 -> ~ entry_ends b0 b1 b2 ->
  many (item oc (labelled P)) (bits :: b0 :: b1 :: b2 :: s) v n -> exists x w, v = x :: w /\ (2 <= length (lab_labels x))%nat.
Proof.
  intros Hb H8 E H. inversion H as [|b x k w m _ I M]; subst. destruct I as (bits' & s' & m' & X & (left & j & St & _) & _). injection X as <- <-.
  destruct x as [px lx]. cbn [lab_labels lab_prefix] in *.
  exists (mkLab px lx), w. split; [reflexivity|]. inversion St as [b|bits' l' d0 d1 d2 r H1 U EE|bits' l' d0 d1 d2 r ls H1 U EE M']; subst; [lia|contradiction|].
  cbn [length lab_labels].
  assert (0 < l'). { destruct U as (U1 & U2 & _). destruct (N.eq_dec l' 0) as [->|]; [|lia]. rewrite N.mod_small in U2 by lia. lia. }
  inversion M'; subst; cbn [length]; lia.
Qed.
Lemma no_bottom4 oc p bits b0 b1 b2 s a n : check_addpath_receive p 1 4 = false -> 24 < bits -> bytes_ok (bits :: b0 :: b1 :: b2 :: s) -> ~ entry_ends b0 b1 b2 ->
  addrs_decode oc p 1 4 (bits :: b0 :: b1 :: b2 :: s) = Ok (a, n) -> exists x v, a = IPV4LU (x :: v) /\ (2 <= length (lab_labels x))%nat.
Proof.
  intros C Hb B E D. apply nlri_exact_l in D; [|exact B]. cbn [nlri_reads] in D. destruct D as [[A _]|[_ (v & M & ->)]]; [apply not_pid in A; [destruct A|exact C|lia]|].
  inversion B as [|? ? X1 _]; subst. destruct (no_bottom_many oc pfx4 bits b0 b1 b2 s v n Hb X1 E M) as (x & w & -> & L). exists x, w. auto.
Qed.
Lemma no_bottom6 oc p bits b0 b1 b2 s a n : check_addpath_receive p 2 4 = false -> 24 < bits -> bytes_ok (bits :: b0 :: b1 :: b2 :: s) -> ~ entry_ends b0 b1 b2 ->
  addrs_decode oc p 2 4 (bits :: b0 :: b1 :: b2 :: s) = Ok (a, n) -> exists x v, a = IPV6LU (x :: v) /\ (2 <= length (lab_labels x))%nat.
Proof.
  intros C Hb B E D. apply nlri_exact_l in D; [|exact B]. cbn [nlri_reads] in D. destruct D as [[A _]|[_ (v & M & ->)]]; [apply not_pid in A; [destruct A|exact C|lia]|].
  inversion B as [|? ? X1 _]; subst. destruct (no_bottom_many oc pfx6 bits b0 b1 b2 s v n Hb X1 E M) as (x & w & -> & L). exists x, w. auto.
Qed.
Lemma labels_stop bits b0 b1 b2 s : 24 < bits < 48 -> b0 < 256 -> b1 < 256 -> b2 < 256 -> ~ entry_ends b0 b1 b2 -> labels_extract true bits (b0 :: b1 :: b2 :: s) = Panic.
Proof.
  intros [H1 H2] B0 B1 B2 E. unfold labels_extract. rewrite (labels_loop_step true _ bits _ 0 b0 b1 b2 s []) by (auto; lia).
  rewrite usub_ok by lia. rewrite bind_ok. cbv zeta. rewrite (entry_ends_dec b0 b1 b2 B2) in E. apply not_true_is_false, orb_false_iff in E as [-> ->].
  cbn [length Nat.add labels_loop]. assert (X : 0 <? bits - 24 = true) by (apply N.ltb_lt; lia). rewrite X.
  destruct s as [|d0 [|d1 [|d2 s]]]; try reflexivity. cbn [idx nth_error bind Nat.add].
  unfold usub. assert (Y : 24 <=? bits - 24 = false) by (apply N.leb_gt; lia). rewrite ?Y. cbn. reflexivity.
Qed.
Lemma bottom_stops p bits b0 b1 b2 s : check_addpath_receive p 1 4 = false -> 24 < bits < 48 -> b0 < 256 -> b1 < 256 -> b2 < 256 -> ~ entry_ends b0 b1 b2 ->
  addrs_decode true p 1 4 (bits :: b0 :: b1 :: b2 :: s) = Panic.
Proof.
  intros C Hb B0 B1 B2 E. unfold addrs_decode. cbn [N.eqb Pos.eqb]. unfold dec_fam.
  assert (U : use_pathid p 1 4 (bits :: b0 :: b1 :: b2 :: s) = false).
  { destruct (use_pathid _ _ _ _) eqn:X; [|reflexivity]. apply use_pid_iff in X. apply not_pid in X; [destruct X|exact C|lia]. }
  rewrite U. unfold decode_bgpitems_from. cbn [length dec_loop Nat.ltb Nat.leb]. rewrite rfrom_0, bind_ok. unfold decode_bgpitem_from at 1. cbn [idx nth_error bind].
  unfold labeled_extract at 1. change (rfrom (bits :: b0 :: b1 :: b2 :: s) 1) with (Ok (b0 :: b1 :: b2 :: s)). cbn [bind]. rewrite labels_stop by assumption. reflexivity.
Qed.
Lemma relabel_many_pid {T} oc (P : bit_reading T) pi bits b0 b1 b2 c0 c1 c2 s v n : length pi = 4%nat -> 0 < bits -> entry_ends b0 b1 b2 -> entry_ends c0 c1 c2 ->
  many_pid (item oc (labelled P)) (pi ++ bits :: b0 :: b1 :: b2 :: s) v n ->
  exists v', many_pid (item oc (labelled P)) (pi ++ bits :: c0 :: c1 :: c2 :: s) v' n /\ map pid_unlabel v = map pid_unlabel v'.
Proof.
  intros L Hb E E' H. inversion H as [b X|b i s0 x k w m X Hi _ I M]; subst; [rewrite app_length in X; cbn [length] in X; lia|].
  assert (Y : pi = be_bytes 4 i /\ bits :: b0 :: b1 :: b2 :: s = s0).
  { assert (Z := f_equal (firstn 4) X). assert (Z' := f_equal (skipn 4) X). rewrite <- L in Z at 1. rewrite <- L in Z' at 1.
    rewrite firstn_app_exact in Z by reflexivity. rewrite skipn_app_exact in Z' by reflexivity.
    rewrite firstn_app_exact in Z by (now rewrite length_be_bytes). rewrite skipn_app_exact in Z' by (now rewrite length_be_bytes). auto. }
  destruct Y as [-> <-]. destruct I as (bits' & s' & m' & X' & (left & j & St & Le & Pr & ->) & ->). injection X' as <- <-.
  destruct x as [px lx]. cbn [lab_labels lab_prefix] in *. inversion St as [b|bits' l' d0 d1 d2 r H1 U EE|bits' l' d0 d1 d2 r ls H1 U EE M']; subst; [lia| |contradiction].
  cbn [length] in *. eexists. split.
  - eapply many_pid_cons; [reflexivity|exact Hi|discriminate| |exact M].
    exists bits, (c0 :: c1 :: c2 :: s), (3 * 1 + j)%nat. split; [reflexivity|]. split; [|reflexivity]. exists left, j.
    instantiate (1 := mkLab px [be_val [c0; c1; c2] / 16]). cbn [lab_labels lab_prefix length].
    split; [now apply (st_last oc bits l')|]. split; [exact Le|]. split; [exact Pr|reflexivity].
  - reflexivity.
Qed.
Lemma relabel_family_pid {T} oc (P : bit_reading T) plain withid p afi sf pi bits b0 b1 b2 c0 c1 c2 s a n : check_addpath_receive p afi sf = true -> length pi = 4%nat -> 0 < bits -> entry_ends b0 b1 b2 -> entry_ends c0 c1 c2 ->
  (forall v w, map pid_unlabel v = map pid_unlabel w -> addrs_unlabel (withid v) = addrs_unlabel (withid w)) ->
  family oc (labelled P) plain withid p afi sf (pi ++ bits :: b0 :: b1 :: b2 :: s) a n ->
  exists a', family oc (labelled P) plain withid p afi sf (pi ++ bits :: c0 :: c1 :: c2 :: s) a' n /\ addrs_unlabel a = addrs_unlabel a'.
Proof.
  intros C L Hb E E' U [[_ (v & M & ->)]|[A _]]; [|destruct A; now left].
  destruct (relabel_many_pid oc P pi bits b0 b1 b2 c0 c1 c2 s v n L Hb E E' M) as (v' & M' & X).
  eexists. split; [left; split; [now left|]; eexists; split; [exact M'|reflexivity]|]. now apply U.
Qed.
Lemma relabel_nlri_pid oc p afi sf pi bits b0 b1 b2 c0 c1 c2 s a n : In (afi, sf) label_families -> check_addpath_receive p afi sf = true -> length pi = 4%nat -> 0 < bits ->
  bytes_ok pi -> bytes_ok (bits :: b0 :: b1 :: b2 :: s) -> bytes_ok [c0; c1; c2] -> entry_ends b0 b1 b2 -> entry_ends c0 c1 c2 ->
  addrs_decode oc p afi sf (pi ++ bits :: b0 :: b1 :: b2 :: s) = Ok (a, n) ->
  exists a', addrs_decode oc p afi sf (pi ++ bits :: c0 :: c1 :: c2 :: s) = Ok (a', n) /\ oeq oaddrs a a' = true /\ ocmp oaddrs a a' = Eq /\ ohash oaddrs a = ohash oaddrs a'.
Proof.
  intros F C L Hb Bp B B' E E' D. apply nlri_exact_l in D; [|apply Forall_app; now split].
  assert (Bn : bytes_ok (pi ++ bits :: c0 :: c1 :: c2 :: s)).
  { inversion B as [|? ? X1 X2]; subst. inversion X2 as [|? ? _ X3]; subst. inversion X3 as [|? ? _ X4]; subst. inversion X4 as [|? ? _ X5]; subst.
    apply Forall_app. split; [exact Bp|]. apply Forall_cons; [exact X1|]. apply (Forall_app _ [c0; c1; c2] s). now split. }
  assert (G : exists a', nlri_reads oc p afi sf (pi ++ bits :: c0 :: c1 :: c2 :: s) a' n /\ addrs_unlabel a = addrs_unlabel a').
  { unfold label_families in F. cbn [In] in F. destruct F as [F|[F|[F|[F|[F|[F|[]]]]]]]; injection F as <- <-; cbn [nlri_reads] in D |- *;
      (eapply relabel_family_pid; [exact C|exact L|exact Hb|exact E|exact E'| |exact D]); intros v w X; cbn [addrs_unlabel]; now rewrite X. }
  destruct G as (a' & G & U). exists a'. split; [now apply nlri_exact_l|]. destruct laws_addrs as [L1 L2 _ _ L5]. split; [now apply L1|]. split; [now apply L2|now apply L5].
Qed.
