(** Proofs about joined lists of routes. *)
From Verif Require Import Base BaseFacts M_Util S_Wire F_Util M_Prefix S_Prefix M_Nlri S_Nlri F_Nlri M_Vpls M_Cap M_Open M_Session M_Mvpn S_Mvpn M_Evpn S_Evpn M_Flowspec S_Flowspec M_Addrs S_Addrs
  M_Attr M_Update S_Exact F_Attr4 F_Exact F_Exact2 F_Exact3 F_Exact4 S_Join.
Ltac Zify.zify_post_hook ::= idtac.

(** ** The loops, one step at a time *)
Definition dec_all {T} (step : list N -> res (T * nat)) b := dec_loop step (S (length b)) b 0.
Definition moves {T} (step : list N -> res (T * nat)) : Prop := forall s x k, bytes_ok s -> step s = Ok (x, k) -> (1 <= k)%nat.
Lemma dec_shift {T} (step : list N -> res (T * nat)) : forall fuel buf p q,
  dec_loop step fuel buf (p + q) = ('(v, n) <- dec_loop step fuel (skipn p buf) q ;; Ok (v, (p + n)%nat)).
Proof.
  induction fuel as [|fuel IH]; intros buf p q; [reflexivity|]. cbn [dec_loop]. rewrite skipn_length.
  destruct (Nat.ltb_spec (p + q) (length buf)), (Nat.ltb_spec q (length buf - p)); try lia; [|reflexivity].
  rewrite !rfrom_ok, !bind_ok by (rewrite ?skipn_length; lia). rewrite skipn_skipn'. replace (q + p)%nat with (p + q)%nat by lia.
  destruct (step (skipn (p + q) buf)) as [[x n]|e| |]; try reflexivity. rewrite !bind_ok. rewrite <- Nat.add_assoc, IH.
  destruct (dec_loop step fuel (skipn p buf) (q + n)) as [[v m]|e| |]; reflexivity.
Qed.
Lemma dec_fuel {T} (step : list N -> res (T * nat)) : moves step -> forall f g buf, bytes_ok buf -> (length buf < f)%nat -> (length buf < g)%nat ->
  dec_loop step f buf 0 = dec_loop step g buf 0.
Proof.
  intros M. induction f as [|f IH]; intros g buf B L1 L2; [lia|]. destruct g as [|g]; [lia|]. cbn [dec_loop].
  destruct (Nat.ltb_spec 0 (length buf)) as [H|H]; [|reflexivity]. rewrite rfrom_0, !bind_ok.
  destruct (step buf) as [[x k]|e| |] eqn:E; try reflexivity. rewrite !bind_ok. apply M in E; [|exact B].
  replace (0 + k)%nat with (k + 0)%nat by lia. rewrite !dec_shift.
  rewrite (IH g); [reflexivity| |rewrite skipn_length; lia|rewrite skipn_length; lia]. now apply Forall_skipn.
Qed.
Lemma dec_all_step {T} (step : list N -> res (T * nat)) b : moves step -> bytes_ok b -> b <> [] ->
  dec_all step b = ('(x, k) <- step b ;; '(v, n) <- dec_all step (skipn k b) ;; Ok (x :: v, (k + n)%nat)).
Proof.
  intros M B H. unfold dec_all at 1. cbn [dec_loop]. destruct (Nat.ltb_spec 0 (length b)) as [L|L]; [|destruct b; [contradiction|cbn in L; lia]].
  rewrite rfrom_0, bind_ok. destruct (step b) as [[x k]|e| |] eqn:E; try reflexivity. rewrite !bind_ok. apply M in E; [|exact B].
  replace (0 + k)%nat with (k + 0)%nat by lia. rewrite dec_shift. unfold dec_all.
  rewrite (dec_fuel step M (length b) (S (length (skipn k b)))); [|now apply Forall_skipn|rewrite skipn_length; lia|rewrite skipn_length; lia].
  destruct (dec_loop step (S (length (skipn k b))) (skipn k b) 0) as [[v m]|e| |]; reflexivity.
Qed.

(** ** Readings only look ahead as far as they have to *)
Definition local {T} (P : reading T) : Prop := forall b x k c, P b x k -> P (b ++ c) x k.
Definition local_bits {T} (P : bit_reading T) : Prop := forall oc bits b x k c, P oc bits b x k -> P oc bits (b ++ c) x k.
Lemma stack_local oc bits b ls c : stack_of oc bits b ls -> stack_of oc bits (b ++ c) ls.
Proof. induction 1; cbn [app]; [constructor|econstructor; eauto|econstructor; eauto]. Qed.
Lemma pfx4_local : local_bits pfx4.
Proof. intros oc bits b x k c (A & B & C & D & s & r & -> & E & F). rewrite <- app_assoc. repeat (split; [assumption|]). exists s, (r ++ c). auto. Qed.
Lemma pfx6_local : local_bits pfx6.
Proof. intros oc bits b x k c (A & B & C & D & s & r & -> & E & F). rewrite <- app_assoc. repeat (split; [assumption|]). exists s, (r ++ c). auto. Qed.
Lemma skipn_front {A} n (b c : list A) : (n <= length b)%nat -> skipn n (b ++ c) = skipn n b ++ c.
Proof. intros H. rewrite skipn_app. replace (n - length b)%nat with 0%nat by lia. reflexivity. Qed.
Lemma labelled_local {T} (P : bit_reading T) : local_bits P -> local_bits (labelled P).
Proof.
  intros L oc bits b x k c (l & m & St & U & H & ->). pose proof (stack_length _ _ _ _ St) as K. exists l, m. split; [now apply stack_local|]. split; [exact U|]. split; [|reflexivity].
  rewrite skipn_front by exact K. now apply L.
Qed.
Lemma distinguished_local {T} (P : bit_reading T) : local_bits P -> local_bits (distinguished P).
Proof.
  intros L oc bits b x k c (l & r & m & -> & W & U & H & ->). exists l, (r ++ c), m. rewrite <- app_assoc. split; [reflexivity|]. split; [exact W|]. split; [exact U|]. split; [now apply L|reflexivity].
Qed.
Lemma mdt4_local : local_bits mdt4.
Proof.
  intros oc bits b x k c (l & m & r & E & P & H & G & ->). pose proof (pfx4_within _ _ _ _ _ P) as K. exists l, m, (r ++ c).
  split; [exact E|]. split; [now apply pfx4_local|]. split; [|auto]. now rewrite skipn_front, H, <- app_assoc.
Qed.
Lemma mdt6_local : local_bits mdt6.
Proof.
  intros oc bits b x k c (l & m & r & E & E' & P & H & G & ->). pose proof (pfx6_within _ _ _ _ _ P) as K. exists l, m, (r ++ c).
  split; [exact E|]. split; [exact E'|]. split; [now apply pfx6_local|]. split; [|auto]. now rewrite skipn_front, H, <- app_assoc.
Qed.
Lemma item_local {T} oc (P : bit_reading T) : local_bits P -> local (item oc P).
Proof. intros L b x k c (bits & s & m & -> & H & ->). exists bits, (s ++ c), m. split; [reflexivity|]. split; [now apply L|reflexivity]. Qed.
Lemma vpls_local oc : local (vpls_reads oc).
Proof. intros b x k c (d & s & r & -> & H). exists d, s, (r ++ c). split; [now rewrite <- !app_assoc|exact H]. Qed.
Lemma mv_local m : local (mv_reads m).
Proof. intros b x k c (d & r & j & -> & H). exists d, (r ++ c), j. split; [|exact H]. cbn [app]. now rewrite <- app_assoc. Qed.
Lemma ev_local oc : local (ev_reads oc).
Proof. intros b x k c (d & r & j & -> & H). exists d, (r ++ c), j. split; [|exact H]. cbn [app]. now rewrite <- app_assoc. Qed.
Lemma fs_local {T} (P : reading T) : local (fs_reads P).
Proof.
  intros b x k c (h & body & j & (r & R) & H). exists h, body, j. split; [|exact H]. exists (r ++ c).
  destruct R as [(E & L & ->)|(E & hi & lo & H1 & H2 & H3 & ->)]; [left|right]; (split; [exact E|]).
  - split; [exact L|]. cbn [app]. now rewrite <- app_assoc.
  - exists hi, lo. repeat (split; [assumption|]). cbn [app]. now rewrite <- app_assoc.
Qed.

(** ** Joining *)
Lemma many_end {T} (P : reading T) b v n : many P b v n -> (length b <= n)%nat.
Proof. induction 1 as [|b x k v n Hb H M IH]; [cbn; lia|]. rewrite skipn_length in IH. lia. Qed.
Lemma many_join {T} (step : list N -> res (T * nat)) P b1 v1 n1 b2 : step_exact step P -> advances P -> local P -> bytes_ok b1 -> bytes_ok b2 -> many P b1 v1 n1 ->
  dec_all step (b1 ++ b2) = ('(v, n) <- dec_all step (skipn (n1 - length b1) b2) ;; Ok (v1 ++ v, (n1 + n)%nat)).
Proof.
  intros E A L B1 B2 M. assert (Mv : moves step) by (intros s x k B X; apply E in X; [now apply A in X|exact B]).
  induction M as [|b x k v n Hb H M IH].
  - cbn [app length Nat.sub skipn Nat.add]. destruct (dec_all step b2) as [[v n]|e| |]; reflexivity.
  - rewrite dec_all_step; [|exact Mv|now apply Forall_app|destruct b; [contradiction|discriminate]].
    rewrite (proj2 (E (b ++ b2) x k ltac:(now apply Forall_app)) (L _ _ _ b2 H)), bind_ok.
    destruct (Nat.le_gt_cases k (length b)) as [K|K].
    + rewrite skipn_front by exact K. rewrite IH by now apply Forall_skipn. rewrite skipn_length. pose proof (many_end _ _ _ _ M) as X. rewrite skipn_length in X.
      replace (k + n - length b)%nat with (n - (length b - k))%nat by lia.
      destruct (dec_all step (skipn (n - (length b - k)) b2)) as [[w m]|e| |]; try reflexivity. rewrite !bind_ok. cbn [app]. do 2 f_equal. lia.
    + rewrite (skipn_all2 b) in M by lia. inversion M as [Z1 Z2 Z3|b' x' k' v' n' Hb']; subst; [|contradiction].
      rewrite skipn_app, skipn_all2 by lia. cbn [app]. replace (k + 0 - length b)%nat with (k - length b)%nat by lia.
      destruct (dec_all step (skipn (k - length b) b2)) as [[w m]|e| |]; try reflexivity. rewrite !bind_ok. do 2 f_equal. lia.
Qed.

(** with path identifiers *)
Definition pid_all {T} oc (ex : extractor T) b := dec_pathid_loop oc ex (S (length b)) b 0.
Lemma pid_shift {T} oc (ex : extractor T) : forall fuel buf p q,
  dec_pathid_loop oc ex fuel buf (p + q) = ('(v, n) <- dec_pathid_loop oc ex fuel (skipn p buf) q ;; Ok (v, (p + n)%nat)).
Proof.
  induction fuel as [|fuel IH]; intros buf p q; [reflexivity|]. cbn [dec_pathid_loop]. rewrite skipn_length.
  destruct (Nat.ltb_spec (p + q + 4) (length buf)), (Nat.ltb_spec (q + 4) (length buf - p)); try lia; [|reflexivity].
  rewrite !rfrom_ok, !bind_ok by (rewrite ?skipn_length; lia). rewrite skipn_skipn'. replace (q + p)%nat with (p + q)%nat by lia.
  destruct (getn_u32 (skipn (p + q) buf)) as [i|e| |]; try reflexivity. rewrite !bind_ok.
  rewrite ?bind_ok, ?skipn_skipn'. replace (p + (q + 4))%nat with (p + q + 4)%nat by lia.
  destruct (decode_bgpitem_from oc ex (skipn (p + q + 4) buf)) as [[x n]|e| |]; try reflexivity. rewrite !bind_ok.
  replace (p + q + 4 + n)%nat with (p + (q + 4 + n))%nat by lia. rewrite IH.
  destruct (dec_pathid_loop oc ex fuel (skipn p buf) (q + 4 + n)) as [[v m]|e| |]; reflexivity.
Qed.
Lemma pid_fuel {T} oc (ex : extractor T) : forall f g buf, bytes_ok buf -> (length buf < f)%nat -> (length buf < g)%nat ->
  dec_pathid_loop oc ex f buf 0 = dec_pathid_loop oc ex g buf 0.
Proof.
  induction f as [|f IH]; intros g buf B L1 L2; [lia|]. destruct g as [|g]; [lia|]. cbn [dec_pathid_loop].
  destruct (Nat.ltb_spec (0 + 4) (length buf)) as [H|H]; [|reflexivity]. rewrite rfrom_0, !bind_ok.
  destruct (getn_u32 buf) as [i|e| |]; try reflexivity. rewrite !bind_ok.
  destruct (rfrom buf (0 + 4)) as [s|e| |]; try reflexivity. rewrite !bind_ok.
  destruct (decode_bgpitem_from oc ex s) as [[x k]|e| |] eqn:E; try reflexivity. rewrite !bind_ok.
  replace (0 + 4 + k)%nat with (4 + k + 0)%nat by lia. rewrite !pid_shift.
  rewrite (IH g); [reflexivity| |rewrite skipn_length; lia|rewrite skipn_length; lia]. now apply Forall_skipn.
Qed.
Lemma pid_all_step {T} oc (ex : extractor T) i s : bytes_ok s -> i < 2 ^ 32 -> s <> [] ->
  pid_all oc ex (be_bytes 4 i ++ s) = ('(x, k) <- decode_bgpitem_from oc ex s ;; '(v, n) <- pid_all oc ex (skipn k s) ;; Ok (mkPid i x :: v, (4 + k + n)%nat)).
Proof.
  intros B Hi H. assert (L : (1 <= length s)%nat) by (destruct s; [contradiction|cbn; lia]).
  unfold pid_all at 1. cbn [dec_pathid_loop]. rewrite app_length, length_be_bytes. destruct (Nat.ltb_spec (0 + 4) (4 + length s)) as [K|K]; [|lia].
  rewrite rfrom_0, bind_ok, getn_u32_be, bind_ok by exact Hi. rewrite rfrom_ok, bind_ok by (rewrite app_length, length_be_bytes; lia).
  change (skipn (0 + 4) (be_bytes 4 i ++ s)) with s. destruct (decode_bgpitem_from oc ex s) as [[x k]|e| |] eqn:E; try reflexivity. rewrite !bind_ok.
  replace (0 + 4 + k)%nat with (4 + k + 0)%nat by lia. rewrite pid_shift.
  assert (X4 : skipn (4 + k) (be_bytes 4 i ++ s) = skipn k s) by (rewrite <- skipn_skipn'; reflexivity). rewrite X4.
  unfold pid_all. rewrite (pid_fuel oc ex (4 + length s) (S (length (skipn k s)))); [|now apply Forall_skipn|rewrite skipn_length; lia|rewrite skipn_length; lia].
  destruct (dec_pathid_loop oc ex (S (length (skipn k s))) (skipn k s) 0) as [[v m]|e| |]; reflexivity.
Qed.
Lemma pid_join {T} oc (ex : extractor T) P b1 v1 n1 b2 : step_exact (decode_bgpitem_from oc ex) P -> local P -> (forall s x k, bytes_ok s -> P s x k -> (k <= length s)%nat) ->
  bytes_ok b1 -> bytes_ok b2 -> many_pid P b1 v1 n1 -> n1 = length b1 ->
  pid_all oc ex (b1 ++ b2) = ('(v, n) <- pid_all oc ex b2 ;; Ok (v1 ++ v, (n1 + n)%nat)).
Proof.
  intros E L W B1 B2 M. induction M as [b Hb|b i s x k v n Eb Hi Hs H M IH]; intros EN.
  - destruct b; [|discriminate]. cbn [app]. destruct (pid_all oc ex b2) as [[v n]|e| |]; reflexivity.
  - subst b. apply bytes_app in B1 as [_ B1]. pose proof (W _ _ _ B1 H) as K. rewrite app_length, length_be_bytes in EN.
    rewrite <- app_assoc, pid_all_step; [|now apply Forall_app|exact Hi|destruct s; [contradiction|discriminate]].
    rewrite (proj2 (E (s ++ b2) x k ltac:(now apply Forall_app)) (L _ _ _ b2 H)), bind_ok.
    rewrite skipn_front by exact K. rewrite IH; [|now apply Forall_skipn|rewrite skipn_length; lia].
    destruct (pid_all oc ex b2) as [[w m]|e| |]; try reflexivity. rewrite !bind_ok. cbn [app]. do 2 f_equal. lia.
Qed.

(** ** Every family *)
Lemma after_wrap {T} (wr : list T -> addrs) (v1 : list T) n1 (part whole : res (list T * nat)) :
  (forall v w, addrs_join (wr v) (wr w) = Some (wr (v ++ w))) ->
  whole = ('(v, n) <- part ;; Ok (v1 ++ v, (n1 + n)%nat)) ->
  comes_after (wr v1) n1 ('(v, n) <- part ;; Ok (wr v, n)) ('(v, n) <- whole ;; Ok (wr v, n)).
Proof.
  intros J ->. destruct part as [[v n]|e| |]; cbn [bind]; (split; [intros a m; split|split; [intros e'; split|split; split]]); try discriminate; auto.
  - intros H. injection H as <- <-. exists (wr v), n. auto.
  - intros (a2 & n2 & H & Ja & ->). injection H as <- <-. rewrite J in Ja. now injection Ja as <-.
  - intros (a2 & n2 & H & _). discriminate.
  - intros (a2 & n2 & H & _). discriminate.
  - intros (a2 & n2 & H & _). discriminate.
Qed.
Lemma list_join {T} (step : list N -> res (T * nat)) P (wr : list T -> addrs) b1 b2 a1 n1 : step_exact step P -> advances P -> local P -> bytes_ok b1 -> bytes_ok b2 ->
  (forall v w, addrs_join (wr v) (wr w) = Some (wr (v ++ w))) -> dec_wrap (dec_all step b1) wr = Ok (a1, n1) ->
  (length b1 <= n1)%nat /\ comes_after a1 n1 (dec_wrap (dec_all step (skipn (n1 - length b1) b2)) wr) (dec_wrap (dec_all step (b1 ++ b2)) wr).
Proof.
  intros E A L B1 B2 J H. unfold dec_wrap in *. apply bind_Ok_inv in H as ([v k] & X & H). injection H as <- <-.
  apply (items_exact step P) in X; auto. split; [exact (many_end _ _ _ _ X)|]. apply after_wrap; [exact J|]. now apply (many_join step P).
Qed.
Lemma family_join {T} oc (ex : extractor T) P (wr : list T -> addrs) wp p afi sf b1 b2 a1 n1 : ex_exact ex P -> ex_within P -> local_bits P -> bytes_ok b1 -> bytes_ok b2 ->
  (forall v w, addrs_join (wr v) (wr w) = Some (wr (v ++ w))) -> (forall v w, addrs_join (wp v) (wp w) = Some (wp (v ++ w))) ->
  (asks_pid p afi sf b1 <-> asks_pid p afi sf (b1 ++ b2)) /\ (asks_pid p afi sf b2 <-> asks_pid p afi sf (b1 ++ b2)) ->
  dec_fam oc ex wr wp p afi sf b1 = Ok (a1, n1) -> n1 = length b1 ->
  comes_after a1 n1 (dec_fam oc ex wr wp p afi sf b2) (dec_fam oc ex wr wp p afi sf (b1 ++ b2)).
Proof.
  intros E W L B1 B2 J Jp [F1 F2] H N. rewrite <- !use_pid_iff in F1, F2. unfold dec_fam in *.
  assert (U1 : use_pathid p afi sf b1 = use_pathid p afi sf (b1 ++ b2)) by (destruct (use_pathid p afi sf b1), (use_pathid p afi sf (b1 ++ b2)); intuition congruence).
  assert (U2 : use_pathid p afi sf b2 = use_pathid p afi sf (b1 ++ b2)) by (destruct (use_pathid p afi sf b2), (use_pathid p afi sf (b1 ++ b2)); intuition congruence).
  rewrite U1 in H. rewrite U2. destruct (use_pathid p afi sf (b1 ++ b2)).
  - apply bind_Ok_inv in H as ([v k] & X & H). injection H as <- ->.
    unfold decode_pathid_bgpitems_from in X. apply (pid_loop_exact oc ex (item oc P)) in X as (m & -> & M);
      [|now apply item_exact|apply item_advances|exact B1|lia|lia|now apply item_within].
    cbn [Nat.add skipn] in *. apply after_wrap; [exact Jp|]. apply (pid_join oc ex (item oc P)); auto; [now apply item_exact|now apply item_local|now apply item_within].
  - apply bind_Ok_inv in H as ([v k] & X & H). injection H as <- ->. apply (items_exact _ (item oc P)) in X; [|now apply item_exact|apply item_advances|exact B1].
    apply after_wrap; [exact J|]. change (decode_bgpitems_from oc ex) with (dec_all (decode_bgpitem_from oc ex)).
    rewrite (many_join _ (item oc P) b1 v n1 b2); auto; [|now apply item_exact|apply item_advances|now apply item_local].
    rewrite N, Nat.sub_diag. reflexivity.
Qed.
Lemma routes_join oc p afi sf b1 b2 a1 n1 : bytes_ok b1 -> bytes_ok b2 -> addrs_decode oc p afi sf b1 = Ok (a1, n1) -> (length b1 <= n1)%nat ->
  same_form p afi sf b1 b2 ->
  comes_after a1 n1 (addrs_decode oc p afi sf (skipn (n1 - length b1) b2)) (addrs_decode oc p afi sf (b1 ++ b2)).
Proof.
  intros B1 B2 D LN F.
  assert (FJ : forall T (ex : extractor T) P wr wp, ex_exact ex P -> ex_within P -> local_bits P ->
    (forall v w, addrs_join (wr v) (wr w) = Some (wr (v ++ w))) -> (forall v w, addrs_join (wp v) (wp w) = Some (wp (v ++ w))) ->
    ~ In (afi, sf) no_pids -> dec_fam oc ex wr wp p afi sf b1 = Ok (a1, n1) ->
    comes_after a1 n1 (dec_fam oc ex wr wp p afi sf (skipn (n1 - length b1) b2)) (dec_fam oc ex wr wp p afi sf (b1 ++ b2))).
  { intros T ex P wr wp E W L J Jp NI H. destruct F as [F|F]; [contradiction|].
    assert (n1 = length b1) as EN.
    { apply (family_exact oc ex P wr wp) in H; [|assumption..]. destruct H as [(_ & v & M & _)|(_ & v & M & _)].
      - assert (X : forall b u m, bytes_ok b -> many_pid (item oc P) b u m -> (m <= length b)%nat).
        { clear - W. intros b u m B M. induction M as [|b i s x k v n -> Hi Hs Q M IH]; [lia|]. apply bytes_app in B as [_ B]. pose proof (item_within oc P W _ _ _ B Q) as K.
          rewrite app_length, length_be_bytes. rewrite skipn_length in IH. specialize (IH ltac:(now apply Forall_skipn)). lia. }
        apply X in M; [lia|exact B1].
      - assert (X : forall b u m, bytes_ok b -> many (item oc P) b u m -> (m <= length b)%nat).
        { clear - W. intros b u m B M. induction M as [|b x k v n Hb Q M IH]; [lia|]. pose proof (item_within oc P W _ _ _ B Q) as K.
          rewrite skipn_length in IH. specialize (IH ltac:(now apply Forall_skipn)). lia. }
        apply X in M; [lia|exact B1]. }
    replace (n1 - length b1)%nat with 0%nat by lia. cbn [skipn]. now apply (family_join oc ex P). }
  assert (LJ : forall T (step : list N -> res (T * nat)) P wr, step_exact step P -> advances P -> local P -> (forall v w, addrs_join (wr v) (wr w) = Some (wr (v ++ w))) ->
    dec_wrap (dec_all step b1) wr = Ok (a1, n1) -> comes_after a1 n1 (dec_wrap (dec_all step (skipn (n1 - length b1) b2)) wr) (dec_wrap (dec_all step (b1 ++ b2)) wr)).
  { intros T step P wr E A L J H. now apply (list_join step P). }
  assert (X4 := pfx4_exact). assert (X6 := pfx6_exact). assert (W4 := pfx4_within). assert (W6 := pfx6_within). assert (L4 := pfx4_local). assert (L6 := pfx6_local).
  unfold addrs_decode in *. unfold decode_bgpaddritems_from, decode_long_bgpitems_from in *.
  destruct (N.eqb_spec afi 1) as [->|A1]; [|destruct (N.eqb_spec afi 2) as [->|A2]; [|destruct (N.eqb_spec afi 25) as [->|A3]; [|discriminate]]].
  - repeat match type of D with (if ?c =? ?k then _ else _) = _ => destruct (N.eqb_spec c k) as [->|?] end; [..|discriminate].
    + apply (FJ _ _ pfx4); auto. cbn; intuition discriminate.
    + apply (FJ _ _ pfx4); auto. cbn; intuition discriminate.
    + apply (FJ _ _ (labelled pfx4)); auto; [now apply labelled_exact|now apply labelled_within|now apply labelled_local|cbn; intuition discriminate].
    + apply (LJ _ _ (mv_reads ModeV4)); auto; [apply mv_exact|apply mv_advances|apply mv_local].
    + apply (FJ _ _ (distinguished mdt4)); auto; [apply distinguished_exact, mdt4_exact|apply distinguished_within, mdt4_within|apply distinguished_local, mdt4_local|cbn; intuition discriminate].
    + apply (FJ _ _ (labelled (distinguished pfx4))); auto; [now apply labelled_exact, distinguished_exact|now apply labelled_within, distinguished_within|now apply labelled_local, distinguished_local|cbn; intuition discriminate].
    + apply (FJ _ _ (labelled (distinguished pfx4))); auto; [now apply labelled_exact, distinguished_exact|now apply labelled_within, distinguished_within|now apply labelled_local, distinguished_local|cbn; intuition discriminate].
    + eapply LJ; eauto; [apply fs_exact, fs4_exact|apply fs_advances|apply fs_local].
    + eapply LJ; eauto; [apply fs_exact, fsv4_exact|apply fs_advances|apply fs_local].
  - repeat match type of D with (if ?c =? ?k then _ else _) = _ => destruct (N.eqb_spec c k) as [->|?] end; [..|discriminate].
    + apply (FJ _ _ pfx6); auto. cbn; intuition discriminate.
    + apply (FJ _ _ pfx6); auto. cbn; intuition discriminate.
    + apply (FJ _ _ (labelled pfx6)); auto; [now apply labelled_exact|now apply labelled_within|now apply labelled_local|cbn; intuition discriminate].
    + apply (FJ _ _ (distinguished mdt6)); auto; [apply distinguished_exact, mdt6_exact|apply distinguished_within, mdt6_within|apply distinguished_local, mdt6_local|cbn; intuition discriminate].
    + apply (FJ _ _ (labelled (distinguished pfx6))); auto; [now apply labelled_exact, distinguished_exact|now apply labelled_within, distinguished_within|now apply labelled_local, distinguished_local|cbn; intuition discriminate].
    + apply (FJ _ _ (labelled (distinguished pfx6))); auto; [now apply labelled_exact, distinguished_exact|now apply labelled_within, distinguished_within|now apply labelled_local, distinguished_local|cbn; intuition discriminate].
    + eapply LJ; eauto; [apply fs_exact, fs6_exact|apply fs_advances|apply fs_local].
  - repeat match type of D with (if ?c =? ?k then _ else _) = _ => destruct (N.eqb_spec c k) as [->|?] end; [..|discriminate].
    + eapply LJ; eauto; [apply vpls_exact|apply vpls_advances|apply vpls_local].
    + eapply LJ; eauto; [apply ev_exact|apply ev_advances|apply ev_local].
Qed.
