(** Proofs about lists of routes written one after the other, and about UPDATE messages put together from parts. *)
From Coq Require Import Permutation.
From Verif Require Import Base BaseFacts M_Util S_Wire F_Util M_Prefix S_Prefix M_Nlri S_Nlri F_Nlri M_Vpls M_Cap M_Open M_Session M_Mvpn S_Mvpn M_Evpn S_Evpn M_Flowspec S_Flowspec M_Addrs S_Addrs
  M_Attr S_Attr S_Attr3 M_Update S_Update S_Exact S_Exact2 F_Attr4 F_Exact F_Exact2 F_Exact3 F_Exact4 F_Exact6 S_Join F_Join.
Ltac Zify.zify_post_hook ::= idtac.

(** ** Writing *)
Lemma ebind_ext {A B} (m : Enc A) (f g : A -> Enc B) buf : (forall a b, m buf = Ok (a, b) -> f a b = g a b) -> ebind m f buf = ebind m g buf.
Proof. intros H. unfold ebind. destruct (m buf) as [[a b]|e| |]; auto. Qed.
Lemma ebind_assoc {A B C} (m : Enc A) (f : A -> Enc B) (g : B -> Enc C) buf : ebind (ebind m f) g buf = ebind m (fun a => ebind (f a) g) buf.
Proof. unfold ebind. destruct (m buf) as [[a b]|e| |]; reflexivity. Qed.
Lemma ebind_pre {A B} (m m' : Enc A) (f : A -> Enc B) buf : m buf = m' buf -> ebind m f buf = ebind m' f buf.
Proof. unfold ebind. now intros ->. Qed.
Lemma on_from_ebind {A B} p (m : Enc A) (f : A -> Enc B) buf : on_from p (ebind m f) buf = ebind (on_from p m) (fun a => on_from p (f a)) buf.
Proof.
  unfold on_from, ebind. destruct (Nat.leb_spec p (length buf)) as [H|H]; [|reflexivity]. destruct (m (skipn p buf)) as [[a b]|e| |]; try reflexivity.
  assert (L : length (firstn p buf) = p) by (rewrite firstn_length; lia). rewrite app_length, L.
  destruct (Nat.leb_spec p (p + length b)) as [_|]; [|lia]. rewrite skipn_app, (skipn_all2 (firstn p buf)) by (rewrite L; apply le_n). rewrite L, Nat.sub_diag. cbn [skipn app].
  destruct (f a b) as [[x b']|e| |]; try reflexivity. rewrite firstn_app, L, Nat.sub_diag, (firstn_all2 (firstn p buf)) by (rewrite L; apply le_n). cbn [firstn]. now rewrite app_nil_r.
Qed.
Lemma firstn_more {A} p q (l : list A) : firstn p l ++ firstn q (skipn p l) = firstn (p + q) l.
Proof. revert l. induction p as [|p IH]; intros l; [reflexivity|]. destruct l as [|x l]; [cbn; now rewrite firstn_nil|]. cbn [firstn skipn app Nat.add]. now rewrite IH. Qed.
Lemma on_from_twice {A} p q (e : Enc A) buf : on_from p (on_from q e) buf = on_from (p + q) e buf.
Proof.
  unfold on_from. rewrite skipn_length. destruct (Nat.leb_spec p (length buf)) as [H|H].
  - destruct (Nat.leb_spec q (length buf - p)), (Nat.leb_spec (p + q) (length buf)); try lia; [|reflexivity]. rewrite skipn_skipn'.
    destruct (e (skipn (p + q) buf)) as [[x b]|er| |]; try reflexivity. now rewrite app_assoc, firstn_more.
  - destruct (Nat.leb_spec (p + q) (length buf)); [lia|reflexivity].
Qed.
Lemma on_from_set p q b buf : on_from p (set_idx q b) buf = set_idx (p + q) b buf.
Proof.
  unfold on_from, set_idx. rewrite skipn_length. destruct (Nat.leb_spec p (length buf)) as [H|H].
  - destruct (Nat.ltb_spec q (length buf - p)), (Nat.ltb_spec (p + q) (length buf)); try lia; [|reflexivity]. unfold splice. rewrite !skipn_skipn'. cbn [length].
    rewrite app_assoc, firstn_more. now replace (p + (q + 1))%nat with (p + q + 1)%nat by lia.
  - destruct (Nat.ltb_spec (p + q) (length buf)); [lia|reflexivity].
Qed.
Lemma on_from_slice {A} p a b (e : Enc A) buf : (a <= b)%nat -> on_from p (on_slice a b e) buf = on_slice (p + a) (p + b) e buf.
Proof.
  intros K. unfold on_from, on_slice. rewrite skipn_length. destruct (Nat.leb_spec p (length buf)) as [H|H].
  - destruct (Nat.leb_spec a b), (Nat.leb_spec (p + a) (p + b)); try lia. cbn [andb].
    destruct (Nat.leb_spec b (length buf - p)), (Nat.leb_spec (p + b) (length buf)); try lia; [|reflexivity].
    replace (sub (skipn p buf) a b) with (sub buf (p + a) (p + b)) by (unfold sub; rewrite skipn_skipn'; f_equal; lia).
    destruct (e (sub buf (p + a) (p + b))) as [[x c]|er| |]; try reflexivity. now rewrite skipn_skipn', app_assoc, firstn_more.
  - destruct (Nat.leb_spec (p + b) (length buf)); [lia|]. now rewrite andb_false_r.
Qed.
Lemma on_from_ret {A} p (x : A) buf : (p <= length buf)%nat -> on_from p (eret x) buf = Ok (x, buf).
Proof. intros H. unfold on_from, eret. destruct (Nat.leb_spec p (length buf)); [|lia]. now rewrite firstn_skipn. Qed.
Lemma on_from_room {A} p (e : Enc A) buf x b : on_from p e buf = Ok (x, b) -> (p <= length b)%nat.
Proof.
  unfold on_from. destruct (Nat.leb_spec p (length buf)); [|discriminate]. destruct (e (skipn p buf)) as [[y c]|er| |]; try discriminate. intros E. injection E as <- <-.
  rewrite app_length, firstn_length. lia.
Qed.

(** the four loops are the same loop with different bodies *)
Definition one_item {T} oc (st : setter T) (i : T) : Enc nat := '(b, n) <~ on_from 1 (st oc i) ;; set_idx 0 b ;;; eret (n + 1)%nat.
Definition one_pid {T} oc (st : setter T) (i : withPathId T) : Enc nat :=
  setn_u32 (pid i) ;;; '(b, n) <~ on_from 5 (st oc (pid_nlri i)) ;; set_idx 4 b ;;; eret (4 + (n + 1))%nat.
Definition one_long {T} (pk : T -> Enc nat) (i : T) : Enc nat := sz <~ on_from 2 (pk i) ;; on_slice 0 2 (setn_u16 (cast 16 (N.of_nat sz))) ;;; eret sz.
Lemma set_idx_room q b buf u c : set_idx q b buf = Ok (u, c) -> (q < length c)%nat.
Proof. unfold set_idx. destruct (Nat.ltb_spec q (length buf)); [|discriminate]. intros E. injection E as <- <-. unfold splice. rewrite !app_length, firstn_length, skipn_length. cbn [length]. lia. Qed.
Lemma on_slice_room {A} i j (e : Enc A) buf x c : on_slice i j e buf = Ok (x, c) -> (i <= length c)%nat.
Proof.
  unfold on_slice. destruct (Nat.leb_spec i j), (Nat.leb_spec j (length buf)); try discriminate. cbn [andb]. destruct (e (sub buf i j)) as [[y d]|er| |]; try discriminate.
  intros E. injection E as <- <-. rewrite !app_length, firstn_length. lia.
Qed.
Lemma items_one {T} oc (st : setter T) : forall v c buf, enc_items oc st v c buf = enc_addritems (one_item oc st) v c buf.
Proof.
  induction v as [|i v IH]; intros c buf; [reflexivity|]. cbn [enc_items enc_addritems]. unfold one_item at 1.
  rewrite (ebind_pre _ _ _ _ (on_from_ebind c _ _ buf)), ebind_assoc. rewrite (ebind_pre _ _ _ _ (on_from_twice c 1 _ buf)).
  apply ebind_ext. intros [b n] d E. rewrite (ebind_pre _ _ _ _ (on_from_ebind c _ _ d)), ebind_assoc.
  rewrite (ebind_pre _ _ _ _ (on_from_set c 0 b d)), Nat.add_0_r. apply ebind_ext. intros u d' E'. apply set_idx_room in E'.
  unfold ebind. rewrite on_from_ret by lia. apply IH.
Qed.
Lemma pids_one {T} oc (st : setter T) : forall v c buf, enc_pathid_items oc st v c buf = enc_addritems (one_pid oc st) v c buf.
Proof.
  induction v as [|i v IH]; intros c buf; [reflexivity|]. cbn [enc_pathid_items enc_addritems]. unfold one_pid at 1.
  rewrite (ebind_pre _ _ _ _ (on_from_ebind c _ _ buf)), ebind_assoc. apply ebind_ext. intros u d E.
  rewrite (ebind_pre _ _ _ _ (on_from_ebind c _ _ d)), ebind_assoc. rewrite (ebind_pre _ _ _ _ (on_from_twice c 5 _ d)).
  replace (c + 4 + 1)%nat with (c + 5)%nat by lia. apply ebind_ext. intros [b n] d' E'. rewrite (ebind_pre _ _ _ _ (on_from_ebind c _ _ d')), ebind_assoc.
  rewrite (ebind_pre _ _ _ _ (on_from_set c 4 b d')). apply ebind_ext. intros u' d'' E''. apply set_idx_room in E''.
  unfold ebind. rewrite on_from_ret by lia. rewrite IH. now replace (c + 4 + (n + 1))%nat with (c + (4 + (n + 1)))%nat by lia.
Qed.
Lemma longs_one {T} (pk : T -> Enc nat) : forall v c buf, enc_long_items pk v c buf = enc_addritems (one_long pk) v c buf.
Proof.
  induction v as [|i v IH]; intros c buf; [reflexivity|]. cbn [enc_long_items enc_addritems]. unfold one_long at 1.
  rewrite (ebind_pre _ _ _ _ (on_from_ebind c _ _ buf)), ebind_assoc. rewrite (ebind_pre _ _ _ _ (on_from_twice c 2 _ buf)).
  apply ebind_ext. intros sz d E. rewrite (ebind_pre _ _ _ _ (on_from_ebind c _ _ d)), ebind_assoc.
  rewrite (ebind_pre _ _ _ _ (on_from_slice c 0 2 _ d ltac:(lia))), Nat.add_0_r. apply ebind_ext. intros u d' E'. apply on_slice_room in E'.
  unfold ebind. rewrite on_from_ret by lia. apply IH.
Qed.
Lemma enc_app {T} (one : T -> Enc nat) w : forall v c buf, enc_addritems one (v ++ w) c buf = ebind (enc_addritems one v c) (fun n => enc_addritems one w n) buf.
Proof.
  induction v as [|i v IH]; intros c buf; [reflexivity|]. cbn [app enc_addritems]. rewrite ebind_assoc. apply ebind_ext. intros n d _. apply IH.
Qed.
Lemma enc_shift {T} (one : T -> Enc nat) p : forall v q buf, (p <= length buf)%nat ->
  enc_addritems one v (p + q) buf = ebind (on_from p (enc_addritems one v q)) (fun n => eret (p + n)%nat) buf.
Proof.
  induction v as [|i v IH]; intros q buf H; cbn [enc_addritems].
  - unfold ebind. rewrite on_from_ret by exact H. reflexivity.
  - rewrite (ebind_pre _ _ _ _ (on_from_ebind p _ _ buf)), ebind_assoc. rewrite (ebind_pre _ _ _ _ (on_from_twice p q _ buf)).
    apply ebind_ext. intros n d E. apply on_from_room in E. rewrite <- Nat.add_assoc. apply IH. lia.
Qed.
Definition enc_all {T} (one : T -> Enc nat) (v : list T) : Enc nat := enc_addritems one v 0.
Lemma enc_join {T} (one : T -> Enc nat) v w buf n1 b1 : enc_all one v buf = Ok (n1, b1) -> (n1 <= length b1)%nat ->
  written_after n1 b1 (enc_all one w (skipn n1 b1)) (enc_all one (v ++ w) buf).
Proof.
  intros E L. unfold enc_all in *. rewrite enc_app. unfold ebind at 1. rewrite E. rewrite <- (Nat.add_0_r n1) at 3. rewrite enc_shift by exact L.
  unfold ebind, on_from, eret. destruct (Nat.leb_spec n1 (length b1)) as [_|]; [|lia].
  destruct (enc_addritems one w 0 (skipn n1 b1)) as [[n2 b2]|e| |]; (split; [intros n b; split|split; [intros e'; split|split; split]]); try discriminate; auto.
  - intros H. injection H as <- <-. exists n2, b2. auto.
  - intros (n2' & b2' & H & -> & ->). injection H as <- <-. reflexivity.
  - intros (n2' & b2' & H & _). discriminate.
  - intros (n2' & b2' & H & _). discriminate.
  - intros (n2' & b2' & H & _). discriminate.
Qed.
Definition fails {A} (r : res A) : Prop := match r with Ok _ => False | _ => True end.
Lemma enc_join_fails {T} (one : T -> Enc nat) v w buf : fails (enc_all one v buf) -> enc_all one (v ++ w) buf = enc_all one v buf.
Proof. intros E. unfold enc_all in *. rewrite enc_app. unfold ebind. destruct (enc_addritems one v 0 buf) as [[n b]|e| |]; [destruct E|reflexivity..]. Qed.
(** every list of routes is written by such a loop *)
Lemma as_loop (Q : (addrs -> Enc nat) -> addrs -> addrs -> addrs -> Prop) oc :
  (forall e e' a1 a2 a, (forall x buf, In x [a1; a2; a] -> e x buf = e' x buf) -> Q e' a1 a2 a -> Q e a1 a2 a) ->
  (forall e, (forall buf, e ANone buf = Ok (0%nat, buf)) -> Q e ANone ANone ANone) ->
  (forall T (one : T -> Enc nat) (wr : list T -> addrs) e v w, (forall u buf, e (wr u) buf = enc_all one u buf) -> Q e (wr v) (wr w) (wr (v ++ w))) ->
  forall a1 a2 a, addrs_join a1 a2 = Some a -> Q (addrs_encode oc) a1 a2 a.
Proof.
  intros _ QN QL a1 a2 a J. destruct a1, a2; try discriminate J; cbn [addrs_join] in J; injection J as <-;
    lazymatch goal with
    | |- Q _ ANone _ _ => apply QN; reflexivity
    | |- Q _ (?wr _) _ _ =>
        first [ eapply (QL _ (one_item oc _) wr); intros u buf; cbn [addrs_encode]; apply items_one
              | eapply (QL _ (one_pid oc _) wr); intros u buf; cbn [addrs_encode]; apply pids_one
              | eapply (QL _ (one_long _) wr); intros u buf; cbn [addrs_encode]; apply longs_one
              | eapply (QL _ _ wr); intros u buf; cbn [addrs_encode]; reflexivity ]
    end.
Qed.
Lemma routes_written oc a1 a2 a buf n1 b1 : addrs_join a1 a2 = Some a -> addrs_encode oc a1 buf = Ok (n1, b1) -> (n1 <= length b1)%nat ->
  written_after n1 b1 (addrs_encode oc a2 (skipn n1 b1)) (addrs_encode oc a buf).
Proof.
  intros J. revert a1 a2 a J. apply (as_loop (fun e a1 a2 a => e a1 buf = Ok (n1, b1) -> (n1 <= length b1)%nat -> written_after n1 b1 (e a2 (skipn n1 b1)) (e a buf))).
  - intros e e' a1 a2 a X. rewrite !X by (cbn; auto). auto.
  - intros e X. rewrite !X. intros E L. injection E as <- <-. cbn [skipn]. split; [|repeat split; discriminate || auto].
    intros n b. split; [intros H; injection H as <- <-; exists 0%nat, buf; auto|intros (n2 & b2 & H & -> & ->); now injection H as <- <-].
  - intros T one wr e v w X. rewrite !X. apply enc_join.
Qed.
Lemma routes_unwritten oc a1 a2 a buf : addrs_join a1 a2 = Some a -> fails (addrs_encode oc a1 buf) -> addrs_encode oc a buf = addrs_encode oc a1 buf.
Proof.
  intros J. revert a1 a2 a J. apply (as_loop (fun e a1 a2 a => fails (e a1 buf) -> e a buf = e a1 buf)).
  - intros e e' a1 a2 a X. rewrite !X by (cbn; auto). auto.
  - auto.
  - intros T one wr e v w X. rewrite !X. apply enc_join_fails.
Qed.
Lemma routes_unwritten' oc a1 a2 a buf : addrs_join a1 a2 = Some a -> (forall n b, addrs_encode oc a1 buf <> Ok (n, b)) -> addrs_encode oc a buf = addrs_encode oc a1 buf.
Proof. intros J H. apply (routes_unwritten oc a1 a2); [exact J|]. destruct (addrs_encode oc a1 buf) as [[n b]|e| |]; [destruct (H n b eq_refl)|exact I..]. Qed.
