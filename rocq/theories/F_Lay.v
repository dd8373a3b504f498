(** Reading and writing buffers laid out as a list of segments. *)
From Verif Require Import Base BaseFacts M_Util S_Wire F_Util M_Nlri S_Nlri F_Nlri M_Vpls.
Ltac Zify.zify_post_hook ::= idtac.

Lemma nth_split_seg {A} (ss : list (list A)) i s : nth_error ss i = Some s ->
  concat ss = concat (firstn i ss) ++ s ++ concat (skipn (S i) ss).
Proof.
  revert i. induction ss as [|x ss IH]; intros [|i] H; try discriminate.
  - injection H as ->. reflexivity.
  - cbn [firstn concat skipn]. rewrite (IH i H) at 1. now rewrite <- app_assoc.
Qed.
Lemma rslice_seg {A} (ss : list (list A)) i a b s : nth_error ss i = Some s ->
  length (concat (firstn i ss)) = a -> (a + length s)%nat = b -> rslice (concat ss) a b = Ok s.
Proof.
  intros H Ha Hb. rewrite (nth_split_seg ss i s H).
  rewrite rslice_ok by (rewrite ?app_length; lia). f_equal. apply sub_app_exact; lia.
Qed.
Lemma rfrom_seg {A} (ss : list (list A)) i a :
  length (concat (firstn i ss)) = a -> rfrom (concat ss) a = Ok (concat (skipn i ss)).
Proof.
  intros <-. rewrite <- (firstn_skipn i ss) at 1. rewrite concat_app, rfrom_ok by (rewrite app_length; lia).
  now rewrite skipn_app_exact.
Qed.
Lemma idx_seg {A} (ss : list (list A)) i a b : nth_error ss i = Some [b] ->
  length (concat (firstn i ss)) = a -> idx (concat ss) a = Ok b.
Proof.
  intros H Ha. rewrite (nth_split_seg ss i [b] H). unfold idx. rewrite nth_error_app2 by lia.
  now replace (a - length (concat (firstn i ss)))%nat with 0%nat by lia.
Qed.

(** lengths of the building blocks *)
Ltac len_simpl :=
  cbn [concat firstn skipn app];
  repeat (progress (rewrite ?app_length, ?length_be_bytes, ?length_rd_wire, ?length_stack; cbn [length])).
Ltac seg := len_simpl; try lia; reflexivity.

(** encoders: next segment *)
Lemma writes_next {A B} p (m : Enc A) (f : A -> Enc B) bs1 bs2 a b q :
  writes_at p m bs1 a -> q = (p + length bs1)%nat ->
  writes_at q (f a) bs2 b -> writes_at p (ebind m f) (bs1 ++ bs2) b.
Proof. intros H -> H2. eapply writes_at_bind; eauto. Qed.

Lemma writes_at_app_nil {A} p (e : Enc A) bs a : writes_at p e bs a -> writes_at p e (bs ++ []) a.
Proof. now rewrite app_nil_r. Qed.

Lemma writes_enc_addritems {T} (enc : T -> Enc nat) (E : T -> list N) v :
  (forall x, In x v -> writes (enc x) (E x) (length (E x))) ->
  forall p, writes_at p (enc_addritems enc v p) (flat_map E v) (p + length (flat_map E v))%nat.
Proof.
  induction v as [|x v IH]; intros H p; cbn [enc_addritems flat_map].
  - eapply writes_at_eq; [apply writes_at_ret|..]; cbn [length]; try reflexivity; lia.
  - eapply writes_next; [apply writes_on_from, H; now left|reflexivity|].
    eapply writes_at_eq; [apply IH; intros; apply H; now right|..]; try reflexivity.
    rewrite app_length. lia.
Qed.
Lemma writes_addritems {T} (enc : T -> Enc nat) (E : T -> list N) v :
  (forall x, In x v -> writes (enc x) (E x) (length (E x))) ->
  writes (encode_bgpaddritems_to enc v) (flat_map E v) (length (flat_map E v)).
Proof. intros H. apply (writes_enc_addritems enc E v H 0). Qed.
Lemma decode_addritems {T} (dec : list N -> res (T * nat)) (E : T -> list N) (nm : T -> T) v :
  (forall x rest, In x v -> dec (E x ++ rest) = Ok (nm x, length (E x))) ->
  (forall x, In x v -> (1 <= length (E x))%nat) ->
  decode_bgpaddritems_from dec (flat_map E v) = Ok (map nm v, length (flat_map E v)).
Proof.
  intros H1 H2. unfold decode_bgpaddritems_from.
  pose proof (dec_loop_concat dec E nm v H1 H2 [] (S (length (flat_map E v))) ltac:(lia)) as H.
  cbn [app length] in H. rewrite H. reflexivity.
Qed.

Lemma rfrom_seg' {A} (ss : list (list A)) i a r :
  length (concat (firstn i ss)) = a -> concat (skipn i ss) = r -> rfrom (concat ss) a = Ok r.
Proof. intros H <-. now apply rfrom_seg. Qed.
Lemma decode_rd_seg rd ss : rd_wf rd -> decode_rd_from (concat (rd_wire rd :: ss)) = Ok (rd, 8%nat).
Proof. apply decode_rd_wire. Qed.
Lemma decode_rd_exact rd : rd_wf rd -> decode_rd_from (rd_wire rd) = Ok (rd, 8%nat).
Proof. intros H. rewrite <- (app_nil_r (rd_wire rd)). now apply decode_rd_wire. Qed.
Lemma getn_u16_exact s : s < 65536 -> getn_u16 (be_bytes 2 s) = Ok s.
Proof. intros H. rewrite <- (app_nil_r (be_bytes 2 s)). now apply getn_u16_be. Qed.
Lemma getn_u32_exact s : s < 2 ^ 32 -> getn_u32 (be_bytes 4 s) = Ok s.
Proof. intros H. rewrite <- (app_nil_r (be_bytes 4 s)). now apply getn_u32_be. Qed.
