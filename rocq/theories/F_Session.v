(** Proofs about message framing and capability negotiation. *)
From Verif Require Import Base BaseFacts M_Util F_Util M_Cap M_Open M_Session S_Cap S_Open F_Cap F_Open.
Ltac Zify.zify_post_hook ::= idtac.

(** ** message header *)
Lemma length_header t n : length (header t n) = 19%nat.
Proof. reflexivity. Qed.

Lemma hdr_bytes lng : lng < 65536 ->
  [cast 8 (N.shiftr lng 8); cast 8 (N.land lng 255)] = be_bytes 2 lng.
Proof.
  intros H. unfold cast. rewrite land_255, N.shiftr_div_pow2. cbn [be_bytes].
  change (2 ^ (8 * N.of_nat 0)) with 1. change (2 ^ (8 * N.of_nat 1)) with (2 ^ 8).
  change (2 ^ 8) with 256. rewrite N.div_1_r, N.mod_mod by discriminate. reflexivity.
Qed.

Lemma hdr_len oc n : N.of_nat n <= 65516 ->
  uadd oc 16 (cast 16 (N.of_nat n)) 19 = Ok (N.of_nat (n + 19)).
Proof.
  intros H. unfold cast. rewrite N.mod_small by (change (2 ^ 16) with 65536; lia).
  unfold uadd. replace (N.of_nat n + 19 <? 2 ^ 16) with true
    by (symmetry; apply N.ltb_lt; change (2 ^ 16) with 65536; lia).
  f_equal. lia.
Qed.

(** the writes of the header with length field [l] *)
Lemma hdr_writes {B} l t (f : unit -> Enc B) buf : l < 65536 -> (19 <= length buf)%nat ->
  (set_idx 16 (cast 8 (N.shiftr l 8)) ;;; set_idx 17 (cast 8 (N.land l 255)) ;;;
   set_idx 18 (msgtype_encode t) ;;; f tt) (splice 0 (repeat 255 16) buf)
  = f tt (repeat 255 16 ++ be_bytes 2 l ++ [msg_code t] ++ skipn 19 buf).
Proof.
  intros Hl Hb. rewrite <- hdr_bytes by exact Hl.
  do 19 (destruct buf as [|? buf]; [exfalso; cbn in Hb; lia|]). clear Hb.
  replace (msgtype_encode t) with (msg_code t) by (destruct t; reflexivity).
  reflexivity.
Qed.

Lemma prepare_ok oc t n buf : N.of_nat n <= 65516 -> (n + 19 <= length buf)%nat ->
  prepare_message_buf oc t n buf = Ok (n + 19, header t n ++ skipn 19 buf)%nat.
Proof.
  intros Hn Hb. unfold prepare_message_buf. unfold ebind at 1, elen. cbv beta iota.
  replace (Nat.ltb (length buf) (n + 19)) with false by (symmetry; apply Nat.ltb_ge; lia).
  unfold ebind at 1. rewrite (writes_at_write_at 0 (repeat 255 16)) by (cbn; lia).
  unfold ebind at 1. unfold elift. rewrite hdr_len by exact Hn.
  rewrite (hdr_writes (N.of_nat (n + 19)) t (fun _ => eret (N.to_nat (N.of_nat (n + 19)))))
    by (clear - Hn Hb; lia).
  unfold eret. rewrite Nat2N.id. unfold header. rewrite <- !app_assoc. reflexivity.
Qed.

Lemma send_ok oc t n buf : N.of_nat n <= 65516 -> (n + 19 <= length buf)%nat ->
  send_message_buf oc t n buf =
  Ok (header t n ++ sub buf 19 (n + 19), header t n ++ skipn 19 buf).
Proof.
  intros Hn Hb. unfold send_message_buf. unfold ebind at 1, elen. cbv beta iota.
  replace (Nat.ltb (length buf) (n + 19)) with false by (symmetry; apply Nat.ltb_ge; lia).
  unfold ebind at 1. rewrite (writes_at_write_at 0 (repeat 255 16)) by (cbn; lia).
  unfold ebind at 1. unfold elift. rewrite hdr_len by exact Hn.
  match goal with |- ebind _ (fun _ => ebind _ (fun _ => ebind _ (fun _ => ?g))) _ = _ =>
    rewrite (hdr_writes (N.of_nat (n + 19)) t (fun _ => g)) by (clear - Hn Hb; lia) end.
  rewrite Nat2N.id.
  assert (E : repeat 255 16 ++ be_bytes 2 (N.of_nat (n + 19)) ++ [msg_code t] ++ skipn 19 buf
              = header t n ++ skipn 19 buf) by (unfold header; now rewrite <- !app_assoc).
  rewrite E. rewrite rslice_ok by (rewrite ?app_length, ?length_header, ?skipn_length; lia).
  do 2 f_equal. unfold sub. cbn [skipn]. rewrite Nat.sub_0_r.
  rewrite firstn_app, length_header.
  rewrite firstn_all2 by (rewrite length_header; lia).
  replace (n + 19 - 19)%nat with n by lia. reflexivity.
Qed.

Lemma send_short oc t n buf : (length buf < n + 19)%nat ->
  prepare_message_buf oc t n buf = Err EInsufficient /\ send_message_buf oc t n buf = Err EInsufficient.
Proof.
  intros H. unfold prepare_message_buf, send_message_buf.
  split; unfold ebind at 1; unfold elen;
    (replace (Nat.ltb (length buf) (n + 19)) with true by (symmetry; apply Nat.ltb_lt; lia)); reflexivity.
Qed.

(** a body that does not fit a 16-bit length *)
Lemma prepare_overlong t n buf : 65516 < N.of_nat n < 65536 -> (n + 19 <= length buf)%nat ->
  prepare_message_buf true t n buf = Panic /\
  exists out, prepare_message_buf false t n buf = Ok (n + 19 - N.to_nat 65536, out)%nat.
Proof.
  intros Hn Hb. unfold prepare_message_buf.
  assert (E : forall oc, uadd oc 16 (cast 16 (N.of_nat n)) 19
     = if oc then Panic else Ok (N.of_nat n + 19 - 65536)).
  { intros oc. unfold cast. rewrite N.mod_small by (change (2 ^ 16) with 65536; lia).
    unfold uadd. replace (N.of_nat n + 19 <? 2 ^ 16) with false
      by (symmetry; apply N.ltb_ge; change (2 ^ 16) with 65536; lia).
    destruct oc; auto. f_equal. change (2 ^ 16) with 65536.
    replace (N.of_nat n + 19) with ((N.of_nat n + 19 - 65536) + 1 * 65536) at 1 by lia.
    rewrite N.mod_add by discriminate. apply N.mod_small. lia. }
  split; unfold ebind at 1; unfold elen; cbv beta iota;
    (replace (Nat.ltb (length buf) (n + 19)) with false by (symmetry; apply Nat.ltb_ge; lia)).
  - unfold ebind at 1. rewrite (writes_at_write_at 0 (repeat 255 16)) by (cbn; lia).
    unfold ebind at 1, elift. now rewrite E.
  - unfold ebind at 1. rewrite (writes_at_write_at 0 (repeat 255 16)) by (cbn; lia).
    unfold ebind at 1, elift. rewrite E.
    match goal with |- context [ebind (set_idx 16 (cast 8 (N.shiftr ?l 8))) _ _] =>
      rewrite (hdr_writes l t (fun _ => eret (N.to_nat l))) by (clear - Hn Hb; lia) end.
    eexists. unfold eret. do 3 f_equal. lia.
Qed.

Lemma msgtype_rt t : msgtype_decode (msg_code t) = Ok t.
Proof. destruct t; reflexivity. Qed.
Lemma msgtype_inv c t : msgtype_decode c = Ok t -> c = msg_code t.
Proof.
  unfold msgtype_decode.
  destruct (N.eqb_spec c 1); [intros H; inversion H; auto|].
  destruct (N.eqb_spec c 2); [intros H; inversion H; auto|].
  destruct (N.eqb_spec c 3); [intros H; inversion H; auto|].
  destruct (N.eqb_spec c 4); [intros H; inversion H; auto|discriminate].
Qed.
Lemma msgtype_cases c : (exists t, msgtype_decode c = Ok t) \/ msgtype_decode c = Err EOther.
Proof.
  unfold msgtype_decode. repeat (destruct (_ =? _); [left; eauto|]). auto.
Qed.

Lemma marker_iff l : length l = 16%nat -> forallb (fun q => q =? 255) l = true <-> l = repeat 255 16.
Proof.
  intros Hl. rewrite <- Hl. clear Hl. induction l as [|x l IH]; cbn; [tauto|].
  rewrite andb_true_iff, IH, N.eqb_eq. split.
  - intros [-> ->]. f_equal. now rewrite repeat_length.
  - intros H. injection H as -> H. auto.
Qed.

(** exact characterisation *)
Lemma head_spec oc buf : bytes_ok buf ->
  match decode_message_head oc buf with
  | Ok (t, n) => exists len, is_header buf t len /\
       (19 <= len /\ N.of_nat n = len - 19 \/ len < 19 /\ oc = false /\ N.of_nat n = len + 65517)
  | Err _ => forall t len, ~ is_header buf t len
  | Panic => oc = true /\ exists t len, is_header buf t len /\ len < 19
  | OutOfFuel => False
  end.
Proof.
  intros B. unfold decode_message_head.
  destruct (Nat.ltb_spec (length buf) 19) as [L|L].
  { intros t len (H & _). lia. }
  rewrite rslice_ok by lia. cbn [bind]. change (sub buf 0 16) with (firstn 16 buf).
  assert (L16 : length (firstn 16 buf) = 16%nat) by (rewrite firstn_length; lia).
  destruct (forallb (fun q => q =? 255) (firstn 16 buf)) eqn:EM; cbn [negb].
  2:{ intros t len (_ & H & _). apply marker_iff in H; auto. congruence. }
  apply marker_iff in EM; auto.
  destruct (nth_error buf 18) as [c|] eqn:E18.
  2:{ apply nth_error_None in E18. lia. }
  unfold idx. rewrite E18. cbn [bind].
  destruct (msgtype_cases c) as [[t Ht]|Ht]; rewrite Ht; cbn [bind].
  2:{ intros t len (_ & _ & _ & H). rewrite E18 in H. injection H as ->. rewrite msgtype_rt in Ht. discriminate. }
  pose proof (msgtype_inv _ _ Ht) as ->.
  rewrite rslice_ok by lia. cbn [bind].
  assert (Bs : bytes_ok (sub buf 16 18)) by now apply Forall_sub.
  assert (Ls : length (sub buf 16 18) = 2%nat) by (rewrite length_sub; lia).
  rewrite getn_u16_ok by (auto; lia). rewrite firstn_all2 by lia. cbn [bind].
  pose proof (be_val_bound _ Bs) as Hv. rewrite Ls in Hv. change (2 ^ (8 * N.of_nat 2)) with 65536 in Hv.
  assert (HH : is_header buf t (be_val (sub buf 16 18))) by (repeat split; auto).
  remember (be_val (sub buf 16 18)) as v. unfold usub.
  destruct (N.leb_spec 19 v) as [G|G]; cbn [bind].
  - exists v. split; auto. left. lia.
  - destruct oc; cbn [bind]; [eauto|].
    exists v. split; auto. right. change (2 ^ 16) with 65536. rewrite N.mod_small by lia. lia.
Qed.

Lemma head_rt oc t n rest : N.of_nat n <= 65516 ->
  decode_message_head oc (header t n ++ rest) = Ok (t, n).
Proof.
  intros Hn. unfold decode_message_head.
  assert (HL : length (header t n ++ rest) = (19 + length rest)%nat) by (rewrite app_length, length_header; lia).
  replace (Nat.ltb (length (header t n ++ rest)) 19) with false by (symmetry; apply Nat.ltb_ge; lia).
  rewrite rslice_ok by lia. cbn [bind].
  change (sub (header t n ++ rest) 0 16) with (repeat 255 16).
  replace (forallb (fun q => q =? 255) (repeat 255 16)) with true by reflexivity. cbn [negb].
  change (idx (header t n ++ rest) 18) with (Ok (msg_code t)). cbn [bind].
  rewrite msgtype_rt. cbn [bind]. rewrite rslice_ok by lia. cbn [bind].
  change (sub (header t n ++ rest) 16 18) with (be_bytes 2 (N.of_nat (n + 19)) ++ []).
  rewrite getn_u16_be by (change (2 ^ 16) with 65536; lia). cbn [bind].
  unfold usub. replace (19 <=? N.of_nat (n + 19)) with true by (symmetry; apply N.leb_le; lia). cbn [bind].
  do 2 f_equal. lia.
Qed.

Lemma recv_frames oc cap msgs : forall fuel,
  Forall (fun m => N.of_nat (length (snd m)) <= 65516 /\ (length (snd m) <= cap)%nat) msgs ->
  (length msgs < fuel)%nat ->
  recv_loop oc cap fuel (concat (map frame msgs)) = Ok msgs.
Proof.
  induction msgs as [|[t body] msgs IH]; intros fuel HF Hf; destruct fuel; try (cbn in Hf; lia).
  - reflexivity.
  - inversion HF as [|? ? [H1 H2] HF']; subst. cbn [snd] in *.
    cbn [map concat]. unfold frame at 1. cbn [fst snd]. rewrite <- app_assoc.
    cbn [recv_loop].
    replace (Nat.ltb (length (header t (length body) ++ body ++ concat (map frame msgs))) 19) with false
      by (symmetry; apply Nat.ltb_ge; rewrite app_length, length_header; lia).
    rewrite (firstn_app_exact 19) by reflexivity.
    rewrite <- (app_nil_r (header t (length body))) at 1.
    rewrite head_rt by exact H1. cbn [bind].
    replace (Nat.ltb cap (length body)) with false by (symmetry; apply Nat.ltb_ge; lia).
    rewrite (skipn_app_exact 19) by reflexivity.
    replace (Nat.ltb (length (body ++ concat (map frame msgs))) (length body)) with false
      by (symmetry; apply Nat.ltb_ge; rewrite app_length; lia).
    rewrite skipn_app_exact, firstn_app_exact by reflexivity.
    rewrite IH by (auto; cbn in Hf; lia). reflexivity.
Qed.

(** any input: progress, so the loop ends within [length s + 1] iterations *)
Lemma recv_fuel oc cap fuel : forall s, (length s < fuel)%nat -> recv_loop oc cap fuel s <> OutOfFuel.
Proof.
  induction fuel as [|f IH]; intros s Hf; [lia|]. cbn [recv_loop].
  destruct (Nat.ltb_spec (length s) 19) as [L|L]; [discriminate|].
  assert (NF : decode_message_head oc (firstn 19 s) <> OutOfFuel).
  { unfold decode_message_head.
    destruct (Nat.ltb (length (firstn 19 s)) 19); [discriminate|].
    unfold rslice. destruct (_ && _)%bool; [|discriminate]. cbn [bind].
    destruct (negb _); [discriminate|].
    unfold idx at 1. destruct (nth_error _ _); [|discriminate]. cbn [bind].
    destruct (msgtype_cases n) as [[t ->]| ->]; [|discriminate]. cbn [bind].
    destruct (_ && _)%bool; [|discriminate]. cbn [bind].
    destruct (getn_u16_cases (sub (firstn 19 s) 16 18)) as [[v [-> _]]|[-> _]]; [|discriminate]. cbn [bind].
    unfold usub. destruct (19 <=? v); [discriminate|]. destruct oc; discriminate. }
  destruct (decode_message_head oc (firstn 19 s)) as [[t n]|e| |]; cbn [bind]; try discriminate; auto.
  destruct (Nat.ltb cap n); [discriminate|].
  destruct (Nat.ltb_spec (length (skipn 19 s)) n) as [L2|L2]; [discriminate|].
  specialize (IH (skipn n (skipn 19 s))). rewrite !skipn_length in IH. specialize (IH ltac:(lia)).
  destruct (recv_loop oc cap f (skipn n (skipn 19 s))); cbn [bind]; auto; discriminate.
Qed.

(** ** derived equality *)
Lemma eqb_list_eq {T} (e : T -> T -> bool) (He : forall a b, e a b = true <-> a = b) :
  forall l1 l2, eqb_list e l1 l2 = true <-> l1 = l2.
Proof.
  induction l1 as [|x l1 IH]; intros [|y l2]; cbn; try (split; congruence).
  rewrite andb_true_iff, He, IH. split; [intros [-> ->]; auto|intros H; injection H; auto].
Qed.
Lemma safi_eqb_eq a b : safi_eqb a b = true <-> a = b.
Proof. destruct a, b; cbn; split; congruence. Qed.
Lemma gr_eqb_eq a b : gr_eqb a b = true <-> a = b.
Proof.
  unfold gr_eqb. rewrite !andb_true_iff, !N.eqb_eq, Bool.eqb_true_iff. destruct a, b; cbn.
  split; [intros [[-> ->] ->]; auto|intros H; injection H; auto].
Qed.
Lemma ap_eqb_eq a b : ap_eqb a b = true <-> a = b.
Proof.
  unfold ap_eqb. rewrite !andb_true_iff, !N.eqb_eq, !Bool.eqb_true_iff. destruct a, b; cbn.
  split; [intros [[[-> ->] ->] ->]; auto|intros H; injection H; auto].
Qed.
Lemma ll_eqb_eq a b : ll_eqb a b = true <-> a = b.
Proof.
  unfold ll_eqb. rewrite !andb_true_iff, !N.eqb_eq. destruct a, b; cbn.
  split; [intros [[[-> ->] ->] ->]; auto|intros H; injection H; auto].
Qed.
Lemma cap_eqb_eq a b : cap_eqb a b = true <-> a = b.
Proof.
  destruct a, b; cbn; try (split; congruence).
  - rewrite safi_eqb_eq. split; congruence.
  - rewrite !andb_true_iff, Bool.eqb_true_iff, N.eqb_eq, (eqb_list_eq _ gr_eqb_eq).
    split; [intros [[-> ->] ->]; auto|intros H; injection H; auto].
  - rewrite N.eqb_eq. split; congruence.
  - rewrite (eqb_list_eq _ ap_eqb_eq). split; congruence.
  - rewrite (eqb_list_eq _ ll_eqb_eq). split; congruence.
  - rewrite andb_true_iff, !(eqb_list_eq _ N.eqb_eq).
    split; [intros [-> ->]; auto|intros H; injection H; auto].
Qed.
Lemma existsb_cap l c : existsb (fun q => cap_eqb q c) l = true <-> In c l.
Proof.
  rewrite existsb_exists. split.
  - intros (x & Hx & E). apply cap_eqb_eq in E. now subst.
  - intros H. exists c. split; auto. now apply cap_eqb_eq.
Qed.
Lemma existsb_asn l : existsb is_asn32 l = true <-> has_asn32 l.
Proof.
  rewrite existsb_exists. split.
  - intros (x & Hx & E). destruct x; try discriminate. now exists n.
  - intros [n H]. exists (CapASN32 n). auto.
Qed.

(** ** check_caps *)
Lemma check_fold l p : 
  let q := fold_left (fun p cap =>
    match cap with
    | CapASN32 n => mkParams n (sp_hold p) (sp_mode p) true (sp_rid p) (sp_caps p) (sp_fuzzy p)
    | _ => p
    end) l p in
  sp_caps q = sp_caps p /\ sp_hold q = sp_hold p /\ sp_mode q = sp_mode p /\ sp_rid q = sp_rid p /\
  sp_fuzzy q = sp_fuzzy p /\ (sp_as32 q = true <-> (sp_as32 p = true \/ has_asn32 l)) /\
  (forall pre n post, l = pre ++ CapASN32 n :: post -> ~ has_asn32 post -> sp_as q = n) /\
  (~ has_asn32 l -> sp_as q = sp_as p).
Proof.
  revert p. induction l as [|c l IH]; intros p; cbn [fold_left].
  - cbn. repeat split; auto.
    + intros [H|[n []]]; auto.
    + intros pre n post H. destruct pre; discriminate.
  - set (p' := match c with CapASN32 n => _ | _ => p end).
    specialize (IH p'). cbv zeta in IH. destruct IH as (I1 & I2 & I3 & I4 & I5 & I6 & I7 & I8).
    assert (Hp : sp_caps p' = sp_caps p /\ sp_hold p' = sp_hold p /\ sp_mode p' = sp_mode p /\
                 sp_rid p' = sp_rid p /\ sp_fuzzy p' = sp_fuzzy p) by (unfold p'; destruct c; cbn; auto).
    destruct Hp as (J1 & J2 & J3 & J4 & J5).
    repeat split; try congruence.
    + intros H. apply I6 in H as [H|[n H]].
      * unfold p' in H. destruct c; auto. right. exists n. now left.
      * right. exists n. now right.
    + intros [H|[n [->|H]]]; apply I6.
      * left. unfold p'. destruct c; auto.
      * left. reflexivity.
      * right. now exists n.
    + intros pre n post E Hn. destruct pre as [|x pre]; cbn in E; injection E as -> ->.
      * rewrite I8 by auto. reflexivity.
      * eapply I7; eauto.
    + intros Hn. rewrite I8; [|intros [n H]; apply Hn; exists n; now right].
      unfold p'. destruct c; auto. exfalso. apply Hn. exists n. now left.
Qed.

Lemma check_caps_spec p :
  let q := check_caps p in
  sp_caps q = sp_caps p /\ sp_hold q = sp_hold p /\ sp_mode q = sp_mode p /\ sp_rid q = sp_rid p /\
  sp_fuzzy q = sp_fuzzy p /\ (sp_as32 q = true <-> has_asn32 (sp_caps p)) /\
  (forall pre n post, sp_caps p = pre ++ CapASN32 n :: post -> ~ has_asn32 post -> sp_as q = n) /\
  (~ has_asn32 (sp_caps p) -> sp_as q = sp_as p).
Proof.
  unfold check_caps.
  pose proof (check_fold (sp_caps p) (mkParams (sp_as p) (sp_hold p) (sp_mode p) false (sp_rid p) (sp_caps p) (sp_fuzzy p))) as C.
  cbv zeta in *. cbn [sp_caps sp_hold sp_mode sp_rid sp_fuzzy sp_as32 sp_as] in *.
  destruct C as (C1 & C2 & C3 & C4 & C5 & C6 & C7 & C8). repeat split; auto.
  - intros H. apply C6 in H as [H|H]; [discriminate|auto].
  - intros H. apply C6. auto.
Qed.

Lemma in_filter_map {A B} (f : A -> option B) l y :
  In y (filter_map f l) <-> exists x, In x l /\ f x = Some y.
Proof.
  induction l as [|x l IH]; cbn.
  - split; [tauto|intros (x & [] & _)].
  - destruct (f x) as [z|] eqn:E; cbn; rewrite IH; split.
    + intros [->|(w & H1 & H2)]; [exists x; auto|exists w; auto].
    + intros (w & [->|H1] & H2); [left; congruence|right; exists w; auto].
    + intros (w & H1 & H2). exists w; auto.
    + intros (w & [->|H1] & H2); [congruence|exists w; auto].
Qed.

Lemma match_caps_caps p r : sp_caps (match_caps p r) = filter_map (match_one r) (sp_caps p).
Proof. unfold match_caps. now rewrite (proj1 (check_caps_spec _)). Qed.

Lemma match_one_plain r x c : plain c -> match_one r x = Some c <-> x = c /\ In c r.
Proof.
  intros Hp. destruct x as [s|st t v|n| |v| |v|h d| ]; cbn [match_one].
  3:{ destruct (existsb is_asn32 r); split; try discriminate.
      - intros H. injection H as <-. destruct Hp. - intros [<- _]. destruct Hp.
      - intros [<- _]. destruct Hp. }
  4:{ destruct (find is_addpath r) as [q|] eqn:E.
      - destruct q; (split; [intros H; try discriminate; injection H as <-; destruct Hp|intros [<- _]; destruct Hp]).
      - split; [discriminate|intros [<- _]; destruct Hp]. }
  all: match goal with |- context [existsb (fun q => cap_eqb q ?x) ?rr] =>
         pose proof (existsb_cap rr x) as X; destruct (existsb (fun q => cap_eqb q x) rr);
         (split; [intros H; first [discriminate | injection H as <-; split; [reflexivity|now apply X]]
                 |intros [<- H]; first [reflexivity | apply X in H; discriminate]]) end.
Qed.

Lemma match_plain p r c : plain c ->
  In c (sp_caps (match_caps p r)) <-> In c (sp_caps p) /\ In c r.
Proof.
  intros Hp. rewrite match_caps_caps, in_filter_map. split.
  - intros (x & H1 & H2). apply match_one_plain in H2 as [-> H2]; auto.
  - intros [H1 H2]. exists c. split; auto. now apply match_one_plain.
Qed.

Lemma match_one_asn r x n : match_one r x = Some (CapASN32 n) <-> x = CapASN32 n /\ has_asn32 r.
Proof.
  split.
  - destruct x as [s|st t v|m| |v| |v|h d| ]; cbn [match_one].
    3:{ pose proof (existsb_asn r) as X. destruct (existsb is_asn32 r); [|discriminate].
        intros H. injection H as ->. split; auto. now apply X. }
    4:{ destruct (find is_addpath r) as [q|]; [destruct q|]; discriminate. }
    all: match goal with H : (if ?b then _ else _) = _ |- _ => destruct b; discriminate | |- (if ?b then _ else _) = _ -> _ => destruct b; discriminate end.
  - intros [-> H]. cbn. apply existsb_asn in H. now rewrite H.
Qed.
Lemma match_asn p r n :
  In (CapASN32 n) (sp_caps (match_caps p r)) <-> In (CapASN32 n) (sp_caps p) /\ has_asn32 r.
Proof.
  rewrite match_caps_caps, in_filter_map. split.
  - intros (x & H1 & H2). apply match_one_asn in H2 as [-> H2]; auto.
  - intros [H1 H2]. exists (CapASN32 n). split; auto. now apply match_one_asn.
Qed.
Lemma match_as32 p r :
  sp_as32 (match_caps p r) = true <-> has_asn32 (sp_caps p) /\ has_asn32 r.
Proof.
  unfold match_caps.
  match goal with |- context [check_caps ?q] => pose proof (check_caps_spec q) as C; cbv zeta in C;
     destruct C as (_ & _ & _ & _ & _ & C & _) end.
  rewrite C. cbn [sp_caps]. unfold has_asn32 at 1.
  split.
  - intros [n H]. pose proof (match_asn p r n) as M. rewrite match_caps_caps in M.
    apply M in H as [H1 H2]. split; [now exists n|auto].
  - intros [[n H1] H2]. exists n. pose proof (match_asn p r n) as M. rewrite match_caps_caps in M.
    apply M; auto.
Qed.

(** the plain part of the result, in order *)
Lemma match_selects p r :
  selects (fun c => plain c /\ In c r)
          (filter plainb (sp_caps p))
          (filter plainb (sp_caps (match_caps p r))).
Proof.
  rewrite match_caps_caps. induction (sp_caps p) as [|c l IH]; cbn [filter filter_map]; [constructor|].
  assert (P : forall c, plainb c = true <-> plain c) by (intros []; cbn; split; auto; try discriminate; tauto).
  destruct (plainb c) eqn:E.
  - pose proof (match_one_plain r c c (proj1 (P c) E)) as M.
    destruct (match_one r c) as [y|] eqn:EM.
    + assert (y = c).
      { destruct c; cbn in E, EM; try discriminate;
          (destruct (existsb _ r); [injection EM as <-; auto|discriminate]). }
      subst y. cbn [filter]. rewrite E. apply sel_keep; auto. split; [now apply P|]. now apply M.
    + apply sel_drop; auto. intros [_ H]. assert (None = Some c) by (apply M; auto). discriminate.
  - destruct (match_one r c) as [y|] eqn:EM; auto. cbn [filter].
    assert (plainb y = false).
    { destruct c; cbn in E, EM; try discriminate.
      - destruct (existsb is_asn32 r); [injection EM as <-; auto|discriminate].
      - destruct (find is_addpath r) as [[]|]; try discriminate. injection EM as <-. reflexivity. }
    now rewrite H.
Qed.

(** ** ADD-PATH *)
Lemma match_addpath_in v r e : In e (match_addpath_caps v r) ->
  exists l x, In l v /\ In x r /\ ap_afi l = ap_afi x /\ ap_safi l = ap_safi x /\ e = ap_response x.
Proof.
  induction v as [|l v IH]; cbn [match_addpath_caps]; [intros []|].
  destruct (find _ r) as [x|] eqn:E.
  - intros [<-|H].
    + apply find_some in E as [E1 E2]. apply andb_prop in E2 as [A B]. apply N.eqb_eq in A, B.
      exists l, x. repeat split; auto. now left.
    + destruct (IH H) as (l' & x' & H1 & H2). exists l', x'. split; [now right|auto].
  - intros H. destruct (IH H) as (l' & x' & H1 & H2). exists l', x'. split; [now right|auto].
Qed.

Lemma find_addpath_in_spec caps afi sf e : find_addpath_in caps afi sf = Some e ->
  ap_entry caps e /\ ap_afi e = afi /\ ap_safi e = sf.
Proof.
  induction caps as [|c caps IH]; cbn [find_addpath_in]; [discriminate|].
  assert (R : find_addpath_in caps afi sf = Some e -> ap_entry (c :: caps) e /\ ap_afi e = afi /\ ap_safi e = sf).
  { intros H. destruct (IH H) as [(v & H1 & H2) H3]. split; auto. exists v. split; auto. now right. }
  destruct c; auto. destruct (find _ v) as [x|] eqn:E; auto.
  intros H. injection H as ->. apply find_some in E as [E1 E2]. apply andb_prop in E2 as [A B].
  apply N.eqb_eq in A, B. split; auto. exists v. split; auto. now left.
Qed.

Lemma match_ap_entry p r e : ap_entry (sp_caps (match_caps p r)) e ->
  exists l x, ap_entry (sp_caps p) l /\ ap_entry r x /\
     ap_afi l = ap_afi x /\ ap_safi l = ap_safi x /\ e = ap_response x.
Proof.
  intros (v & H1 & H2). rewrite match_caps_caps, in_filter_map in H1. destruct H1 as (c & Hc & Hm).
  destruct c; cbn [match_one] in Hm.
  3:{ destruct (existsb is_asn32 r); discriminate. }
  4:{ destruct (find is_addpath r) as [q|] eqn:E; [|discriminate]. destruct q; try discriminate.
      injection Hm as <-. apply match_addpath_in in H2 as (l & x & L1 & L2 & L3 & L4 & L5).
      apply find_some in E as [E _]. exists l, x. repeat split; auto; eexists; eauto. }
  all: match goal with H : (if ?b then _ else _) = _ |- _ => destruct b; discriminate | |- (if ?b then _ else _) = _ -> _ => destruct b; discriminate end.
Qed.

Lemma addpath_dir p r afi sf :
  (check_addpath_send (match_caps p r) afi sf = true ->
     (exists l, ap_entry (sp_caps p) l /\ ap_afi l = afi /\ ap_safi l = sf) /\
     (exists x, ap_entry r x /\ ap_afi x = afi /\ ap_safi x = sf /\ ap_receive x = true)) /\
  (check_addpath_receive (match_caps p r) afi sf = true ->
     (exists l, ap_entry (sp_caps p) l /\ ap_afi l = afi /\ ap_safi l = sf) /\
     (exists x, ap_entry r x /\ ap_afi x = afi /\ ap_safi x = sf /\ ap_send x = true)).
Proof.
  unfold check_addpath_send, check_addpath_receive, find_addpath.
  destruct (find_addpath_in (sp_caps (match_caps p r)) afi sf) as [e|] eqn:E; [|split; discriminate].
  apply find_addpath_in_spec in E as (He & <- & <-).
  apply match_ap_entry in He as (l & x & H1 & H2 & H3 & H4 & ->). cbn.
  split; intros Hd; (split; [exists l; auto|exists x; auto]).
Qed.

(** ** remove_capability *)
Lemma filter_selects {A} (P : A -> Prop) f l : (forall x, f x = true <-> P x) -> selects P l (filter f l).
Proof.
  intros H. induction l as [|x l IH]; cbn; [constructor|].
  destruct (f x) eqn:E; [apply sel_keep|apply sel_drop]; auto; [now apply H|].
  intros Hx. apply H in Hx. congruence.
Qed.
Lemma selects_in {A} (P : A -> Prop) l l' : selects P l l' -> forall x, In x l' <-> In x l /\ P x.
Proof.
  induction 1 as [|y l l' Hy H IH|y l l' Hy H IH]; intros x; cbn.
  - tauto.
  - rewrite IH. split; [intros [->|[H1 H2]]; auto|intros [[->|H1] H2]; auto].
  - rewrite IH. split; [tauto|]. intros [[->|H1] H2]; [contradiction|auto].
Qed.
Lemma filter_filter_same {A} (f : A -> bool) l : filter f (filter f l) = filter f l.
Proof.
  induction l as [|x l IH]; cbn; auto. destruct (f x) eqn:E; cbn; rewrite ?E, ?IH; auto.
Qed.

Definition removed_plain (c : bgpcap) (x : bgpcap) : Prop :=
  match c with CapASN32 _ => ~ (exists n, x = CapASN32 n) | _ => x <> c end.

Lemma remove_plain p c : ~ (exists v, c = CapAddPath v) ->
  selects (removed_plain c) (sp_caps p) (sp_caps (remove_capability p c)) /\
  sp_as (remove_capability p c) = sp_as p /\ sp_hold (remove_capability p c) = sp_hold p /\
  sp_mode (remove_capability p c) = sp_mode p /\ sp_as32 (remove_capability p c) = sp_as32 p /\
  sp_rid (remove_capability p c) = sp_rid p /\ sp_fuzzy (remove_capability p c) = sp_fuzzy p /\
  remove_capability (remove_capability p c) c = remove_capability p c.
Proof.
  intros Hc.
  destruct c; try (exfalso; apply Hc; eauto; fail).
  3:{ split; [|repeat split; auto; cbn; now rewrite filter_filter_same].
      cbn. apply filter_selects. intros x. rewrite negb_true_iff. split.
      - intros H [m ->]. discriminate.
      - intros H. destruct x; auto. exfalso. apply H. eauto. }
  all: split; [|repeat split; auto; cbn; now rewrite filter_filter_same];
       cbn [remove_capability sp_caps]; apply filter_selects; intros x;
       cbn [removed_plain]; match goal with |- negb (cap_eqb ?y ?c) = true <-> _ =>
         pose proof (cap_eqb_eq y c) as X; destruct (cap_eqb y c) end; cbn;
       (split; [intros H Hx; try discriminate; apply X in Hx; discriminate
               |intros H; auto; exfalso; apply H; now apply X]).
Qed.

(** removing ADD-PATH entries when there is one ADD-PATH capability *)
Lemma fold_remove_in vc : forall cvc e,
  In e (fold_left (fun l cp => filter (fun x => negb (ap_eqb x cp)) l) vc cvc) <-> In e cvc /\ ~ In e vc.
Proof.
  induction vc as [|c vc IH]; intros cvc e; cbn [fold_left].
  - cbn. tauto.
  - rewrite IH, filter_In. cbn. pose proof (ap_eqb_eq e c) as X.
    destruct (ap_eqb e c); cbn; split.
    + intros [[_ H] _]. discriminate.
    + intros [_ H]. exfalso. apply H. left. symmetry. now apply X.
    + intros [[H1 _] H2]. split; auto. intros [->|H3]; auto. assert (false = true) by now apply X. discriminate.
    + intros [H1 H2]. repeat split; auto.
Qed.
Lemma fold_remove_sel vc : forall cvc,
  selects (fun e => ~ In e vc) cvc (fold_left (fun l cp => filter (fun x => negb (ap_eqb x cp)) l) vc cvc).
Proof.
  assert (G : forall vc cvc, fold_left (fun l cp => filter (fun x => negb (ap_eqb x cp)) l) vc cvc
     = filter (fun x => negb (existsb (fun y => ap_eqb x y) vc)) cvc).
  { clear. induction vc as [|c vc IH]; intros cvc; cbn [fold_left existsb].
    - induction cvc; cbn in *; congruence.
    - rewrite IH. clear. induction cvc as [|x l IHl]; cbn [filter]; auto.
      destruct (ap_eqb x c); cbn [negb orb filter]; auto.
      destruct (existsb _ vc); cbn; congruence. }
  intros cvc. rewrite G. apply filter_selects. intros x. rewrite negb_true_iff.
  rewrite <- not_true_iff_false, existsb_exists. split.
  - intros H Hx. apply H. exists x. split; auto. now apply ap_eqb_eq.
  - intros H (y & H1 & H2). apply ap_eqb_eq in H2. subst. auto.
Qed.

Lemma remove_first_split vc pre v post : Forall (fun c => is_addpath c = false) pre ->
  remove_in_first_addpath vc (pre ++ CapAddPath v :: post) =
  Some (pre ++ CapAddPath (fold_left (fun l cp => filter (fun x => negb (ap_eqb x cp)) l) vc v) :: post).
Proof.
  induction 1 as [|c pre Hc Hp IH]; cbn [app remove_in_first_addpath]; auto.
  rewrite IH. destruct c; try reflexivity. discriminate.
Qed.
Lemma remove_first_none vc l : Forall (fun c => is_addpath c = false) l ->
  remove_in_first_addpath vc l = None.
Proof.
  induction 1 as [|c l Hc Hl IH]; cbn; auto. rewrite IH. destruct c; auto. discriminate.
Qed.
Lemma filter_noap l : Forall (fun c => is_addpath c = false) l ->
  filter (fun x => match x with CapAddPath [] => false | _ => true end) l = l.
Proof.
  induction 1 as [|c l Hc Hl IH]; cbn; auto. rewrite IH. destruct c; auto. discriminate.
Qed.

Lemma remove_addpath_single p vc pre v post :
  sp_caps p = pre ++ CapAddPath v :: post ->
  Forall (fun c => is_addpath c = false) pre -> Forall (fun c => is_addpath c = false) post ->
  exists v', selects (fun e => ~ In e vc) v v' /\
  sp_caps (remove_capability p (CapAddPath vc)) =
    pre ++ (match v' with [] => [] | _ => [CapAddPath v'] end) ++ post /\
  remove_capability (remove_capability p (CapAddPath vc)) (CapAddPath vc) = remove_capability p (CapAddPath vc).
Proof.
  intros E Hpre Hpost.
  exists (fold_left (fun l cp => filter (fun x => negb (ap_eqb x cp)) l) vc v).
  split; [apply fold_remove_sel|].
  remember (fold_left (fun l cp => filter (fun x => negb (ap_eqb x cp)) l) vc v) as v' eqn:Hv'.
  assert (C : sp_caps (remove_capability p (CapAddPath vc)) =
              pre ++ (match v' with [] => [] | _ => [CapAddPath v'] end) ++ post).
  { cbn [remove_capability]. rewrite E, remove_first_split by auto. cbn [sp_caps]. rewrite <- Hv'.
    rewrite filter_app. cbn [filter]. rewrite !filter_noap by auto. destruct v'; reflexivity. }
  split; [exact C|].
  assert (S2 : fold_left (fun l cp => filter (fun x => negb (ap_eqb x cp)) l) vc v' = v').
  { pose proof (fold_remove_sel vc v') as S.
    assert (A : forall l l', selects (fun e => ~ In e vc) l l' -> (forall x, In x l -> ~ In x vc) -> l' = l).
    { induction 1; intros HA; auto.
      - f_equal. apply IHselects. intros; apply HA; now right.
      - exfalso. apply H. apply HA. now left. }
    apply A in S; auto. intros x Hx. subst v'. apply fold_remove_in in Hx. tauto. }
  destruct (remove_capability p (CapAddPath vc)) as [a1 a2 a3 a4 a5 a6 a7] eqn:ER. cbn [sp_caps] in C.
  subst a6. cbn [remove_capability sp_caps sp_as sp_hold sp_mode sp_as32 sp_rid sp_fuzzy].
  remember (match v' with [] => [] | _ => [CapAddPath v'] end) as mid.
  clear Hv'. destruct v' as [|e w]; subst mid.
  - cbn [app]. rewrite remove_first_none by (apply Forall_app; auto). reflexivity.
  - cbn [app]. rewrite remove_first_split by auto. rewrite S2. cbn [sp_caps].
    rewrite filter_app. cbn [filter]. rewrite !filter_noap by auto. reflexivity.
Qed.

Lemma remove_addpath_none p vc : Forall (fun c => is_addpath c = false) (sp_caps p) ->
  remove_capability p (CapAddPath vc) = p.
Proof. intros H. cbn. now rewrite remove_first_none. Qed.

Lemma remove_all_addpath p :
  selects (fun x => ~ exists v, x = CapAddPath v) (sp_caps p) (sp_caps (remove_capability_addpath p)).
Proof.
  cbn. apply filter_selects. intros x. rewrite negb_true_iff. split.
  - intros H [v ->]. discriminate.
  - intros H. destruct x; auto. exfalso; apply H; eauto.
Qed.

(** ** witnesses *)
Lemma addpath_both p r afi sf :
  (forall e, ap_entry (sp_caps p) e -> ap_send e = true /\ ap_receive e = true) ->
  (check_addpath_send (match_caps p r) afi sf = true ->
     exists l x, ap_entry (sp_caps p) l /\ ap_afi l = afi /\ ap_safi l = sf /\ ap_send l = true /\
                 ap_entry r x /\ ap_afi x = afi /\ ap_safi x = sf /\ ap_receive x = true) /\
  (check_addpath_receive (match_caps p r) afi sf = true ->
     exists l x, ap_entry (sp_caps p) l /\ ap_afi l = afi /\ ap_safi l = sf /\ ap_receive l = true /\
                 ap_entry r x /\ ap_afi x = afi /\ ap_safi x = sf /\ ap_send x = true).
Proof.
  intros Hb. destruct (addpath_dir p r afi sf) as [D1 D2].
  split; intros H.
  - destruct (D1 H) as [(l & L1 & L2 & L3) (x & X1 & X2 & X3 & X4)].
    destruct (Hb l L1). exists l, x. tauto.
  - destruct (D2 H) as [(l & L1 & L2 & L3) (x & X1 & X2 & X3 & X4)].
    destruct (Hb l L1). exists l, x. tauto.
Qed.

Lemma addpath_refuted : exists p r,
  (forall e, ap_entry (sp_caps p) e -> ap_receive e = false) /\
  check_addpath_receive (match_caps p r) 1 1 = true.
Proof.
  exists (params_new 1 90 ModeV4 1 [CapAddPath [mkAP 1 1 true false]]), [CapAddPath [mkAP 1 1 true true]].
  split; [|reflexivity].
  intros e (v & [H|[]] & H2). injection H as <-. destruct H2 as [<-|[]]. reflexivity.
Qed.

Lemma remove_refuted : exists p c,
  check_capability (remove_capability p c) c = true /\
  remove_capability (remove_capability p c) c <> remove_capability p c.
Proof.
  exists (params_new 1 90 ModeV4 1 [CapAddPath [mkAP 1 1 true true]; CapAddPath [mkAP 1 1 true true]]).
  exists (CapAddPath [mkAP 1 1 true true]). split; [reflexivity|discriminate].
Qed.

Lemma head_refuted : exists buf, bytes_ok buf /\
  decode_message_head true buf = Panic /\
  exists n, decode_message_head false buf = Ok (MKeepalive, n) /\ N.of_nat n = 65535.
Proof.
  exists (repeat 255 16 ++ [0; 18; 4]). split; [apply bytes_okb_ok; reflexivity|].
  split; [reflexivity|]. exists (N.to_nat 65535). split; [|apply N2Nat.id].
  unfold decode_message_head. cbn [length app repeat Nat.ltb Nat.leb].
  cbn -[N.to_nat]. reflexivity.
Qed.
