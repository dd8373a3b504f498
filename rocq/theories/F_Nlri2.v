(** Label stacks in builds without overflow checks; ADD-PATH lists in builds
    with them. *)
From Verif Require Import Base BaseFacts M_Util S_Wire F_Util M_Prefix S_Prefix M_Nlri S_Nlri F_Nlri.
Ltac Zify.zify_post_hook ::= idtac.

Lemma usub_false a b : a < 256 -> b <= 256 -> usub false 8 a b = Ok ((a + (256 - b)) mod 256).
Proof.
  intros Ha Hb. unfold usub. change (2 ^ 8) with 256. replace (a + 256 - b) with (a + (256 - b)) by lia.
  destruct (N.leb_spec b a) as [E|E]; [|reflexivity].
  f_equal. replace (a + (256 - b)) with (a - b + 1 * 256) by lia.
  rewrite N.mod_add by discriminate. symmetry. apply N.mod_small. lia.
Qed.

Lemma labels_loop_read left rest k : stack_read left rest k -> left < 256 -> forall fuel buf pre,
  buf = pre ++ rest -> bytes_ok buf -> (k < fuel)%nat ->
  exists ls, labels_loop false fuel left buf (length pre) = Ok (ls, (length pre + 3 * k)%nat) /\ length ls = k.
Proof.
  induction 1 as [rest|left b0 b1 b2 rest Hl He|left b0 b1 b2 rest k Hl He Hc IH];
    intros HL fuel buf pre -> Hb Hf; (destruct fuel as [|fuel]; [lia|]).
  - cbn [labels_loop]. exists []. split; auto. cbn. do 2 f_equal. lia.
  - pose proof Hb as Hb'. apply Forall_app in Hb' as [_ Hb']. inversion_clear Hb' as [|? ? X0 Y]. inversion_clear Y as [|? ? X1 Z]. inversion_clear Z as [|? ? X2 _].
    rewrite (labels_loop_step false fuel left _ _ b0 b1 b2 rest pre) by (auto; lia).
    rewrite usub_false by lia. cbn [bind]. cbv zeta.
    apply entry_ends_dec in He; auto. apply orb_true_iff in He.
    destruct (label_ends _); [eexists; split; [reflexivity|reflexivity]|].
    destruct He as [He|He]; [discriminate|]. rewrite He. eexists; split; reflexivity.
  - pose proof Hb as Hb'. apply Forall_app in Hb' as [_ Hb']. inversion_clear Hb' as [|? ? X0 Y]. inversion_clear Y as [|? ? X1 Z]. inversion_clear Z as [|? ? X2 _].
    rewrite (labels_loop_step false fuel left _ _ b0 b1 b2 rest pre) by (auto; lia).
    rewrite usub_false by lia. cbn [bind]. cbv zeta.
    rewrite entry_ends_dec in He by auto. apply not_true_is_false, orb_false_iff in He as [He1 He2].
    rewrite He1, He2. change (256 - 24) with 232.
    destruct (IH ltac:(apply N.mod_lt; discriminate) fuel (pre ++ b0 :: b1 :: b2 :: rest) (pre ++ [b0; b1; b2])) as (ls & HI & HLs); [now rewrite <- app_assoc|auto|lia|].
    replace (length pre + 3)%nat with (length (pre ++ [b0; b1; b2])) by (rewrite app_length; reflexivity).
    rewrite HI. cbn [bind]. exists (be_val [b0; b1; b2] / 16 :: ls). split; [|cbn [length]; f_equal; exact HLs].
    rewrite app_length. cbn [length]. do 2 f_equal. lia.
Qed.

(** every outcome of the loop *)
Lemma labels_loop_release : forall fuel left buf p, bytes_ok buf -> (p <= length buf)%nat -> left < 256 ->
  match labels_loop false fuel left buf p with
  | Ok (ls, q) => q = (p + 3 * length ls)%nat /\ stack_read left (skipn p buf) (length ls)
  | Err _ => False
  | _ => True
  end.
Proof.
  induction fuel as [|fuel IH]; intros left buf p Hb Hp HL; [exact I|].
  destruct (N.ltb_spec 0 left) as [E0|E0].
  2:{ cbn [labels_loop]. replace (0 <? left) with false by (symmetry; now apply N.ltb_ge).
      cbn [length]. split; [lia|]. replace left with 0 by lia. constructor. }
  destruct (skipn p buf) as [|b0 [|b1 [|b2 rest]]] eqn:Es.
  1-3: apply (f_equal (@length N)) in Es; rewrite skipn_length in Es; cbn [length] in Es;
    cbn [labels_loop]; replace (0 <? left) with true by (symmetry; now apply N.ltb_lt);
    destruct (idx buf p) eqn:I0; cbn [bind]; try exact I; [|unfold idx in I0; destruct (nth_error buf p); discriminate];
    destruct (idx buf (p + 1)) eqn:I1; cbn [bind]; try exact I; [|unfold idx in I1; destruct (nth_error buf (p + 1)); discriminate];
    destruct (idx buf (p + 2)) eqn:I2; cbn [bind]; try exact I; [|unfold idx in I2; destruct (nth_error buf (p + 2)); discriminate];
    apply idx_Ok_inv in I2 as [I2 _]; lia.
  assert (Hbs : bytes_ok (skipn p buf)) by now apply Forall_skipn. rewrite Es in Hbs.
  inversion_clear Hbs as [|? ? X0 Y]. inversion_clear Y as [|? ? X1 Z]. inversion_clear Z as [|? ? X2 _].
  assert (Hpre : length (firstn p buf) = p) by (rewrite firstn_length; lia).
  assert (Hbuf : buf = firstn p buf ++ [b0; b1; b2] ++ rest).
  { rewrite <- (firstn_skipn p buf) at 1. now rewrite Es. }
  assert (HL3 : (p + 3 <= length buf)%nat).
  { apply (f_equal (@length N)) in Es. rewrite skipn_length in Es. cbn [length] in Es. lia. }
  rewrite (labels_loop_step false fuel left buf p b0 b1 b2 rest (firstn p buf) Hbuf) by auto.
  rewrite usub_false by lia. change (256 - 24) with 232. cbn [bind]. cbv zeta.
  pose proof (entry_ends_dec b0 b1 b2 X2) as Hed.
  destruct (label_ends (be_val [b0; b1; b2] / 16)) eqn:Ee1.
  { cbn [length]. split; [lia|]. apply sr_last; auto. now apply Hed. }
  destruct (negb (N.land b2 1 =? 0)) eqn:Ee2.
  { cbn [length]. split; [lia|]. apply sr_last; auto. now apply Hed. }
  specialize (IH ((left + 232) mod 256) buf (p + 3)%nat Hb HL3 ltac:(apply N.mod_lt; discriminate)).
  destruct (labels_loop false fuel ((left + 232) mod 256) buf (p + 3)) as [[v q]| | |]; cbn [bind]; auto.
  destruct IH as [-> R]. cbn [length]. split; [lia|].
  rewrite <- (skipn_skipn' 3 p), Es in R. cbn [skipn] in R. apply sr_more; auto.
  rewrite Hed. discriminate.
Qed.

Lemma stack_read_len bits buf k : stack_read bits buf k -> (3 * k <= length buf)%nat.
Proof. induction 1; cbn [length]; lia. Qed.
Lemma labels_extract_read bits buf k : bits < 256 -> bytes_ok buf -> stack_read bits buf k ->
  exists ls, labels_extract false bits buf = Ok (ls, (3 * k)%nat) /\ length ls = k.
Proof.
  intros HB Hb H. pose proof (stack_read_len _ _ _ H) as HL.
  destruct (labels_loop_read bits buf k H HB (S (length buf)) buf [] eq_refl Hb ltac:(lia)) as (ls & H1 & H2).
  exists ls. auto.
Qed.
Lemma labels_extract_release bits buf : bits < 256 -> bytes_ok buf ->
  match labels_extract false bits buf with
  | Ok (ls, q) => q = (3 * length ls)%nat /\ stack_read bits buf (length ls)
  | Err _ => False
  | _ => True
  end.
Proof. intros HB Hb. exact (labels_loop_release (S (length buf)) bits buf 0 Hb ltac:(lia) HB). Qed.
Lemma labels_extract_nofuel oc bits buf : labels_extract oc bits buf <> OutOfFuel.
Proof. apply labels_loop_fuel. lia. Qed.

Definition never {T} (ex : extractor T) : Prop := forall bits buf, bits < 256 -> bytes_ok buf -> is_panic (ex false bits buf) = false.
Lemma at249_never {T} (ex : extractor T) : panic_at_249 false ex -> never ex.
Proof.
  intros H bits buf B Y. destruct (is_panic _) eqn:E; [|reflexivity]. apply H in E as [C _]; [discriminate|auto|auto].
Qed.
Lemma withrd_never {T} (ex : extractor T) : never ex -> never (withrd_extract ex).
Proof.
  intros H bits buf B Y. unfold withrd_extract. destruct (Nat.ltb_spec (length buf) 8) as [E|E]; [reflexivity|].
  rewrite rslice_ok by lia. cbn [bind].
  rewrite decode_rd_ok; [|apply Forall_firstn, Forall_sub, Y|rewrite length_sub; lia]. cbn [bind].
  change (cast 8 (N.of_nat 8 * 8)) with 64. rewrite usub_false by lia. cbn [bind]. rewrite rfrom_ok by lia. cbn [bind].
  assert (M : (bits + (256 - 64)) mod 256 < 256) by (apply N.mod_lt; discriminate).
  specialize (H _ (skipn 8 buf) M ltac:(now apply Forall_skipn)).
  destruct (ex false _ _) as [[? ?]| | |]; auto.
Qed.
Lemma labeled_release {T} (ex : extractor T) bits buf : never ex -> bits < 256 -> bytes_ok buf ->
  (is_panic (labeled_extract ex false bits buf) = false <-> exists k, stack_read bits buf k).
Proof.
  intros H B Y. unfold labeled_extract. pose proof (labels_extract_release bits buf B Y) as R.
  pose proof (labels_extract_nofuel false bits buf) as F.
  split.
  - intros P. destruct (labels_extract false bits buf) as [[ls q]| | |]; try contradiction; try discriminate.
    destruct R as [_ R]. eauto.
  - intros [k K]. pose proof (stack_read_len _ _ _ K) as L.
    destruct (labels_extract_read bits buf k B Y K) as (ls & -> & _). cbn [bind].
    rewrite usub_false; [|exact B|unfold cast; change (2 ^ 8) with 256; pose proof (N.mod_lt (N.of_nat (3 * k) * 8) 256 ltac:(discriminate)); lia].
    cbn [bind]. rewrite rfrom_ok by lia. cbn [bind].
    match goal with |- context [ex false ?b ?s] => assert (M : b < 256) by (apply N.mod_lt; discriminate);
      specialize (H b s M ltac:(now apply Forall_skipn)); destruct (ex false b s) as [[? ?]| | |] end; auto.
Qed.
Lemma C56_release_exact_l bits buf : bits < 256 -> bytes_ok buf ->
  (is_panic (decode_bgpitem_from false (labeled_extract v4_from_bits) (bits :: buf)) = false <-> exists k, stack_read bits buf k) /\
  (is_panic (decode_bgpitem_from false (labeled_extract v6_from_bits) (bits :: buf)) = false <-> exists k, stack_read bits buf k) /\
  (is_panic (decode_bgpitem_from false (labeled_extract (withrd_extract v4_from_bits)) (bits :: buf)) = false <-> exists k, stack_read bits buf k) /\
  (is_panic (decode_bgpitem_from false (labeled_extract (withrd_extract v6_from_bits)) (bits :: buf)) = false <-> exists k, stack_read bits buf k).
Proof.
  intros B Y. rewrite !decode_bgpitem_cons_panic.
  repeat apply conj; apply labeled_release; auto; repeat apply withrd_never; apply at249_never; first [apply v4_panic|apply v6_panic].
Qed.

(** * Framing without overflow checks *)
Definition framed_mod {T} (h : T -> nat) (ex : extractor T) : Prop := forall bits buf x n, bits < 256 -> bytes_ok buf ->
  ex false bits buf = Ok (x, n) -> n = (h x + prefix_octets ((bits + 248 * N.of_nat (h x)) mod 256))%nat.
Lemma framed_framed_mod {T} (ex : extractor T) : framed false ex -> framed_mod (fun _ => 0%nat) ex.
Proof.
  intros H bits buf x n B Y E. apply H in E as [-> _]; auto. cbn [N.of_nat]. rewrite N.mul_0_r, N.add_0_r, N.mod_small; auto.
Qed.
Lemma withrd_framed_mod {T} h (ex : extractor T) : framed_mod h ex -> framed_mod (fun x => (8 + h (wrd_prefix x))%nat) (withrd_extract ex).
Proof.
  intros Hf bits buf x n Hb Hby H. unfold withrd_extract in H.
  destruct (Nat.ltb (length buf) 8) eqn:E; [discriminate|]. apply Nat.ltb_ge in E.
  rewrite rslice_ok in H by lia. cbn [bind] in H.
  rewrite decode_rd_ok in H; [|apply Forall_firstn, Forall_sub, Hby|rewrite length_sub; lia]. cbn [bind] in H.
  change (cast 8 (N.of_nat 8 * 8)) with 64 in H. rewrite usub_false in H by lia. change (256 - 64) with 192 in H. cbn [bind] in H.
  apply bind_Ok_inv in H as [s [H3 H]].
  apply bind_Ok_inv in H as [[p pn] [H4 H]]. apply rfrom_Ok_inv in H3 as [H3 ->].
  assert (n = (8 + pn)%nat /\ wrd_prefix x = p) as [-> <-] by (split; [congruence|]; destruct x; injection H as -> _ _; reflexivity).
  apply Hf in H4; [|apply N.mod_lt; discriminate|now apply Forall_skipn]. rewrite H4 at 1.
  rewrite N.add_mod_idemp_l by discriminate. remember (h (wrd_prefix x)) as k.
  replace (bits + 248 * N.of_nat (8 + k)) with (bits + 192 + 248 * N.of_nat k + 7 * 256) by lia.
  rewrite N.mod_add by discriminate. lia.
Qed.
Lemma labeled_framed_mod {T} h (ex : extractor T) : framed_mod h ex ->
  framed_mod (fun x => (3 * length (lab_labels x) + h (lab_prefix x))%nat) (labeled_extract ex).
Proof.
  intros Hf bits buf x n Hb Hby H. unfold labeled_extract in H.
  apply bind_Ok_inv in H as [[ls q] [H1 H]].
  pose proof (labels_extract_release bits buf Hb Hby) as R. rewrite H1 in R. destruct R as [-> _].
  rewrite usub_false in H; [|exact Hb|unfold cast; change (2 ^ 8) with 256; pose proof (N.mod_lt (N.of_nat (3 * length ls) * 8) 256 ltac:(discriminate)); lia].
  cbn [bind] in H. apply bind_Ok_inv in H as [s [H3 H]].
  apply bind_Ok_inv in H as [[p pn] [H4 H]]. injection H as <- <-. cbn [lab_labels lab_prefix].
  apply rfrom_Ok_inv in H3 as [H3 ->].
  apply Hf in H4; [|apply N.mod_lt; discriminate|now apply Forall_skipn]. rewrite H4 at 1.
  rewrite N.add_mod_idemp_l by discriminate.
  remember (h p) as k. remember (length ls) as j.
  assert (E : ((bits + (256 - cast 8 (N.of_nat (3 * j) * 8)) + 248 * N.of_nat k) mod 256 =
               (bits + 248 * N.of_nat (3 * j + k)) mod 256)).
  { unfold cast. change (2 ^ 8) with 256. clear.
    pose proof (N.div_mod (N.of_nat (3 * j) * 8) 256 ltac:(discriminate)) as D.
    pose proof (N.mod_lt (N.of_nat (3 * j) * 8) 256 ltac:(discriminate)) as L.
    set (r := (N.of_nat (3 * j) * 8) mod 256) in *. set (d := N.of_nat (3 * j) * 8 / 256) in *.
    rewrite <- (N.mod_add (bits + (256 - r) + _) (N.of_nat (3 * j)) 256) by discriminate.
    rewrite <- (N.mod_add (bits + 248 * _) (d + 1) 256) by discriminate.
    f_equal. lia. }
  rewrite E. lia.
Qed.
(** the octets read exceed the announced ones by 32 per wrap-around *)
Lemma wraps bits h : bits < 256 -> exists m,
  (h + prefix_octets ((bits + 248 * N.of_nat h) mod 256) = prefix_octets bits + 32 * m)%nat /\
  8 * N.of_nat h <= bits + 256 * N.of_nat m < 8 * N.of_nat h + 256.
Proof.
  intros B. set (q := (bits + 248 * N.of_nat h) / 256). set (r := (bits + 248 * N.of_nat h) mod 256).
  pose proof (N.div_mod (bits + 248 * N.of_nat h) 256 ltac:(discriminate)) as D. fold q r in D.
  assert (R : r < 256) by (apply N.mod_lt; discriminate).
  assert (Q : q <= N.of_nat h). { clearbody q r. nia. }
  exists (N.to_nat (N.of_nat h - q)). rewrite N2Nat.id. clearbody q r.
  assert (E : bits + 256 * (N.of_nat h - q) = 8 * N.of_nat h + r) by nia.
  split; [|lia].
  rewrite <- prefix_octets_add, <- E.
  replace (bits + 256 * (N.of_nat h - q)) with (8 * N.of_nat (32 * N.to_nat (N.of_nat h - q)) + bits) by lia.
  rewrite prefix_octets_add. lia.
Qed.
Lemma item_framed_mod {T} h (ex : extractor T) bits buf x n : framed_mod h ex -> bytes_ok (bits :: buf) ->
  decode_bgpitem_from false ex (bits :: buf) = Ok (x, n) ->
  exists m, n = (S (prefix_octets bits) + 32 * m)%nat /\
    8 * N.of_nat (h x) <= bits + 256 * N.of_nat m < 8 * N.of_nat (h x) + 256.
Proof.
  intros Hf Y H. rewrite decode_bgpitem_cons in H. inversion_clear Y as [|? ? B Yb].
  apply bind_Ok_inv in H as [[y k] [H1 H]]. injection H as <- <-. apply Hf in H1; auto.
  destruct (wraps bits (h y) B) as (m & M1 & M2). exists m. split; [lia|exact M2].
Qed.
Lemma C62_release_exact_l bits buf : bytes_ok (bits :: buf) ->
  (forall x n, decode_bgpitem_from false (labeled_extract v4_from_bits) (bits :: buf) = Ok (x, n) ->
     exists m, n = (S (prefix_octets bits) + 32 * m)%nat /\
       24 * N.of_nat (length (lab_labels x)) <= bits + 256 * N.of_nat m < 24 * N.of_nat (length (lab_labels x)) + 256) /\
  (forall x n, decode_bgpitem_from false (labeled_extract v6_from_bits) (bits :: buf) = Ok (x, n) ->
     exists m, n = (S (prefix_octets bits) + 32 * m)%nat /\
       24 * N.of_nat (length (lab_labels x)) <= bits + 256 * N.of_nat m < 24 * N.of_nat (length (lab_labels x)) + 256) /\
  (forall x n, decode_bgpitem_from false (labeled_extract (withrd_extract v4_from_bits)) (bits :: buf) = Ok (x, n) ->
     exists m, n = (S (prefix_octets bits) + 32 * m)%nat /\
       24 * N.of_nat (length (lab_labels x)) + 64 <= bits + 256 * N.of_nat m < 24 * N.of_nat (length (lab_labels x)) + 64 + 256) /\
  (forall x n, decode_bgpitem_from false (labeled_extract (withrd_extract v6_from_bits)) (bits :: buf) = Ok (x, n) ->
     exists m, n = (S (prefix_octets bits) + 32 * m)%nat /\
       24 * N.of_nat (length (lab_labels x)) + 64 <= bits + 256 * N.of_nat m < 24 * N.of_nat (length (lab_labels x)) + 64 + 256).
Proof.
  intros Y.
  assert (F4 : framed_mod (fun _ => 0%nat) v4_from_bits) by apply framed_framed_mod, v4_framed.
  assert (F6 : framed_mod (fun _ => 0%nat) v6_from_bits) by apply framed_framed_mod, v6_framed.
  repeat apply conj; intros x n H.
  1,2: eapply item_framed_mod in H as (m & M1 & M2); [|eapply labeled_framed_mod; eassumption|exact Y].
  3,4: eapply item_framed_mod in H as (m & M1 & M2); [|eapply labeled_framed_mod, withrd_framed_mod; eassumption|exact Y].
  all: cbv beta in M2; exists m; split; [exact M1|]; clear - M2; lia.
Qed.
Lemma C62_release_refuted_l bits buf : bytes_ok (bits :: buf) ->
  (forall x n, decode_bgpitem_from false (labeled_extract v4_from_bits) (bits :: buf) = Ok (x, n) ->
     bits < 24 * N.of_nat (length (lab_labels x)) -> ~ announced (bits :: buf) n) /\
  (forall x n, decode_bgpitem_from false (labeled_extract v6_from_bits) (bits :: buf) = Ok (x, n) ->
     bits < 24 * N.of_nat (length (lab_labels x)) -> ~ announced (bits :: buf) n) /\
  (forall x n, decode_bgpitem_from false (labeled_extract (withrd_extract v4_from_bits)) (bits :: buf) = Ok (x, n) ->
     bits < 24 * N.of_nat (length (lab_labels x)) + 64 -> ~ announced (bits :: buf) n) /\
  (forall x n, decode_bgpitem_from false (labeled_extract (withrd_extract v6_from_bits)) (bits :: buf) = Ok (x, n) ->
     bits < 24 * N.of_nat (length (lab_labels x)) + 64 -> ~ announced (bits :: buf) n).
Proof.
  intros Y. destruct (C62_release_exact_l bits buf Y) as (A & B & C & D).
  repeat apply conj; intros x n H L (b & r & E & En & _); injection E as <- <-;
    first [apply A in H | apply B in H | apply C in H | apply D in H]; destruct H as (m & M1 & M2 & _); clear - L En M1 M2; lia.
Qed.

(** * ADD-PATH lists with overflow checks *)
Lemma pid_items_panic {T} oc (ex : extractor T) st wf W nm l : codec_ok oc ex st wf W nm -> codec_inj oc ex wf W ->
  panic_at_249 oc ex -> bytes_ok l ->
  (is_panic (decode_pathid_bgpitems_from oc ex l) = true <->
   oc = true /\ exists v i b post, Forall (fun x => pid x < 2 ^ 32 /\ wf (pid_nlri x)) v /\ length i = 4%nat /\
     l = pid_items_wire W v ++ i ++ b :: post /\ 249 <= b).
Proof.
  intros Hc Hi Hp Hb. split.
  - intros H. unfold decode_pathid_bgpitems_from in H.
    assert (G : forall fuel p, is_panic (dec_pathid_loop oc ex fuel l p) = true -> (p <= length l)%nat ->
      oc = true /\ exists v i b post, Forall (fun x => pid x < 2 ^ 32 /\ wf (pid_nlri x)) v /\ length i = 4%nat /\
        skipn p l = pid_items_wire W v ++ i ++ b :: post /\ 249 <= b).
    { clear H. induction fuel as [|fuel IH]; intros p H Hpl; [discriminate|].
      destruct (Nat.ltb_spec (p + 4) (length l)) as [E|E].
      2:{ rewrite dec_pathid_end in H by lia. discriminate. }
      rewrite dec_pathid_step in H by lia.
      rewrite getn_u32_ok in H by (try apply Forall_skipn; auto; rewrite skipn_length; lia). cbn [bind] in H.
      assert (Hbs : bytes_ok (skipn (p + 4) l)) by now apply Forall_skipn.
      assert (L4 : length (firstn 4 (skipn p l)) = 4%nat) by (rewrite firstn_length, skipn_length; lia).
      assert (B4 : bytes_ok (firstn 4 (skipn p l))) by (apply Forall_firstn, Forall_skipn, Hb).
      assert (S4 : skipn p l = firstn 4 (skipn p l) ++ skipn (p + 4) l).
      { rewrite <- (skipn_skipn' 4 p). symmetry. apply firstn_skipn. }
      destruct (decode_bgpitem_from oc ex (skipn (p + 4) l)) as [[x n]|e| |] eqn:Ed; cbn [bind] in H; try discriminate.
      - apply (decode_bgpitem_inv oc ex wf W) in Ed as (Hw & Hn & Hf & _); auto. rewrite skipn_length in Hn.
        destruct (IH (p + 4 + n)%nat) as (Ho & v & i & b & post & Hv & Hi4 & He & H249).
        { destruct (dec_pathid_loop _ _ fuel l (p + 4 + n)) as [[? ?]| | |]; try discriminate. reflexivity. }
        { lia. }
        split; auto. exists (mkPid (be_val (firstn 4 (skipn p l))) x :: v), i, b, post. split; [|split; [exact Hi4|split; [|exact H249]]].
        + constructor; auto. cbn [pid pid_nlri]. split; auto. pose proof (be_val_bound _ B4) as HB. rewrite L4 in HB. exact HB.
        + cbn [pid_items_wire flat_map pid pid_nlri]. fold (pid_items_wire W v).
          rewrite <- L4 at 1. rewrite be_bytes_be_val by exact B4. rewrite S4 at 1. rewrite <- !app_assoc. f_equal.
          rewrite <- He, <- (skipn_skipn' n (p + 4)), <- Hf. symmetry. apply firstn_skipn.
      - destruct (skipn (p + 4) l) as [|b l'] eqn:El.
        { apply (f_equal (@length N)) in El. rewrite skipn_length in El. cbn in El. lia. }
        apply (f_equal is_panic) in Ed. rewrite decode_bgpitem_cons_panic in Ed. inversion_clear Hbs as [|? ? Hb0 Hbl].
        apply Hp in Ed as [Ho H249]; auto. split; auto. exists [], (firstn 4 (skipn p l)), b, l'. repeat split; auto. }
    destruct (G _ 0%nat H ltac:(lia)) as [Ho G']. split; auto.
  - intros [-> (v & i & b & post & Hv & Hi4 & -> & H249)]. unfold decode_pathid_bgpitems_from.
    assert (G : forall v, Forall (fun x => pid x < 2 ^ 32 /\ wf (pid_nlri x)) v -> forall pre fuel,
      bytes_ok (pre ++ pid_items_wire W v ++ i ++ b :: post) -> (length (pid_items_wire W v) < fuel)%nat ->
      dec_pathid_loop true ex fuel (pre ++ pid_items_wire W v ++ i ++ b :: post) (length pre) = Panic).
    { clear v Hv Hb. induction v as [|x v IH]; intros Hv pre fuel Hb Hf; (destruct fuel as [|fuel]; [lia|]).
      - cbn [pid_items_wire flat_map app] in *. apply Forall_app in Hb as [Hb1 Hb2]. apply Forall_app in Hb2 as [Hbi Hbb].
        inversion_clear Hbb as [|? ? Hb0 Hbp].
        rewrite dec_pathid_step by (rewrite !app_length; cbn [length]; lia).
        rewrite skipn_app_exact by reflexivity.
        rewrite getn_u32_ok by (try (apply Forall_app; split; auto); try (rewrite app_length; lia); constructor; auto). cbn [bind].
        rewrite <- (skipn_skipn' 4 (length pre)), skipn_app_exact by reflexivity. rewrite skipn_app_exact by exact Hi4.
        assert (HP : decode_bgpitem_from true ex (b :: post) = Panic).
        { assert (X : is_panic (decode_bgpitem_from true ex (b :: post)) = true) by (rewrite decode_bgpitem_cons_panic; apply Hp; auto).
          destruct (decode_bgpitem_from true ex (b :: post)); try discriminate. reflexivity. }
        rewrite HP. reflexivity.
      - inversion_clear Hv as [|? ? [Hpx Hw] Hv'].
        set (E := be_bytes 4 (pid x) ++ fst (W (pid_nlri x)) :: snd (W (pid_nlri x))).
        assert (EE : pid_items_wire W (x :: v) = E ++ pid_items_wire W v) by reflexivity.
        assert (LE : length E = (4 + S (length (snd (W (pid_nlri x)))))%nat) by (unfold E; rewrite app_length, length_be_bytes; reflexivity).
        rewrite EE, <- !app_assoc in *. rewrite app_length in Hf.
        rewrite dec_pathid_step by (rewrite !app_length; cbn [length]; lia).
        rewrite skipn_app_exact by reflexivity. unfold E at 1. rewrite <- app_assoc, getn_u32_be by exact Hpx. cbn [bind].
        replace (skipn (length pre + 4) (pre ++ E ++ pid_items_wire W v ++ i ++ b :: post))
          with ((fst (W (pid_nlri x)) :: snd (W (pid_nlri x))) ++ pid_items_wire W v ++ i ++ b :: post).
        2:{ rewrite <- skipn_skipn', skipn_app_exact by reflexivity. unfold E.
            rewrite <- app_assoc, skipn_app_exact by apply length_be_bytes. reflexivity. }
        rewrite (decode_bgpitem_ok true ex st wf W nm) by auto. cbn [bind].
        rewrite (app_assoc pre E). rewrite (app_assoc pre E) in Hb. replace (length pre + 4 + S (length (snd (W (pid_nlri x)))))%nat with (length (pre ++ E)) by (rewrite app_length; lia).
        rewrite IH by (auto; lia). reflexivity. }
    rewrite (G v Hv [] _ Hb); [reflexivity|]. rewrite app_length. cbn [app]. lia.
Qed.
Lemma C55_pid4_l oc l : bytes_ok l ->
  (is_panic (decode_pathid_bgpitems_from oc v4_from_bits l) = true <->
   oc = true /\ exists v i b post, Forall (fun x => pid x < 2 ^ 32 /\ v4_wf (pid_nlri x)) v /\ length i = 4%nat /\
     l = pid_items_wire v4_wire v ++ i ++ b :: post /\ 249 <= b).
Proof. intros H. eapply pid_items_panic; eauto; [apply v4_codec|apply v4_inj|apply v4_panic]. Qed.
Lemma C55_pid6_l oc l : bytes_ok l ->
  (is_panic (decode_pathid_bgpitems_from oc v6_from_bits l) = true <->
   oc = true /\ exists v i b post, Forall (fun x => pid x < 2 ^ 32 /\ v6_wf (pid_nlri x)) v /\ length i = 4%nat /\
     l = pid_items_wire v6_wire v ++ i ++ b :: post /\ 249 <= b).
Proof. intros H. eapply pid_items_panic; eauto; [apply v6_codec|apply v6_inj|apply v6_panic]. Qed.

Lemma C12_refuted_all oc v trail : Forall (fun x => pid x < 2 ^ 32 /\ v4_wf (pid_nlri x)) v -> (1 <= length trail <= 4)%nat ->
  exists r n, decode_pathid_bgpitems_from oc v4_from_bits (pid_items_wire v4_wire v ++ trail) = Ok (r, n) /\
    length r = length v /\ (n < length (pid_items_wire v4_wire v ++ trail))%nat.
Proof.
  intros H L. do 2 eexists. split; [apply C12_pid_drop4_l; auto; lia|]. rewrite map_length, app_length. split; [reflexivity|lia].
Qed.
Lemma is_panic_eq {A} (r : res A) : is_panic r = true -> r = Panic.
Proof. destruct r; try discriminate. reflexivity. Qed.
Lemma C55_refuted_all b post : 249 <= b -> bytes_ok (b :: post) ->
  (forall v, Forall v4_wf v -> bytes_ok (items_wire v4_wire v) -> decode_bgpitems_from true v4_from_bits (items_wire v4_wire v ++ b :: post) = Panic) /\
  (forall v, Forall v6_wf v -> bytes_ok (items_wire v6_wire v) -> decode_bgpitems_from true v6_from_bits (items_wire v6_wire v ++ b :: post) = Panic).
Proof.
  intros B Y. split; intros v Hv Yv; apply is_panic_eq; [apply C55_v4_l|apply C55_v6_l]; try (apply Forall_app; auto);
    (split; [reflexivity|]); exists v, b, post; auto.
Qed.
(** a route whose stack of labels is cut short *)
Lemma read_cut bits E : forall tl, Forall (fun e => length e = 3%nat /\ forall b0 b1 b2, e = [b0; b1; b2] -> ~ entry_ends b0 b1 b2) E ->
  24 * N.of_nat (length E) < bits -> bits < 256 -> (length tl < 3)%nat -> forall k, ~ stack_read bits (concat E ++ tl) k.
Proof.
  revert bits. induction E as [|e E IH]; intros bits tl HE HL HB HT k K.
  - cbn [concat app] in K. inversion K; subst; cbn [length] in *; lia.
  - inversion_clear HE as [|? ? [He Hn] HE']. destruct e as [|b0 [|b1 [|b2 [|]]]]; try discriminate He.
    cbn [concat app length] in *. inversion K; subst.
    + cbn in HL. lia.
    + now apply (Hn b0 b1 b2).
    + match goal with R : stack_read ((bits + 232) mod 256) _ _ |- _ => apply (IH ((bits + 232) mod 256) tl HE') in R; auto end.
      * replace (bits + 232) with (bits - 24 + 1 * 256) by lia. rewrite N.mod_add by discriminate. rewrite N.mod_small; lia.
      * apply N.mod_lt. discriminate.
Qed.
Lemma complete_read bits buf k : stack_complete bits buf k -> bits < 256 -> stack_read bits buf k.
Proof.
  induction 1 as [buf|bits b0 b1 b2 rest Hl He|bits b0 b1 b2 rest k Hl He Hc IH]; intros HB.
  - constructor.
  - apply sr_last; auto. lia.
  - apply sr_more; auto; [lia|]. replace (bits + 232) with (bits - 24 + 1 * 256) by lia. rewrite N.mod_add by discriminate. rewrite N.mod_small; [apply IH; lia|lia].
Qed.
Lemma item_items_panic {T} oc (ex : extractor T) l : l <> [] -> decode_bgpitem_from oc ex l = Panic -> decode_bgpitems_from oc ex l = Panic.
Proof.
  intros Hn H. unfold decode_bgpitems_from. destruct l; [easy|]. rewrite dec_loop_step by (cbn; lia). cbn [skipn]. now rewrite H.
Qed.
Lemma C56_refuted_all oc bits E tl : bytes_ok (bits :: concat E ++ tl) ->
  Forall (fun e => length e = 3%nat /\ forall b0 b1 b2, e = [b0; b1; b2] -> ~ entry_ends b0 b1 b2) E ->
  24 * N.of_nat (length E) < bits -> (length tl < 3)%nat ->
  decode_bgpitems_from oc (labeled_extract v4_from_bits) (bits :: concat E ++ tl) = Panic /\
  decode_bgpitems_from oc (labeled_extract v6_from_bits) (bits :: concat E ++ tl) = Panic /\
  decode_bgpitems_from oc (labeled_extract (withrd_extract v4_from_bits)) (bits :: concat E ++ tl) = Panic /\
  decode_bgpitems_from oc (labeled_extract (withrd_extract v6_from_bits)) (bits :: concat E ++ tl) = Panic.
Proof.
  intros Y HE HL HT. inversion_clear Y as [|? ? B Yb].
  pose proof (read_cut bits E tl HE HL B HT) as NR.
  assert (NC : forall k, ~ stack_complete bits (concat E ++ tl) k) by (intros k K; apply (NR k), complete_read; auto).
  assert (G : forall b : bool, (b = false -> False) -> b = true) by (intros []; [auto|intros H; destruct (H eq_refl)]).
  destruct oc.
  - destruct (C56_lu_l bits (concat E ++ tl) B Yb) as [A1 A2]. destruct (C56_vpn_l bits (concat E ++ tl) B Yb) as [A3 A4].
    repeat apply conj; (apply item_items_panic; [discriminate|]); apply is_panic_eq, G; intros H;
      [apply A1 in H as [k K]|apply A2 in H as [k K]|apply A3 in H as (k & K & _)|apply A4 in H as (k & K & _)]; now apply (NC k).
  - destruct (C56_release_exact_l bits (concat E ++ tl) B Yb) as (A1 & A2 & A3 & A4).
    repeat apply conj; (apply item_items_panic; [discriminate|]); apply is_panic_eq, G; intros H;
      [apply A1 in H as [k K]|apply A2 in H as [k K]|apply A3 in H as [k K]|apply A4 in H as [k K]]; now apply (NR k).
Qed.
