(** What a decoder leaves in the object it decodes into: proofs of C111. *)
From Verif Require Import Base BaseFacts M_Util S_Wire F_Util M_Cap M_Open F_Open F_Lay M_Session M_Prefix M_Nlri M_Addrs M_Attr M_Update S_Update F_Update M_State S_State.
Ltac Zify.zify_post_hook ::= idtac.

(** ** Agreement with the models that return the object *)
Lemma fin_do {S A B} (r : res A) (f : A -> St S B) s (g : A -> res S) : (forall x, finished (f x s) = g x) -> finished (sbind (sdo r) f s) = (x <- r ;; g x).
Proof. intros H. unfold sbind, sdo. destruct r; cbn [bind]; [apply H| | |]; reflexivity. Qed.
Lemma fin_set {S B} (h : S -> S) (f : unit -> St S B) s r : finished (f tt (h s)) = r -> finished (sbind (sset h) f s) = r.
Proof. intros H. exact H. Qed.
Lemma notif_same m buf : finished (notif_decode_in buf m) = notif_decode m buf.
Proof.
  unfold notif_decode_in, notif_decode. destruct (Nat.ltb (length buf) 2); [reflexivity|]. apply fin_do. intros c. apply fin_set. apply fin_do. intros s. apply fin_set. cbv zeta.
  destruct (Nat.eqb_spec (length buf) 3) as [E|E].
  - replace (Nat.ltb 3 (length buf)) with false by (symmetry; apply Nat.ltb_ge; lia). unfold sbind, sdo, sset. destruct (idx buf 2); reflexivity.
  - destruct (Nat.ltb 3 (length buf)); [|reflexivity]. unfold sbind, sdo, sset. destruct (idx buf 2); try reflexivity. cbn [bind]. destruct (idx buf 3); reflexivity.
Qed.
Definition push_caps (v : list bgpcap) (m : openMsg) : openMsg := mkOpen (op_as m) (op_hold m) (op_rid m) (op_caps m ++ v).
Lemma push_caps_nil m : push_caps [] m = m.
Proof. unfold push_caps. rewrite app_nil_r. now destruct m. Qed.
Lemma push_caps_app a b m : push_caps b (push_caps a m) = push_caps (a ++ b) m.
Proof. unfold push_caps. cbn. now rewrite app_assoc. Qed.
(** [in_step run r push s]: the run ends as the result says, with something pushed *)
Lemma caps_same fuel : forall buf pos ol m, exists v,
  open_caps_in fuel buf pos ol m = (match open_caps_loop fuel buf pos ol with Ok (_, q) => Ok q | Err e => Err e | Panic => Panic | OutOfFuel => OutOfFuel end, push_caps v m) /\
  forall w q, open_caps_loop fuel buf pos ol = Ok (w, q) -> v = w.
Proof.
  induction fuel as [|fuel IH]; intros buf pos ol m; destruct ol as [|ol]; cbn [open_caps_in open_caps_loop];
    try (exists []; rewrite push_caps_nil; split; [reflexivity|intros w q E; congruence]).
  unfold sbind at 1, sdo at 1. destruct (eslice buf pos (pos + S ol)) as [s|er| |]; cbn [bind]; try (exists []; rewrite push_caps_nil; split; [reflexivity|discriminate]).
  unfold sbind at 1, sdo at 1. destruct (from_buffer s) as [[mc used]|er| |]; cbn [bind]; try (exists []; rewrite push_caps_nil; split; [reflexivity|discriminate]).
  destruct (Nat.ltb (S ol) used); [exists []; rewrite push_caps_nil; split; [reflexivity|discriminate]|].
  destruct mc as [c|x].
  - unfold sbind at 1, sset at 1. fold (push_caps [c] m). destruct (IH buf (pos + used)%nat (S ol - used)%nat (push_caps [c] m)) as (v & E & EV). exists (c :: v). rewrite E, push_caps_app.
    destruct (open_caps_loop fuel buf (pos + used) (S ol - used)) as [[w q]|er| |]; cbn [bind]; (split; [reflexivity|]); try discriminate.
    intros w' q' F. rewrite (EV w q eq_refl). congruence.
  - unfold sbind at 1, sdo at 1. destruct (IH buf (pos + used)%nat (S ol - used)%nat m) as (v & E & EV). exists v. rewrite E.
    destruct (open_caps_loop fuel buf (pos + used) (S ol - used)) as [[w q]|er| |]; cbn [bind]; (split; [reflexivity|]); try discriminate.
    intros w' q' F. rewrite (EV w q eq_refl). congruence.
Qed.
Lemma params_same fuel : forall buf pos m, exists v,
  open_params_in fuel buf pos m = (match open_params_loop fuel buf pos with Ok _ => Ok tt | Err e => Err e | Panic => Panic | OutOfFuel => OutOfFuel end, push_caps v m) /\
  forall w, open_params_loop fuel buf pos = Ok w -> v = w.
Proof.
  induction fuel as [|fuel IH]; intros buf pos m; cbn [open_params_in open_params_loop]; destruct (Nat.ltb (pos + 1) (length buf));
    try (exists []; rewrite push_caps_nil; split; [reflexivity|intros w E; congruence]).
  unfold sbind at 1, sdo at 1. destruct (idx buf pos) as [t|er| |]; cbn [bind]; try (exists []; rewrite push_caps_nil; split; [reflexivity|discriminate]).
  destruct (negb (t =? 2)); [exists []; rewrite push_caps_nil; split; [reflexivity|discriminate]|].
  unfold sbind at 1, sdo at 1. destruct (idx buf (pos + 1)) as [ol|er| |]; cbn [bind]; try (exists []; rewrite push_caps_nil; split; [reflexivity|discriminate]).
  unfold sbind at 1. destruct (caps_same (length buf) buf (pos + 2) (N.to_nat ol) m) as (v & E & EV). rewrite E.
  destruct (open_caps_loop (length buf) buf (pos + 2) (N.to_nat ol)) as [[w q]|er| |]; cbn [bind]; try (exists v; split; [reflexivity|discriminate]).
  rewrite (EV w q eq_refl). destruct (IH buf q (push_caps w m)) as (v' & E' & EV'). exists (w ++ v'). rewrite E', push_caps_app.
  destruct (open_params_loop fuel buf q) as [u|er| |]; cbn [bind]; (split; [reflexivity|]); try discriminate. intros x F. rewrite (EV' u eq_refl). congruence.
Qed.
Lemma open_same m buf : finished (open_decode_in buf m) = open_decode m buf.
Proof.
  unfold open_decode_in, open_decode. destruct (Nat.ltb (length buf) 10); [reflexivity|]. apply fin_do. intros v. destruct (negb (v =? 4)); [reflexivity|].
  apply fin_do. intros ptr. do 2 (apply fin_do; intros ?). apply fin_set. do 2 (apply fin_do; intros ?). apply fin_set. do 4 (apply fin_do; intros ?). do 2 apply fin_set. cbv zeta.
  match goal with |- finished (open_params_in _ _ _ ?s) = _ => destruct (params_same (length buf) buf 10 s) as (w & E & EV) end. rewrite E.
  destruct (open_params_loop (length buf) buf 10) as [u|er| |]; try reflexivity. rewrite (EV u eq_refl). reflexivity.
Qed.
Definition push_attrs (v : list attr) (m : update) : update := mkUpd (u_updates m) (u_withdraws m) (u_attrs m ++ v).
Lemma push_attrs_nil m : push_attrs [] m = m.
Proof. unfold push_attrs. rewrite app_nil_r. now destruct m. Qed.
Lemma push_attrs_app a b m : push_attrs b (push_attrs a m) = push_attrs (a ++ b) m.
Proof. unfold push_attrs. cbn. now rewrite app_assoc. Qed.
(** what is pushed are the attributes in front of some position *)
Lemma attrs_same oc p buf e : forall fuel cur m, (cur <= e)%nat -> exists v k,
  upd_attrs_in fuel oc p buf cur e m = (match upd_attrs fuel oc p buf cur e with Ok (_, q) => Ok q | Err e => Err e | Panic => Panic | OutOfFuel => OutOfFuel end, push_attrs v m) /\
  (forall w q, upd_attrs fuel oc p buf cur e = Ok (w, q) -> v = w) /\
  (cur <= k <= e)%nat /\ forall f2, (k - cur < f2)%nat -> upd_attrs f2 oc p buf cur k = Ok (v, k).
Proof.
  assert (Z : forall cur f2, (cur - cur < f2)%nat -> upd_attrs f2 oc p buf cur cur = Ok ([], cur)).
  { intros cur [|f2] L; [lia|]. cbn [upd_attrs]. now rewrite Nat.ltb_irrefl. }
  induction fuel as [|fuel IH]; intros cur m L; cbn [upd_attrs_in upd_attrs].
  { exists [], cur. rewrite push_attrs_nil. split; [reflexivity|]. split; [discriminate|]. split; [lia|apply Z]. }
  destruct (Nat.ltb_spec cur e) as [L1|L1].
  2:{ exists [], cur. rewrite push_attrs_nil. split; [reflexivity|]. split; [congruence|]. split; [lia|apply Z]. }
  unfold sbind at 1, sdo at 1. destruct (idx buf cur) as [fl|er| |] eqn:E0; cbn [bind]; try (exists [], cur; rewrite push_attrs_nil; split; [reflexivity|split; [discriminate|split; [lia|apply Z]]]).
  unfold sbind at 1, sdo at 1. destruct (idx buf (cur + 1)) as [tc|er| |] eqn:E1; cbn [bind]; try (exists [], cur; rewrite push_attrs_nil; split; [reflexivity|split; [discriminate|split; [lia|apply Z]]]).
  unfold sbind at 1, sdo at 1.
  match goal with |- context [match (if ?c then ?x else ?y) with Ok _ => _ | Err _ => _ | Panic => _ | OutOfFuel => _ end] => destruct (if c then x else y) as [[al c1]|er| |] eqn:E2 end;
    cbn [bind]; try (exists [], cur; rewrite push_attrs_nil; split; [reflexivity|split; [discriminate|split; [lia|apply Z]]]).
  assert (Hc : (cur < c1)%nat).
  { clear - E2. destruct (0 <? N.land fl 16); [apply bind_Ok_inv in E2 as (? & _ & E2)|]; apply bind_Ok_inv in E2 as (? & _ & E2); assert (c1 = cur + 4 \/ c1 = cur + 3)%nat by (solve [left; congruence|right; congruence]); lia. }
  destruct (Nat.ltb_spec e (c1 + al)) as [L2|L2]; [exists [], cur; rewrite push_attrs_nil; split; [reflexivity|split; [discriminate|split; [lia|apply Z]]]|].
  unfold sbind at 1, sdo at 1. destruct (eslice buf c1 (c1 + al)) as [s|er| |] eqn:E3; cbn [bind]; try (exists [], cur; rewrite push_attrs_nil; split; [reflexivity|split; [discriminate|split; [lia|apply Z]]]).
  unfold sbind at 1, sdo at 1. destruct (attr_decode oc p tc fl al s) as [a|er| |] eqn:E4; cbn [bind]; try (exists [], cur; rewrite push_attrs_nil; split; [reflexivity|split; [discriminate|split; [lia|apply Z]]]).
  unfold sbind at 1, sset at 1. fold (push_attrs [a] m). destruct (IH (c1 + al)%nat (push_attrs [a] m) L2) as (v & k & EI & EV & HK & EK).
  exists (a :: v), k. rewrite EI, push_attrs_app. destruct (upd_attrs fuel oc p buf (c1 + al) e) as [[w q]|er| |]; cbn [bind].
  1: split; [reflexivity|]; split; [intros w' q' F; rewrite (EV w q eq_refl); congruence|].
  2,3,4: split; [reflexivity|]; split; [discriminate|].
  all: split; [lia|]; intros [|f2] Lf; [lia|]; cbn [upd_attrs]; rewrite (proj2 (Nat.ltb_lt cur k)) by lia; rewrite E0; cbn [bind]; rewrite E1; cbn [bind]; rewrite E2; cbn [bind];
    rewrite (proj2 (Nat.ltb_ge k (c1 + al))) by lia; rewrite E3; cbn [bind]; rewrite E4; cbn [bind]; rewrite EK by lia; reflexivity.
Qed.
Lemma update_same oc p m buf : finished (update_decode_in oc p buf m) = update_decode oc p m buf.
Proof.
  unfold update_decode_in, update_decode. apply fin_do. intros s. apply fin_do. intros wl. cbv zeta. destruct (Nat.leb _ _); [reflexivity|]. apply fin_do. intros s1. apply fin_do. intros wd.
  apply fin_set. apply fin_do. intros s2. apply fin_do. intros al. destruct (Nat.ltb_spec (length buf) (2 + N.to_nat wl + 2 + N.to_nat al)) as [L|L]; [reflexivity|].
  unfold sbind at 1. match goal with |- context [upd_attrs_in ?f oc p buf ?c ?e ?m'] => destruct (attrs_same oc p buf e f c m' ltac:(lia)) as (v & k & E & EV & _ & _) end. rewrite E.
  destruct (upd_attrs _ oc p buf _ _) as [[w q]|er| |]; try reflexivity. cbn [bind]. rewrite (EV w q eq_refl). apply fin_do. intros s3. apply fin_do. intros up. reflexivity.
Qed.

(** ** What remains after a failure *)
Lemma notif_untouched m buf : failed (notif_decode_in buf m) -> snd (notif_decode_in buf m) = m.
Proof.
  unfold failed. pose proof (notif_same m buf) as E. unfold notif_decode_in in *. destruct (Nat.ltb_spec (length buf) 2) as [L|L]; [reflexivity|]. intros F. exfalso.
  assert (K : exists x, notif_decode m buf = Ok x).
  { unfold notif_decode. rewrite (proj2 (Nat.ltb_ge _ _) L). destruct buf as [|a [|b [|c [|d buf]]]]; cbn [length] in L; try lia; cbn; eexists; reflexivity. }
  destruct K as (x & K). rewrite K in E. unfold finished in E. match type of E with match fst ?r with _ => _ end = _ => destruct (fst r); discriminate end.
Qed.
Lemma begun_dec buf : begun buf \/ ~ begun buf.
Proof. unfold begun. destruct (Nat.le_gt_cases 10 (length buf)) as [L|L]; [|right; lia]. destruct (nth_error buf 0) as [v|] eqn:E; [|right; intros [_ H]; discriminate]. destruct (N.eq_dec v 4) as [->|V]; [now left|right; intros [_ H]; congruence]. Qed.
Lemma open_untouched m buf : ~ begun buf -> snd (open_decode_in buf m) = m.
Proof.
  intros H. unfold open_decode_in. destruct (Nat.ltb_spec (length buf) 10) as [L|L]; [reflexivity|]. destruct buf as [|v buf]; [cbn in L; lia|]. cbn [idx nth_error]. unfold sbind at 1, sdo at 1. cbn.
  destruct (N.eqb_spec v 4) as [->|V]; [|reflexivity]. exfalso. apply H. split; [exact L|reflexivity].
Qed.
Lemma open_overwritten m buf : begun buf -> bytes_ok buf -> open_head (snd (open_decode_in buf m)) buf /\ forall m2, open_decode_in buf m2 = open_decode_in buf m.
Proof.
  intros [L H] HB. destruct buf as [|b0 [|b1 [|b2 [|b3 [|b4 [|b5 [|b6 [|b7 [|b8 [|b9 buf]]]]]]]]]]; cbn [length] in L; try lia. cbn [nth_error] in H. injection H as ->.
  set (B := 4 :: b1 :: b2 :: b3 :: b4 :: b5 :: b6 :: b7 :: b8 :: b9 :: buf) in *.
  set (h := mkOpen (ntoh16 (le16 b1 b2)) (ntoh16 (le16 b3 b4)) (ip4_new b5 b6 b7 b8) []).
  assert (E : forall m, open_decode_in B m = open_params_in (length B) B 10 h).
  { intros m'. unfold open_decode_in. unfold B at 1. cbn [length Nat.ltb Nat.leb]. unfold B at 1. cbn [idx nth_error]. unfold sbind at 1, sdo at 1. cbn [N.eqb Pos.eqb negb].
    assert (ES : eslice B 1 (length B) = Ok (tl B)) by (rewrite eslice_ok by (unfold B; cbn [length]; lia); f_equal; unfold B, sub; cbn [length Nat.sub skipn tl]; exact (firstn_all (b1 :: b2 :: b3 :: b4 :: b5 :: b6 :: b7 :: b8 :: b9 :: buf))).
    rewrite ES. reflexivity. }
  destruct (params_same (length B) B 10 h) as (v & EP & _). rewrite E, EP. cbn [snd]. split; [|intros m2; rewrite E; exact EP].
  unfold bytes_ok, B, is_byte in HB. do 9 (apply Forall_cons_iff in HB as [? HB]).
  unfold open_head, push_caps, h, B, sub. cbn [op_as op_hold op_rid skipn firstn Nat.sub]. rewrite !ntoh16_read by assumption. repeat split.
Qed.

(** ** UPDATE *)
Lemma list_ext {A} : forall l l2 : list A, (forall i, nth_error l i = nth_error l2 i) -> l = l2.
Proof.
  induction l as [|x l IH]; intros [|y l2] H; [reflexivity|specialize (H 0%nat); discriminate|specialize (H 0%nat); discriminate|].
  pose proof (H 0%nat) as H0. cbn in H0. injection H0 as <-. f_equal. apply IH. intros i. exact (H (S i)).
Qed.
Lemma nth_firstn {A} k : forall i (l : list A), (i < k)%nat -> nth_error (firstn k l) i = nth_error l i.
Proof. induction k as [|k IH]; intros i l L; [lia|]. destruct l as [|x l]; [now destruct i|]. destruct i as [|i]; [reflexivity|]. cbn. apply IH. lia. Qed.
Lemma sub_agree {A} (l l2 : list A) a b : (b <= length l)%nat -> (b <= length l2)%nat -> (forall i, (a <= i < b)%nat -> nth_error l2 i = nth_error l i) -> sub l2 a b = sub l a b.
Proof.
  intros H1 H2 H. apply list_ext. intros i. unfold sub. destruct (Nat.lt_ge_cases i (b - a)) as [L|L].
  - rewrite !nth_firstn by exact L. rewrite !nth_error_skipn. apply H. lia.
  - rewrite !(proj2 (nth_error_None _ i)); [reflexivity| |]; rewrite firstn_length, skipn_length; lia.
Qed.
Lemma attrs_local oc p buf buf2 e : (e <= length buf)%nat -> (e <= length buf2)%nat -> forall fuel cur v c, (forall i, (cur <= i < e)%nat -> nth_error buf2 i = nth_error buf i) ->
  upd_attrs fuel oc p buf cur e = Ok (v, c) -> upd_attrs fuel oc p buf2 cur e = Ok (v, c).
Proof.
  intros L1 L2. induction fuel as [|fuel IH]; intros cur v c A E; [discriminate|]. cbn [upd_attrs] in *. destruct (Nat.ltb_spec cur e) as [L|L]; [|exact E].
  apply bind_Ok_inv in E as (fl & E0 & E). apply bind_Ok_inv in E as (tc & E1 & E). apply bind_Ok_inv in E as ([al c1] & E2 & E).
  destruct (Nat.ltb_spec e (c1 + al)) as [L3|L3]; [discriminate|]. apply bind_Ok_inv in E as (s & E3 & E). apply bind_Ok_inv in E as (a & E4 & E). apply bind_Ok_inv in E as ([v' c'] & E5 & E).
  assert (Hc : c1 = (cur + (if (0 <? N.land fl 16)%N then 4 else 3))%nat).
  { clear - E2. destruct (0 <? N.land fl 16); [apply bind_Ok_inv in E2 as (? & _ & E2)|]; apply bind_Ok_inv in E2 as (? & _ & E2); congruence. }
  assert (X : forall i, (cur <= i < e)%nat -> idx buf2 i = idx buf i) by (intros i Hi; unfold idx; now rewrite A).
  assert (Y : forall a b, (cur <= a)%nat -> (a <= b <= e)%nat -> eslice buf2 a b = eslice buf a b).
  { intros x y Hx Hy. rewrite !eslice_ok by lia. f_equal. apply sub_agree; [lia|lia|]. intros i Hi. apply A. lia. }
  rewrite X, E0 by lia. cbn [bind]. rewrite X, E1 by (destruct (0 <? N.land fl 16); lia). cbn [bind].
  assert (Z : (if 0 <? N.land fl 16 then s0 <- eslice buf2 (cur + 4 - 2) (cur + 4);; n <- getn_u16 s0;; Ok (N.to_nat n, (cur + 4)%nat) else b <- idx buf2 (cur + 3 - 1);; Ok (N.to_nat b, (cur + 3)%nat)) = Ok (al, c1)).
  { rewrite <- E2. destruct (0 <? N.land fl 16); [rewrite Y by lia; reflexivity|rewrite X by lia; reflexivity]. }
  rewrite Z. cbn [bind]. rewrite (proj2 (Nat.ltb_ge _ _) L3). rewrite Y, E3 by (destruct (0 <? N.land fl 16); lia). cbn [bind]. rewrite E4. cbn [bind].
  rewrite (IH (c1 + al)%nat v' c'); [exact E| |exact E5]. intros i Hi. apply A. destruct (0 <? N.land fl 16); lia.
Qed.
Lemma nlri_empty oc p : exists a, upd_nlri_decode oc p [] = Ok a.
Proof.
  assert (H : forall f, (f oc p = true \/ True) -> exists a, upd_nlri_decode oc p [] = Ok a); [|apply (H (fun _ _ => true)); now right]. intros _ _.
  unfold upd_nlri_decode. destruct (sp_mode p); unfold dec_fam; match goal with |- context [if ?c then _ else _] => destruct c end; eexists; reflexivity.
Qed.
Lemma body_decode oc p w a wd v : N.of_nat (length w) < 65536 -> N.of_nat (length a) < 65536 -> upd_nlri_decode oc p w = Ok wd ->
  upd_attrs (S (length (upd_body w a []))) oc p (upd_body w a []) (4 + length w) (4 + length w + length a) = Ok (v, (4 + length w + length a)%nat) ->
  exists up, update_decode oc p update_new (upd_body w a []) = Ok (mkUpd up wd v).
Proof.
  intros Hw Ha EW EA. destruct (nlri_empty oc p) as (up & EN). exists up. set (B := upd_body w a []) in *.
  assert (LB : length B = (4 + length w + length a)%nat) by (unfold B, upd_body; rewrite !app_length, !length_be_bytes; cbn [length]; lia).
  assert (EB : B = be_bytes 2 (N.of_nat (length w)) ++ w ++ be_bytes 2 (N.of_nat (length a)) ++ a ++ []) by reflexivity.
  unfold update_decode.
  assert (E1 : eslice B 0 2 = Ok (be_bytes 2 (N.of_nat (length w)))) by (rewrite EB; apply (eslice_app []); [reflexivity|now rewrite length_be_bytes]).
  rewrite E1, bind_ok, getn_u16_exact, bind_ok by lia. rewrite Nnat.Nat2N.id. cbv zeta. destruct (Nat.leb_spec (length B) (2 + length w)) as [L|L]; [lia|].
  assert (E2 : eslice B 2 (2 + length w) = Ok w) by (rewrite EB; apply eslice_app; [apply length_be_bytes|reflexivity]).
  rewrite E2, bind_ok, EW, bind_ok.
  assert (E3 : eslice B (2 + length w) (2 + length w + 2) = Ok (be_bytes 2 (N.of_nat (length a)))) by (rewrite EB, (app_assoc _ w); apply eslice_app; rewrite ?app_length, ?length_be_bytes; lia).
  rewrite E3, bind_ok, getn_u16_exact, bind_ok by lia. rewrite Nnat.Nat2N.id. destruct (Nat.ltb_spec (length B) (2 + length w + 2 + length a)) as [L'|L']; [lia|].
  replace (2 + length w + 2)%nat with (4 + length w)%nat by lia. rewrite EA. cbn [bind]. rewrite LB.
  rewrite eslice_ok by lia. unfold sub. rewrite Nat.sub_diag. cbn [firstn bind]. rewrite EN. reflexivity.
Qed.

Lemma u16_split l a : bytes_ok l -> (a + 2 <= length l)%nat -> exists k, (s <- eslice l a (a + 2) ;; getn_u16 s) = Ok k /\ k < 65536 /\ sub l a (a + 2) = be_bytes 2 k.
Proof.
  intros HB L. rewrite eslice_ok by lia. cbn [bind]. set (s := sub l a (a + 2)). assert (Ls : length s = 2%nat) by (unfold s, sub; rewrite firstn_length, skipn_length; lia).
  assert (Hs : bytes_ok s) by (unfold s, sub; apply Forall_firstn, Forall_skipn; exact HB). destruct s as [|x [|y [|z s]]]; try discriminate Ls.
  exists (be_val [x; y]). rewrite getn_u16_ok by (exact Hs || (cbn; lia)). split; [reflexivity|]. split; [apply (be_val_bound [x; y]); exact Hs|]. symmetry. apply (be_bytes_be_val [x; y]); exact Hs.
Qed.
Lemma update_left oc p m buf : bytes_ok buf -> failed (update_decode_in oc p buf m) ->
  snd (update_decode_in oc p buf m) = m \/
  exists w t a r, buf = be_bytes 2 (N.of_nat (length w)) ++ w ++ t /\ (exists t', skipn 2 t = a ++ t') /\
    update_decode oc p update_new (upd_body w a []) = Ok r /\ snd (update_decode_in oc p buf m) = half_done m r.
Proof.
  intros HB F. destruct (update_decode_in oc p buf m) as [rr mm] eqn:ER. cbn [snd]. unfold failed in F. cbn [fst] in F. unfold update_decode_in in ER.
  destruct (Nat.lt_ge_cases (length buf) 2) as [L0|L0].
  { left. destruct (eslice_cases buf 0 2) as [(s & _ & _ & HX & _)|EX]; [lia|]. unfold sbind at 1, sdo at 1 in ER. rewrite EX in ER. congruence. }
  destruct (u16_split buf 0 HB L0) as (wl & EW & HW & SW). rewrite eslice_ok in * by lia. change (0 + 2)%nat with 2%nat in *. cbn [bind] in EW. unfold sbind at 1, sdo at 1 in ER. unfold sbind at 1, sdo at 1 in ER.
  rewrite EW in *. cbv zeta in *. set (n := N.to_nat wl) in *.
  destruct (Nat.leb_spec (length buf) (2 + n)) as [L1|L1]; [left; unfold sdo in ER; congruence|].
  set (w := sub buf 2 (2 + n)). assert (Lw : length w = n) by (unfold w, sub; rewrite firstn_length, skipn_length; lia).
  assert (EB : buf = be_bytes 2 (N.of_nat (length w)) ++ w ++ skipn (2 + n) buf).
  { rewrite Lw. unfold n at 1. rewrite Nnat.N2Nat.id, <- SW. unfold w, sub. cbn [Nat.sub skipn]. replace (2 + n - 2)%nat with n by lia. rewrite <- (firstn_skipn 2 buf) at 1. f_equal.
    rewrite <- (firstn_skipn n (skipn 2 buf)) at 1. f_equal. rewrite skipn_skipn'. reflexivity. }
  rewrite (eslice_ok buf 2 (2 + n)) in * by lia. fold w in ER. unfold sbind at 1, sdo at 1 in ER. unfold sbind at 1, sdo at 1 in ER. 
  destruct (upd_nlri_decode oc p w) as [wd|er| |] eqn:ED; try (left; unfold sdo in ER; congruence).
  unfold sbind at 1, sset at 1 in ER. set (m1 := mkUpd (u_updates m) wd (u_attrs m)) in *.
  assert (K : forall a t' v, skipn 2 (skipn (2 + n) buf) = a ++ t' -> N.of_nat (length a) < 65536 ->
    upd_attrs (S (length (upd_body w a []))) oc p (upd_body w a []) (4 + length w) (4 + length w + length a) = Ok (v, (4 + length w + length a)%nat) ->
    exists w t a r, buf = be_bytes 2 (N.of_nat (length w)) ++ w ++ t /\ (exists t', skipn 2 t = a ++ t') /\
    update_decode oc p update_new (upd_body w a []) = Ok r /\ push_attrs v m1 = half_done m r).
  { intros a t' v Ha La Ev. destruct (body_decode oc p w a wd v ltac:(rewrite Lw; unfold n; rewrite Nnat.N2Nat.id; exact HW) La ED Ev) as (up & EU).
    exists w, (skipn (2 + n) buf), a, (mkUpd up wd v). split; [exact EB|]. split; [exists t'; exact Ha|]. split; [exact EU|]. reflexivity. }
  assert (K0 : exists w t a r, buf = be_bytes 2 (N.of_nat (length w)) ++ w ++ t /\ (exists t', skipn 2 t = a ++ t') /\
    update_decode oc p update_new (upd_body w a []) = Ok r /\ m1 = half_done m r).
  { destruct (K [] (skipn 2 (skipn (2 + n) buf)) [] eq_refl) as (w' & t & a & r & H1 & H2 & H3 & H4); [cbn; lia|cbn [length upd_attrs]; rewrite Nat.add_0_r, Nat.ltb_irrefl; reflexivity|].
    rewrite push_attrs_nil in H4. now exists w', t, a, r. }
  right. destruct (Nat.lt_ge_cases (length buf) (2 + n + 2)) as [L2|L2].
  { destruct (eslice_cases buf (2 + n) (2 + n + 2)) as [(s & _ & _ & HX & _)|EX]; [lia|]. unfold sbind at 1, sdo at 1 in ER. rewrite EX in ER. assert (mm = m1) as -> by congruence. exact K0. }
  destruct (u16_split buf (2 + n) HB L2) as (al & EA & HA & SA). rewrite (eslice_ok buf (2 + n) (2 + n + 2)) in * by lia. cbn [bind] in EA.
  unfold sbind at 1, sdo at 1 in ER. unfold sbind at 1, sdo at 1 in ER. rewrite EA in *.
  set (e := (2 + n + 2 + N.to_nat al)%nat) in *. destruct (Nat.ltb_spec (length buf) e) as [L3|L3]; [unfold sdo in ER; assert (mm = m1) as -> by congruence; exact K0|].
  unfold sbind at 1 in ER. destruct (attrs_same oc p buf e (S (length buf)) (2 + n + 2) m1 ltac:(unfold e; lia)) as (v & k & E & _ & HK & EK). rewrite E in *.
  set (a := sub buf (2 + n + 2) k). assert (La : length a = (k - (2 + n + 2))%nat) by (unfold a, sub; rewrite firstn_length, skipn_length; lia).
  assert (R : exists w t a r, buf = be_bytes 2 (N.of_nat (length w)) ++ w ++ t /\ (exists t', skipn 2 t = a ++ t') /\
    update_decode oc p update_new (upd_body w a []) = Ok r /\ push_attrs v m1 = half_done m r).
  { apply (K a (skipn k buf)).
    - rewrite skipn_skipn'. unfold a, sub. rewrite <- (firstn_skipn (k - (2 + n + 2)) (skipn (2 + n + 2) buf)) at 1. f_equal. rewrite skipn_skipn'. f_equal. lia.
    - rewrite La. unfold e in HK. lia.
    - assert (LU : length (upd_body w a []) = k) by (unfold upd_body; rewrite !app_length, !length_be_bytes, La, Lw; cbn [length]; lia). rewrite LU.
      replace (4 + length w + length a)%nat with k by (rewrite La, Lw; lia). replace (4 + length w)%nat with (2 + n + 2)%nat by lia.
      apply (attrs_local oc p buf); [lia|lia| |apply EK; lia]. intros i Hi.
      unfold upd_body. rewrite app_nil_r, !app_assoc. rewrite nth_error_app2 by (rewrite !app_length, !length_be_bytes, Lw; lia). rewrite !app_length, !length_be_bytes, Lw.
      unfold a, sub. rewrite nth_firstn by lia. rewrite nth_error_skipn. f_equal. lia. }
  destruct (upd_attrs (S (length buf)) oc p buf (2 + n + 2) e) as [[w' q]|er| |]; try (assert (mm = push_attrs v m1) as -> by congruence; exact R).
  unfold sbind at 1, sdo at 1 in ER. destruct (eslice buf q (length buf)) as [s|er| |]; try (assert (mm = push_attrs v m1) as -> by congruence; exact R).
  unfold sbind at 1, sdo at 1 in ER. destruct (upd_nlri_decode oc p s) as [up|er| |]; try (assert (mm = push_attrs v m1) as -> by congruence; exact R). unfold sset in ER. assert (rr = Ok tt) as -> by congruence. discriminate F.
Qed.
Lemma attrs_extend oc p buf e e' : (e <= e')%nat -> forall f cur v c, upd_attrs f oc p buf cur e = Ok (v, c) -> (cur <= e)%nat -> forall f' m, (e - cur < f')%nat ->
  exists f2, upd_attrs_in f' oc p buf cur e' m = upd_attrs_in (S f2) oc p buf e e' (push_attrs v m).
Proof.
  intros LE. induction f as [|f IH]; intros cur v c E L f' m Lf; [discriminate|]. cbn [upd_attrs] in E. destruct f' as [|f']; [lia|]. destruct (Nat.ltb_spec cur e) as [L1|L1].
  2:{ assert (cur = e) as -> by lia. exists f'. assert (v = []) as -> by congruence. now rewrite push_attrs_nil. }
  apply bind_Ok_inv in E as (fl & E0 & E). apply bind_Ok_inv in E as (tc & E1 & E). apply bind_Ok_inv in E as ([al c1] & E2 & E).
  destruct (Nat.ltb_spec e (c1 + al)) as [L3|L3]; [discriminate|]. apply bind_Ok_inv in E as (s & E3 & E). apply bind_Ok_inv in E as (a & E4 & E). apply bind_Ok_inv in E as ([v' c'] & E5 & E).
  assert (v = a :: v') as -> by congruence.
  assert (Hc : (cur < c1)%nat).
  { clear - E2. destruct (0 <? N.land fl 16); [apply bind_Ok_inv in E2 as (? & _ & E2)|]; apply bind_Ok_inv in E2 as (? & _ & E2); assert (c1 = cur + 4 \/ c1 = cur + 3)%nat by (solve [left; congruence|right; congruence]); lia. }
  destruct (IH _ _ _ E5 L3 f' (push_attrs [a] m) ltac:(lia)) as (f2 & EI). exists f2. cbn [upd_attrs_in]. rewrite (proj2 (Nat.ltb_lt cur e')) by lia.
  unfold sbind at 1, sdo at 1. rewrite E0. unfold sbind at 1, sdo at 1. rewrite E1. unfold sbind at 1, sdo at 1. rewrite E2. rewrite (proj2 (Nat.ltb_ge e' (c1 + al))) by lia.
  unfold sbind at 1, sdo at 1. rewrite E3. unfold sbind at 1, sdo at 1. rewrite E4. unfold sbind at 1, sset at 1. fold (push_attrs [a] m). rewrite EI, push_attrs_app. reflexivity.
Qed.
Lemma body_parts oc p m w a n r : N.of_nat (length w) < 65536 -> N.of_nat (length a) < 65536 -> update_decode oc p m (upd_body w a n) = Ok r ->
  upd_nlri_decode oc p w = Ok (u_withdraws r) /\ exists f v c, upd_attrs f oc p (upd_body w a n) (4 + length w) (4 + length w + length a) = Ok (v, c) /\ u_attrs r = u_attrs m ++ v.
Proof.
  intros Hw Ha E. set (B := upd_body w a n) in *.
  assert (LB : length B = (4 + length w + length a + length n)%nat) by (unfold B, upd_body; rewrite !app_length, !length_be_bytes; cbn [length]; lia).
  assert (EB : B = be_bytes 2 (N.of_nat (length w)) ++ w ++ be_bytes 2 (N.of_nat (length a)) ++ a ++ n) by reflexivity.
  unfold update_decode in E.
  assert (E1 : eslice B 0 2 = Ok (be_bytes 2 (N.of_nat (length w)))) by (rewrite EB; apply (eslice_app []); [reflexivity|now rewrite length_be_bytes]).
  rewrite E1, bind_ok, getn_u16_exact, bind_ok in E by lia. rewrite Nnat.Nat2N.id in E. cbv zeta in E. destruct (Nat.leb_spec (length B) (2 + length w)) as [L|L]; [lia|].
  assert (E2 : eslice B 2 (2 + length w) = Ok w) by (rewrite EB; apply eslice_app; [apply length_be_bytes|reflexivity]).
  rewrite E2, bind_ok in E. apply bind_Ok_inv in E as (wd & EW & E).
  assert (E3 : eslice B (2 + length w) (2 + length w + 2) = Ok (be_bytes 2 (N.of_nat (length a)))) by (rewrite EB, (app_assoc _ w); apply eslice_app; rewrite ?app_length, ?length_be_bytes; lia).
  rewrite E3, bind_ok, getn_u16_exact, bind_ok in E by lia. rewrite Nnat.Nat2N.id in E. destruct (Nat.ltb_spec (length B) (2 + length w + 2 + length a)) as [L'|L']; [lia|].
  replace (2 + length w + 2)%nat with (4 + length w)%nat in E by lia. apply bind_Ok_inv in E as ([v c] & EA & E). apply bind_Ok_inv in E as (s & _ & E). apply bind_Ok_inv in E as (up & _ & E).
  assert (r = mkUpd up wd (u_attrs m ++ v)) as -> by congruence. cbn [u_withdraws u_attrs]. split; [exact EW|]. exists (S (length B)), v, c. split; [exact EA|reflexivity].
Qed.
Lemma body_nth w a n i : (4 + length w <= i < 4 + length w + length a)%nat -> nth_error (upd_body w a n) i = nth_error a (i - (4 + length w)).
Proof.
  intros H. unfold upd_body. rewrite (app_assoc _ w), (app_assoc _ (be_bytes 2 _)). rewrite nth_error_app2 by (rewrite !app_length, !length_be_bytes; lia).
  rewrite !app_length, !length_be_bytes. rewrite nth_error_app1 by lia. f_equal. lia.
Qed.
Lemma update_spoilt oc p m w a n r : N.of_nat (length w) < 65536 -> N.of_nat (length a) + 3 < 65536 -> update_decode oc p update_new (upd_body w a n) = Ok r ->
  update_decode_in oc p (upd_body w (a ++ [64; 1; 255]) n) m = (Err EProtocol, half_done m r).
Proof.
  intros Hw Ha E. destruct (body_parts oc p update_new w a n r Hw ltac:(lia) E) as (EW & f & v & c & EA & EV). cbn [update_new u_attrs app] in EV.
  set (a' := a ++ [64; 1; 255]). set (B := upd_body w a' n).
  assert (La : length a' = (length a + 3)%nat) by (unfold a'; rewrite app_length; reflexivity).
  assert (LB : length B = (4 + length w + length a' + length n)%nat) by (unfold B, upd_body; rewrite !app_length, !length_be_bytes; cbn [length]; lia).
  assert (EB : B = be_bytes 2 (N.of_nat (length w)) ++ w ++ be_bytes 2 (N.of_nat (length a')) ++ a' ++ n) by reflexivity.
  unfold update_decode_in.
  assert (E1 : eslice B 0 2 = Ok (be_bytes 2 (N.of_nat (length w)))) by (rewrite EB; apply (eslice_app []); [reflexivity|now rewrite length_be_bytes]).
  rewrite E1. unfold sbind at 1, sdo at 1. rewrite getn_u16_exact by lia. unfold sbind at 1, sdo at 1. rewrite Nnat.Nat2N.id. cbv zeta. destruct (Nat.leb_spec (length B) (2 + length w)) as [L|L]; [lia|].
  assert (E2 : eslice B 2 (2 + length w) = Ok w) by (rewrite EB; apply eslice_app; [apply length_be_bytes|reflexivity]).
  rewrite E2. unfold sbind at 1, sdo at 1. rewrite EW. unfold sbind at 1, sdo at 1. unfold sbind at 1, sset at 1.
  assert (E3 : eslice B (2 + length w) (2 + length w + 2) = Ok (be_bytes 2 (N.of_nat (length a')))) by (rewrite EB, (app_assoc _ w); apply eslice_app; rewrite ?app_length, ?length_be_bytes; lia).
  rewrite E3. unfold sbind at 1, sdo at 1. rewrite getn_u16_exact by (rewrite La; lia). unfold sbind at 1, sdo at 1. rewrite Nnat.Nat2N.id.
  destruct (Nat.ltb_spec (length B) (2 + length w + 2 + length a')) as [L'|L']; [lia|]. replace (2 + length w + 2)%nat with (4 + length w)%nat by lia.
  set (e := (4 + length w + length a)%nat) in *.
  assert (EA' : upd_attrs f oc p B (4 + length w) e = Ok (v, c)).
  { refine (attrs_local oc p _ B e _ _ f _ v c _ EA).
    - unfold e, upd_body. rewrite !app_length, !length_be_bytes. lia.
    - unfold e. lia.
    - intros i Hi. unfold B. rewrite !body_nth by (unfold e in Hi; lia). unfold a'. apply nth_error_app1. unfold e in Hi. lia. }
  destruct (attrs_extend oc p B e (4 + length w + length a') ltac:(unfold e; lia) f _ _ _ EA' ltac:(unfold e; lia) (S (length B)) (mkUpd (u_updates m) (u_withdraws r) (u_attrs m)) ltac:(unfold e; lia)) as (f2 & EX).
  unfold sbind at 1. rewrite EX. clear EX.
  assert (I : forall k x, nth_error [64; 1; 255] k = Some x -> idx B (e + k) = Ok x).
  { intros k x Hk. assert (Lk : (k < 3)%nat) by (apply (proj1 (nth_error_Some [64; 1; 255] k)); congruence). unfold idx. rewrite EB, (app_assoc _ w), (app_assoc _ (be_bytes 2 _)). rewrite nth_error_app2 by (rewrite !app_length, !length_be_bytes; unfold e; lia).
    rewrite !app_length, !length_be_bytes. unfold a'. rewrite <- app_assoc. rewrite nth_error_app2 by (unfold e; lia). replace (e + k - (2 + length w + 2) - length a)%nat with k by (unfold e; lia). rewrite nth_error_app1 by (cbn; lia). now rewrite Hk. }
  cbn [upd_attrs_in]. rewrite (proj2 (Nat.ltb_lt e (4 + length w + length a'))) by (unfold e; lia).
  pose proof (I 0%nat 64 eq_refl) as I0. rewrite Nat.add_0_r in I0. pose proof (I 1%nat 1 eq_refl) as I1. pose proof (I 2%nat 255 eq_refl) as I2.
  unfold sbind at 1, sdo at 1. rewrite I0. unfold sbind at 1, sdo at 1. rewrite I1. change (0 <? N.land 64 16) with false. replace (e + 3 - 1)%nat with (e + 2)%nat by lia. rewrite I2. cbn [bind]. unfold sbind at 1, sdo at 1.
  change (N.to_nat 255) with 255%nat. rewrite (proj2 (Nat.ltb_lt (4 + length w + length a') (e + 3 + 255))) by (unfold e; rewrite La; lia). unfold sdo, half_done, push_attrs. cbn. now rewrite EV.
Qed.
Lemma finished_Ok {S A} (run : res A * S) s : finished run = Ok s -> exists x, run = (Ok x, s).
Proof. destruct run as [[x| | |] s']; cbn; intros E; try discriminate. injection E as ->. eauto. Qed.
Lemma update_leak oc p m w a n r buf2 r2 : N.of_nat (length w) < 65536 -> N.of_nat (length a) + 3 < 65536 ->
  update_decode oc p update_new (upd_body w a n) = Ok r -> update_decode oc p update_new buf2 = Ok r2 ->
  update_decode_in oc p buf2 (snd (update_decode_in oc p (upd_body w (a ++ [64; 1; 255]) n) m)) =
    (Ok tt, mkUpd (u_updates r2) (u_withdraws r2) (u_attrs m ++ u_attrs r ++ u_attrs r2)).
Proof.
  intros Hw Ha E E2. rewrite (update_spoilt oc p m w a n r Hw Ha E). cbn [snd]. pose proof (update_same oc p (half_done m r) buf2) as F. rewrite update_reuse, E2 in F.
  apply finished_Ok in F as ([] & F). rewrite F. cbn [half_done u_attrs]. now rewrite app_assoc.
Qed.
