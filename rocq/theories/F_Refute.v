(** Universal counterexamples for OPEN and session properties. *)
From Verif Require Import Base BaseFacts M_Util S_Wire F_Util M_Cap M_Open M_Session S_Cap S_Open F_Cap F_Open F_Session M_Peer S_Peer F_Peer.
Ltac Zify.zify_post_hook ::= idtac.

Lemma addpath_refuted_all p r afi sf x : clear_addpath r -> announces r afi sf x ->
  (exists l, announces (sp_caps p) afi sf l) ->
  (ap_send x = true -> (forall l, announces (sp_caps p) afi sf l -> ap_receive l = false) ->
     check_addpath_receive (match_caps p r) afi sf = true) /\
  (ap_receive x = true -> (forall l, announces (sp_caps p) afi sf l -> ap_send l = false) ->
     check_addpath_send (match_caps p r) afi sf = true).
Proof.
  intros C X L. destruct (negotiate_exact p r afi sf C) as [A B]. split; intros D _; [apply B|apply A]; eauto.
Qed.

(** ** removing ADD-PATH entries *)
Definition nonempty_ap (x : bgpcap) : bool := match x with CapAddPath [] => false | _ => true end.
Lemma remove_ap_caps p vc pre v post : sp_caps p = pre ++ CapAddPath v :: post ->
  Forall (fun c => is_addpath c = false) pre ->
  exists v', selects (fun e => ~ In e vc) v v' /\
  sp_caps (remove_capability p (CapAddPath vc)) =
    pre ++ (match v' with [] => [] | _ => [CapAddPath v'] end) ++ filter nonempty_ap post.
Proof.
  intros E H. eexists. split; [apply fold_remove_sel|].
  cbn [remove_capability]. rewrite E, remove_first_split by auto. cbn [sp_caps].
  rewrite filter_app. cbn [filter]. rewrite filter_noap by auto. fold nonempty_ap.
  destruct (fold_left _ vc v); reflexivity.
Qed.
Lemma remove_addpath_exact p vc pre v post : sp_caps p = pre ++ CapAddPath v :: post ->
  Forall (fun c => is_addpath c = false) pre ->
  exists v' post', selects (fun e => ~ In e vc) v v' /\ selects (fun c => c <> CapAddPath []) post post' /\
  sp_caps (remove_capability p (CapAddPath vc)) =
    pre ++ (match v' with [] => [] | _ => [CapAddPath v'] end) ++ post'.
Proof.
  intros E H. destruct (remove_ap_caps p vc pre v post E H) as (v' & S1 & E1).
  exists v', (filter nonempty_ap post). split; [exact S1|]. split; [|exact E1].
  apply filter_selects. intros x. destruct x; cbn [nonempty_ap]; try (split; congruence).
  match goal with |- context [CapAddPath ?l] => destruct l; split; congruence end.
Qed.
Lemma remove_refuted_all p pre v1 mid v2 post :
  sp_caps p = pre ++ CapAddPath v1 :: mid ++ CapAddPath v2 :: post ->
  Forall (fun c => is_addpath c = false) pre -> v2 <> [] ->
  check_capability (remove_capability p (CapAddPath v2)) (CapAddPath v2) = true /\
  (Forall (fun c => is_addpath c = false) mid -> (forall e, In e v1 -> In e v2) ->
   remove_capability (remove_capability p (CapAddPath v2)) (CapAddPath v2) <> remove_capability p (CapAddPath v2)).
Proof.
  intros E Hp Hn. destruct (remove_ap_caps p v2 pre v1 _ E Hp) as (v' & S1 & E1).
  rewrite filter_app in E1. cbn [filter] in E1.
  replace (nonempty_ap (CapAddPath v2)) with true in E1 by (destruct v2; [easy|reflexivity]).
  split.
  - apply existsb_cap. rewrite E1. apply in_or_app. right. apply in_or_app. right. apply in_or_app. right. now left.
  - intros Hm Hs C. assert (v' = []) as ->.
    { clear - S1 Hs. induction S1 as [|x l l' Hx S1 IH|x l l' Hx S1 IH]; [reflexivity| |].
      - exfalso. apply Hx, Hs. now left.
      - apply IH. intros e He. apply Hs. now right. }
    cbn [app] in E1. unfold nonempty_ap in E1 at 1. rewrite filter_noap in E1 by exact Hm. fold nonempty_ap in E1. rewrite app_assoc in E1.
    destruct (remove_ap_caps (remove_capability p (CapAddPath v2)) v2 (pre ++ mid) v2 _ E1) as (w & S2 & E2).
    { apply Forall_app; auto. }
    rewrite C, E1 in E2. apply app_inv_head in E2.
    assert (w = []) as ->.
    { clear - S2. assert (G : forall l l', selects (fun e => ~ In e v2) l l' -> (forall x, In x l -> In x v2) -> l' = []).
      { induction 1 as [|x l l' Hx S IH|x l l' Hx S IH]; intros A; [reflexivity| |].
        - exfalso. apply Hx, A. now left.
        - apply IH. intros; apply A; now right. }
      apply (G _ _ S2). auto. }
    cbn [app] in E2. apply (f_equal (@length bgpcap)) in E2. cbn [length] in E2.
    assert (L : forall f (l : list bgpcap), (length (filter f l) <= length l)%nat).
    { clear. intros f. induction l as [|x l IH]; cbn; [lia|]. destruct (f x); cbn; lia. }
    specialize (L nonempty_ap (filter nonempty_ap post)). lia.
Qed.

(** ** headers *)
Lemma head_refuted_all t len rest : len < 19 -> bytes_ok rest ->
  let buf := repeat 255 16 ++ be_bytes 2 len ++ [msg_code t] ++ rest in
  decode_message_head true buf = Panic /\
  exists n, decode_message_head false buf = Ok (t, n) /\ N.of_nat n = len + 65517.
Proof.
  intros L Y buf.
  assert (B : bytes_ok buf).
  { unfold buf. apply Forall_app; split; [apply bytes_okb_ok; reflexivity|].
    apply Forall_app. split; [apply be_bytes_ok|]. apply Forall_app. split; [|exact Y].
    apply Forall_cons; [|apply Forall_nil]. destruct t; reflexivity. }
  assert (HH : is_header buf t len).
  { unfold is_header, buf. split; [rewrite !app_length, length_be_bytes, repeat_length; cbn; lia|].
    split; [reflexivity|]. split; [|reflexivity].
    change 16%nat with (length (repeat 255 16)) at 2. 
    rewrite (sub_app_exact (repeat 255 16) (be_bytes 2 len)) by reflexivity.
    apply be_val_be_bytes. change (256 ^ N.of_nat 2) with 65536. lia. }
  assert (U : forall t' len', is_header buf t' len' -> t' = t /\ len' = len).
  { intros t' len' (_ & _ & H1 & H2). destruct HH as (_ & _ & H3 & H4). split; [|congruence].
    rewrite H4 in H2. destruct t, t'; try reflexivity; discriminate. }
  pose proof (head_spec true buf B) as T. pose proof (head_spec false buf B) as F. split.
  - destruct (decode_message_head true buf) as [[t' n]|e| |]; auto; try contradiction.
    + destruct T as (l & H & [[H1 _]|(_ & H1 & _)]); [|discriminate]. apply U in H as [_ ->]. lia.
    + exfalso. exact (T t len HH).
  - destruct (decode_message_head false buf) as [[t' n]|e| |]; try contradiction.
    + destruct F as (l & H & D). apply U in H as [-> ->]. exists n. split; [reflexivity|]. destruct D as [[H1 _]|(_ & _ & H1)]; [lia|exact H1].
    + exfalso. exact (F t len HH).
    + destruct F as [F _]. discriminate.
Qed.

(** ** OPEN *)
Lemma params_app a b : params_wire (a ++ b) = params_wire a ++ params_wire b.
Proof. unfold params_wire. now rewrite map_app, concat_app. Qed.
Lemma open_encode_refuted_all m pre c post buf : open_wf m -> op_caps m = pre ++ c :: post ->
  (length buf = 10 + length (params_wire pre) \/ length buf = 11 + length (params_wire pre))%nat ->
  open_encode m buf = Panic.
Proof.
  intros W E HL. assert (LC : forall x, (4 <= length (param_wire x))%nat).
  { intros x. rewrite length_param, bytes_len_wire. unfold cap_wire. cbn [length]. lia. }
  destruct (open_encode_exact m buf W) as (pre' & c' & post' & E' & HL' & ->).
  { rewrite E, params_app, app_length. change (params_wire (c :: post)) with (param_wire c ++ params_wire post). rewrite app_length. pose proof (LC c). lia. }
  assert (EP : pre' = pre).
  { rewrite E in E'. clear - E' HL HL' LC. revert pre' E' HL'. 
    assert (G : forall pre pre' : list bgpcap, pre ++ c :: post = pre' ++ c' :: post' ->
       pre' = pre \/ (exists x, pre = pre' ++ c' :: x) \/ (exists x, pre' = pre ++ c :: x)).
    { clear. induction pre as [|a pre IH]; intros [|a' pre'] H; cbn [app] in H.
      - auto.
      - right; right. injection H as <- _. eexists; reflexivity.
      - right; left. injection H as -> _. eexists; reflexivity.
      - injection H as <- H. destruct (IH pre' H) as [->|[[x ->]|[x ->]]]; [auto|right; left|right; right]; eexists; reflexivity. }
    intros pre' E' HL'. destruct (G _ _ E') as [|[[x ->]|[x ->]]]; [assumption| |]; exfalso.
    - rewrite params_app, !app_length in *. change (params_wire (c' :: x)) with (param_wire c' ++ params_wire x) in *.
      change (params_wire [c']) with (param_wire c' ++ []) in *. rewrite !app_length in *. cbn [length] in *. lia.
    - rewrite params_app, !app_length in *. change (params_wire (c :: x)) with (param_wire c ++ params_wire x) in *. rewrite !app_length in *.
      pose proof (LC c). lia. }
  subst pre'. replace (Nat.ltb _ _) with true; [reflexivity|]. symmetry. apply Nat.ltb_lt. lia.
Qed.
Lemma open_optlen_refuted_all m bs : open_wf m -> (256 <= length (params_wire (op_caps m)))%nat ->
  writes (open_encode m) bs (length bs) -> nth_error bs 9 <> Some (N.of_nat (length bs - 10)).
Proof.
  intros W L Wr. pose proof (open_encode_ok m W) as W2.
  set (ow := open_wire_ol (open_caplen (op_caps m)) m) in *.
  assert (Lo : length (open_wire m) = length ow) by apply length_wire_ol. rewrite Lo in W2.
  specialize (Wr (bs ++ ow)). specialize (W2 (bs ++ ow)). rewrite app_length in Wr, W2.
  rewrite Wr in W2 by lia. specialize (W2 ltac:(lia)).
  assert (LE : length bs = length ow) by congruence.
  assert (E : splice 0 bs (bs ++ ow) = splice 0 ow (bs ++ ow)) by congruence.
  unfold splice in E. cbn [firstn app Nat.add] in E.
  assert (EB : bs = ow).
  { apply (f_equal (firstn (length bs))) in E. rewrite !firstn_app_exact in E by auto. exact E. }
  rewrite EB. unfold ow, open_wire_ol.
  assert (L10 : length (open_wire_ol (open_caplen (op_caps m)) m) = (10 + length (params_wire (op_caps m)))%nat).
  { unfold open_wire_ol. rewrite !app_length, !length_be_bytes. reflexivity. }
  unfold open_wire_ol in L10. rewrite L10. change (nth_error _ 9) with (Some (open_caplen (op_caps m))).
  rewrite open_caplen_eq. intros H. injection H as H. replace (10 + length (params_wire (op_caps m)) - 10)%nat with (length (params_wire (op_caps m))) in H by lia.
  pose proof (N.mod_lt (N.of_nat (length (params_wire (op_caps m)))) 256 ltac:(discriminate)). lia.
Qed.

Lemma firstn_firstn_le {A} (l : list A) a b : (a <= b)%nat -> firstn a (firstn b l) = firstn a l.
Proof. intros. rewrite firstn_firstn. f_equal. lia. Qed.
Lemma fill_cons_inv c v pos buf n out : open_fill_caps (c :: v) pos buf = Ok (n, out) ->
  (pos + (2 + bytes_len c) <= length buf)%nat /\
  exists s b', length s = bytes_len c /\ fill_buffer c s = Ok (tt, b') /\ length b' = bytes_len c /\
    open_fill_caps v (pos + (2 + bytes_len c))
      ((firstn pos buf ++ 2 :: cast 8 (N.of_nat (bytes_len c)) :: b') ++ skipn (pos + (2 + bytes_len c)) buf) = Ok (n, out).
Proof.
  intros H. cbn [open_fill_caps] in H. unfold ebind in H. unfold set_idx at 1 in H.
  destruct (Nat.ltb_spec pos (length buf)) as [L0|]; [|discriminate].
  unfold set_idx in H. rewrite length_splice in H by (cbn; lia).
  destruct (Nat.ltb_spec (pos + 1) (length buf)) as [L1|]; [|discriminate].
  set (b2 := splice (pos + 1) _ _) in H.
  assert (E2 : b2 = firstn pos buf ++ 2 :: cast 8 (N.of_nat (bytes_len c)) :: skipn (pos + 2) buf).
  { unfold b2, splice. cbn [length].
    replace (firstn pos buf ++ [2] ++ skipn (pos + 1) buf) with ((firstn pos buf ++ [2]) ++ skipn (pos + 1) buf) by now rewrite <- app_assoc.
    rewrite firstn_app_exact by (rewrite app_length, firstn_length; cbn; lia).
    rewrite skipn_app. rewrite skipn_all2 by (rewrite app_length, firstn_length; cbn; lia).
    rewrite app_length, firstn_length. cbn [length app]. rewrite <- app_assoc. cbn [app].
    rewrite skipn_skipn'. do 3 f_equal. f_equal. lia. }
  unfold on_eslice in H. assert (LL : length b2 = length buf).
  { rewrite E2, app_length, firstn_length. cbn [length]. rewrite skipn_length. lia. }
  rewrite LL in H.
  destruct (Nat.leb_spec (pos + 2) (bytes_len c + pos + 2)) as [_|]; [|lia].
  destruct (Nat.leb_spec (bytes_len c + pos + 2) (length buf)) as [L2|]; [|discriminate]. cbn [andb] in H.
  split; [lia|].
  remember (sub b2 (pos + 2) (bytes_len c + pos + 2)) as s eqn:Es.
  assert (Ls : length s = bytes_len c) by (subst s; rewrite length_sub; lia).
  pose proof (fill_total c s Ls) as F.
  destruct (fill_buffer c s) as [[u b']| | |] eqn:Ef; try discriminate. destruct u.
  exists s, b'. split; [exact Ls|]. split; [exact Ef|]. split; [exact F|].
  replace ((firstn pos buf ++ 2 :: cast 8 (N.of_nat (bytes_len c)) :: b') ++ skipn (pos + (2 + bytes_len c)) buf)
    with (firstn (pos + 2) b2 ++ b' ++ skipn (bytes_len c + pos + 2) b2); [exact H|].
  rewrite E2.
  replace (firstn pos buf ++ 2 :: cast 8 (N.of_nat (bytes_len c)) :: skipn (pos + 2) buf)
    with ((firstn pos buf ++ [2; cast 8 (N.of_nat (bytes_len c))]) ++ skipn (pos + 2) buf) by now rewrite <- app_assoc.
  rewrite firstn_app_exact by (rewrite app_length, firstn_length; cbn; lia).
  rewrite skipn_app, skipn_all2 by (rewrite app_length, firstn_length; cbn; lia).
  rewrite app_length, firstn_length, skipn_skipn'. cbn [length app]. rewrite <- !app_assoc. cbn [app].
  do 5 f_equal. lia.
Qed.
Lemma fill_keep v : forall pos buf n out, open_fill_caps v pos buf = Ok (n, out) -> (pos <= length buf)%nat ->
  firstn pos out = firstn pos buf /\ length out = length buf /\ (pos <= n <= length out)%nat.
Proof.
  induction v as [|c v IH]; intros pos buf n out H L.
  - cbn in H. injection H as <- <-. auto.
  - apply fill_cons_inv in H as (L1 & s & b' & Ls & Ef & Lb & H).
    apply IH in H as (H1 & H2 & H3).
    2:{ rewrite !app_length, firstn_length, skipn_length. cbn [length]. lia. }
    rewrite !app_length, firstn_length, skipn_length in H2. cbn [length] in H2.
    split; [|split; [lia|lia]].
    apply (f_equal (firstn pos)) in H1. rewrite !firstn_firstn_le in H1 by lia. rewrite H1.
    rewrite <- app_assoc, firstn_app_exact by (rewrite firstn_length; lia). reflexivity.
Qed.
Lemma fill_pre pre : Forall cap_sendable pre -> forall h d post pos buf n out,
  (length (cap_wire (CapFQDN h d)) < 256)%nat -> (pos <= length buf)%nat ->
  open_fill_caps (pre ++ CapFQDN h d :: post) pos buf = Ok (n, out) ->
  exists s b' tl, fill_buffer (CapFQDN h d) s = Ok (tt, b') /\ length s = bytes_len (CapFQDN h d) /\ length b' = bytes_len (CapFQDN h d) /\
    firstn n out = firstn pos buf ++ params_wire pre ++ 2 :: N.of_nat (length b') :: b' ++ tl.
Proof.
  induction 1 as [|c pre Hc Hpre IH]; intros h d post pos buf n out HF HP H.
  - cbn [app] in H. apply fill_cons_inv in H as (L1 & s & b' & Ls & Ef & Lb & H).
    pose proof (fill_keep _ _ _ _ _ H) as K. destruct K as (K1 & K2 & K3).
    { rewrite !app_length, firstn_length, skipn_length. cbn [length]. lia. }
    exists s, b'. remember (firstn pos buf ++ 2 :: cast 8 (N.of_nat (bytes_len (CapFQDN h d))) :: b') as hd.
    assert (Lh : length hd = (pos + (2 + bytes_len (CapFQDN h d)))%nat).
    { subst hd. rewrite app_length, firstn_length. cbn [length]. lia. }
    rewrite firstn_app_exact in K1 by exact Lh.
    exists (skipn (pos + (2 + bytes_len (CapFQDN h d))) (firstn n out)).
    split; [exact Ef|]. split; [exact Ls|]. split; [exact Lb|].
    rewrite <- (firstn_skipn (pos + (2 + bytes_len (CapFQDN h d))) (firstn n out)) at 1.
    rewrite firstn_firstn_le by lia. rewrite K1. subst hd. rewrite <- !app_assoc. cbn [app params_wire map concat].
    assert (BC : cast 8 (N.of_nat (bytes_len (CapFQDN h d))) = N.of_nat (length b')).
    { rewrite Lb. rewrite <- bytes_len_wire in HF. unfold cast. apply N.mod_small. change (2 ^ 8) with 256. lia. }
    rewrite BC. reflexivity.
  - cbn [app] in H. apply fill_cons_inv in H as (L1 & s & b' & Ls & Ef & Lb & H).
    apply IH in H as (s2 & b2 & tl & F1 & F2 & F3 & F4); auto.
    2:{ rewrite !app_length, firstn_length, skipn_length. cbn [length]. lia. }
    exists s2, b2, tl. split; [exact F1|]. split; [exact F2|]. split; [exact F3|]. rewrite F4.
    rewrite firstn_app_exact by (rewrite app_length, firstn_length; cbn [length]; lia).
    destruct Hc as [[Hc1 Hc2] Hc3]. 
    assert (E : b' = cap_wire c).
    { pose proof (fill_ok c s (fits_wf c (conj Hc1 Hc2)) Hc3) as O. rewrite O in Ef by (rewrite <- bytes_len_wire; exact Ls). congruence. }
    rewrite E. change (params_wire (c :: pre)) with (param_wire c ++ params_wire pre). unfold param_wire.
    rewrite <- !app_assoc. cbn [app]. do 3 f_equal.
    rewrite bytes_len_wire. unfold cast. apply N.mod_small. change (2 ^ 8) with 256. lia.
Qed.
Lemma params_loop_prefix v : Forall cap_sendable v -> forall pre rest fuel,
  open_params_loop (length v + fuel) (pre ++ params_wire v ++ rest) (length pre) =
  (w <- open_params_loop fuel (pre ++ params_wire v ++ rest) (length pre + length (params_wire v)) ;; Ok (v ++ w)).
Proof.
  induction 1 as [|c v Hc Hv IH]; intros pre rest fuel.
  - unfold params_wire. cbn [map concat app length Nat.add]. rewrite Nat.add_0_r.
    destruct (open_params_loop fuel (pre ++ rest) (length pre)); reflexivity.
  - change (params_wire (c :: v)) with (param_wire c ++ params_wire v). rewrite <- app_assoc.
    cbn [length Nat.add open_params_loop].
    assert (HL : (length pre + 1 < length (pre ++ param_wire c ++ params_wire v ++ rest))%nat).
    { rewrite !app_length, length_param. lia. }
    replace (Nat.ltb _ _) with true by (symmetry; apply Nat.ltb_lt; exact HL).
    assert (I0 : idx (pre ++ param_wire c ++ params_wire v ++ rest) (length pre) = Ok 2).
    { unfold idx. rewrite nth_error_app2, Nat.sub_diag by lia. reflexivity. }
    assert (I1 : idx (pre ++ param_wire c ++ params_wire v ++ rest) (length pre + 1) = Ok (N.of_nat (length (cap_wire c)))).
    { unfold idx. rewrite nth_error_app2 by lia. replace (length pre + 1 - length pre)%nat with 1%nat by lia. reflexivity. }
    rewrite I0, I1. cbn [bind N.eqb Pos.eqb negb]. rewrite Nat2N.id.
    assert (E : pre ++ param_wire c ++ params_wire v ++ rest
      = (pre ++ [2; N.of_nat (length (cap_wire c))]) ++ cap_wire c ++ params_wire v ++ rest).
    { unfold param_wire. now rewrite <- app_assoc. }
    pose proof (caps_loop_one c (pre ++ [2; N.of_nat (length (cap_wire c))]) (params_wire v ++ rest)
       (length (pre ++ param_wire c ++ params_wire v ++ rest)) Hc ltac:(lia)) as L.
    rewrite <- E in L.
    assert (E2 : length (pre ++ [2; N.of_nat (length (cap_wire c))]) = (length pre + 2)%nat)
      by (rewrite app_length; reflexivity).
    rewrite E2 in L. rewrite L. cbn [bind].
    specialize (IH (pre ++ param_wire c) rest fuel).
    rewrite <- app_assoc, !app_length, length_param, bytes_len_wire in IH.
    replace (length pre + 2 + length (cap_wire c))%nat with (length pre + (2 + length (cap_wire c)))%nat by lia.
    rewrite IH. rewrite app_length, length_param, bytes_len_wire.
    rewrite !Nat.add_assoc.
    match goal with |- context [open_params_loop fuel ?a ?b] => destruct (open_params_loop fuel a b); reflexivity end.
Qed.
Lemma from_buffer_73 r x n : from_buffer (73 :: r) = Ok (x, n) -> exists c, x = inl c.
Proof.
  intros H. pose proof (from_buffer_cases (73 :: r)) as C. rewrite H in C.
  destruct C as (_ & code & l & rest & E & _ & _ & C). injection E as <- _. destruct x as [c|[co dat]]; [eauto|].
  destruct C as (_ & _ & [C|(C & _)]); [|discriminate]. exfalso. apply C. vm_compute. tauto.
Qed.
Lemma params_loop_fqdn h d s b' P tl fuel w : length s = bytes_len (CapFQDN h d) ->
  fill_buffer (CapFQDN h d) s = Ok (tt, b') -> length b' = bytes_len (CapFQDN h d) ->
  open_params_loop fuel (P ++ 2 :: N.of_nat (length b') :: b' ++ tl) (length P) = Ok w ->
  exists c w', w = c :: w' /\ c <> CapFQDN h d.
Proof.
  intros Ls Ef Lb H.
  set (X := P ++ 2 :: N.of_nat (length b') :: b' ++ tl) in *.
  assert (LX : length X = (length P + (2 + (length b' + length tl)))%nat).
  { unfold X. rewrite app_length. cbn [length]. rewrite app_length. lia. }
  destruct fuel as [|fuel]; cbn [open_params_loop] in H; (destruct (Nat.ltb_spec (length P + 1) (length X)) as [L|L]; [|lia]); [discriminate|].
  assert (I0 : idx X (length P) = Ok 2). { unfold idx, X. rewrite nth_error_app2, Nat.sub_diag by lia. reflexivity. }
  assert (I1 : idx X (length P + 1) = Ok (N.of_nat (length b'))).
  { unfold idx, X. rewrite nth_error_app2 by lia. replace (length P + 1 - length P)%nat with 1%nat by lia. reflexivity. }
  rewrite I0, I1 in H. cbn [bind N.eqb Pos.eqb negb] in H. rewrite Nat2N.id in H.
  apply bind_Ok_inv in H as ([v pos'] & H1 & H). apply bind_Ok_inv in H as (v' & H2 & H).
  assert (Lb' : exists k, length b' = S k) by (exists (pred (length b')); cbn in Lb; lia). destruct Lb' as [k Lk].
  destruct (length X) as [|fX]; [lia|]. cbn [open_caps_loop] in H1. rewrite Lk in H1.
  rewrite <- Lk in H1. clear k Lk.
  apply bind_Ok_inv in H1 as (sl & S1 & H1). unfold eslice in S1.
  destruct (andb _ _) eqn:Ea in S1; [|discriminate].
  assert (Esl : sl = b').
  { assert (E : X = (P ++ [2; N.of_nat (length b')]) ++ b' ++ tl) by (unfold X; now rewrite <- app_assoc).
    rewrite E in S1. injection S1 as <-.
    apply sub_app_exact; rewrite ?app_length; cbn [length]; lia. }
  subst sl. apply bind_Ok_inv in H1 as ([mc used] & F1 & H1).
  destruct (fqdn_fill h d s Ls) as (u & v0 & Ef'). rewrite Ef in Ef'. injection Ef' as Eb.
  pose proof F1 as F1'. rewrite Eb in F1'. apply from_buffer_73 in F1' as [c ->].
  destruct (Nat.ltb (length b') used); [discriminate|].
  apply bind_Ok_inv in H1 as ([vv pp] & _ & H1). injection H1 as <- <-.
  exists c, (vv ++ v'). split; [injection H as <-; reflexivity|].
  intros ->. rewrite <- (app_nil_r b') in F1. now apply (fqdn_never h d s b' [] used) in F1.
Qed.
Lemma open_decode_caps self buf m : open_decode self buf = Ok m -> open_params_loop (length buf) buf 10 = Ok (op_caps m) /\ (10 <= length buf)%nat.
Proof.
  intros H. unfold open_decode in H. destruct (Nat.ltb_spec (length buf) 10) as [L|L]; [discriminate|].
  apply bind_Ok_inv in H as (v & _ & H). destruct (negb (v =? 4)); [discriminate|].
  do 9 apply bind_Ok_inv in H as (? & _ & H). apply bind_Ok_inv in H as (caps & E & H).
  injection H as <-. split; [exact E|lia].
Qed.
Lemma params_wire_len v : (length v <= length (params_wire v))%nat.
Proof.
  induction v as [|c v IH]; [cbn; lia|]. change (params_wire (c :: v)) with (param_wire c ++ params_wire v).
  rewrite app_length, length_param. cbn [length]. lia.
Qed.
Lemma open_refuted_all m pre h d post buf n out : op_caps m = pre ++ CapFQDN h d :: post ->
  Forall cap_sendable pre -> (length (cap_wire (CapFQDN h d)) < 256)%nat ->
  open_encode m buf = Ok (n, out) -> forall self, open_decode self (firstn n out) <> Ok (open_seen m).
Proof.
  intros E Hp HF He self Hd.
  assert (L10 : (10 <= length buf)%nat).
  { unfold open_encode in He. cbv [ebind elen] in He. destruct (Nat.ltb_spec (length buf) 10); [discriminate|lia]. }
  destruct (open_encode_head m buf L10) as (b & Lb & He'). rewrite He' in He. rewrite E in He.
  apply fill_pre in He as (s & b' & tl & F1 & F2 & F3 & F4); auto; [|lia].
  apply open_decode_caps in Hd as [D _]. rewrite F4 in D. cbn [open_seen op_caps] in D. rewrite E in D.
  remember (2 :: N.of_nat (length b') :: b' ++ tl) as R.
  assert (L : length (firstn 10 b) = 10%nat) by (rewrite firstn_length; lia).
  assert (LF : exists f, length (firstn 10 b ++ params_wire pre ++ R) = (length pre + f)%nat).
  { exists (length (firstn 10 b ++ params_wire pre ++ R) - length pre)%nat. pose proof (params_wire_len pre). rewrite !app_length. lia. }
  destruct LF as [f LF]. rewrite LF in D. rewrite <- L in D at 2.
  rewrite params_loop_prefix in D by exact Hp. apply bind_Ok_inv in D as (w & D & E2).
  rewrite app_assoc, <- app_length in D. subst R.
  apply (params_loop_fqdn h d s b') in D as (c & w' & -> & Hc); auto.
  injection E2 as E2. apply app_inv_head in E2. injection E2 as E2 _. auto.
Qed.
