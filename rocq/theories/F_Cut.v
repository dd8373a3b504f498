(** Proofs about messages of which the end is missing. *)
From Verif Require Import Base BaseFacts M_Util F_Util S_Wire M_Prefix S_Prefix M_Nlri S_Nlri F_Nlri M_Cap S_Cap F_Cap M_Open S_Open F_Open F_Refute F_Lay M_Session M_Vpls M_Mvpn M_Evpn M_Flowspec
  M_Addrs S_Addrs F_Addrs M_Attr S_Attr M_Update S_Update F_Update M_Bmp S_Bmp F_Bmp S_Cut.
Ltac Zify.zify_post_hook ::= idtac.

(** ** OPEN *)
Lemma caps_count v : (length v <= length (params_wire v))%nat.
Proof. unfold params_wire. induction v as [|c v IH]; cbn [map concat length]; [lia|]. rewrite app_length, length_param. lia. Qed.
Lemma length_open ol m : length (open_wire_ol ol m) = open_upto (op_caps m).
Proof. unfold open_wire_ol, open_upto. rewrite !app_length, !length_be_bytes. reflexivity. Qed.
Lemma open_front self ol m rest : open_wf m -> exists f,
  open_decode self (open_wire_ol ol m ++ rest) =
  (w <- open_params_loop (S f) (open_wire_ol ol m ++ rest) (open_upto (op_caps m)) ;;
   Ok (mkOpen (wire_as (op_as m)) (op_hold m) (op_rid m) (op_caps m ++ w))).
Proof.
  intros (Ha & Hh & Hr & Hc). unfold open_decode.
  pose proof (length_open ol m) as HL. pose proof (caps_count (op_caps m)) as CC. unfold open_upto in *.
  set (buf := open_wire_ol ol m ++ rest).
  assert (HB : length buf = (10 + length (params_wire (op_caps m)) + length rest)%nat) by (unfold buf; rewrite app_length, HL; reflexivity).
  exists (length buf - length (op_caps m) - 1)%nat.
  replace (Nat.ltb (length buf) 10) with false by (symmetry; apply Nat.ltb_ge; lia).
  change (idx buf 0) with (Ok 4). cbn [bind N.eqb Pos.eqb negb].
  rewrite eslice_ok by lia. cbn [bind].
  assert (Es : sub buf 1 (length buf) = be_bytes 2 (wire_as (op_as m)) ++ be_bytes 2 (op_hold m) ++
                 be_bytes 4 (op_rid m) ++ [ol] ++ params_wire (op_caps m) ++ rest).
  { unfold sub. rewrite firstn_all2 by (rewrite skipn_length; lia). unfold buf, open_wire_ol. cbn [app skipn]. rewrite <- !app_assoc. reflexivity. }
  rewrite Es.
  pose proof (be_bytes_ok 2 (wire_as (op_as m))) as B1.
  pose proof (be_bytes_ok 2 (op_hold m)) as B2.
  pose proof (be_val_be_bytes 2 (wire_as (op_as m)) (wire_as_lt _)) as V1.
  pose proof (be_val_be_bytes 2 (op_hold m) Hh) as V2.
  pose proof (be_val_be_bytes 4 (op_rid m) Hr) as V3.
  assert (PL : open_params_loop (length buf) buf 10 =
    (w <- open_params_loop (S (length buf - length (op_caps m) - 1)) buf (10 + length (params_wire (op_caps m))) ;; Ok (op_caps m ++ w))).
  { pose proof (params_loop_prefix (op_caps m) Hc ([4] ++ be_bytes 2 (wire_as (op_as m)) ++ be_bytes 2 (op_hold m) ++
       be_bytes 4 (op_rid m) ++ [ol]) rest (S (length buf - length (op_caps m) - 1))) as P.
    replace (length (op_caps m) + S (length buf - length (op_caps m) - 1))%nat with (length buf) in P by lia.
    replace (([4] ++ be_bytes 2 (wire_as (op_as m)) ++ be_bytes 2 (op_hold m) ++ be_bytes 4 (op_rid m) ++ [ol]) ++ params_wire (op_caps m) ++ rest) with buf in P
      by (unfold buf, open_wire_ol; rewrite <- !app_assoc; reflexivity).
    rewrite !app_length, !length_be_bytes in P. exact P. }
  rewrite PL. clear PL.
  remember (be_bytes 2 (wire_as (op_as m))) as l1.
  remember (be_bytes 2 (op_hold m)) as l2.
  remember (be_bytes 4 (op_rid m)) as l3.
  assert (L1 : length l1 = 2%nat) by (subst; apply length_be_bytes).
  assert (L2 : length l2 = 2%nat) by (subst; apply length_be_bytes).
  assert (L3 : length l3 = 4%nat) by (subst; apply length_be_bytes).
  do 3 (destruct l1; try discriminate L1). do 3 (destruct l2; try discriminate L2).
  do 5 (destruct l3; try discriminate L3).
  cbn [app idx nth_error bind].
  inversion B1 as [|? ? X1 B1']; inversion B1' as [|? ? X2 _]; subst.
  inversion B2 as [|? ? X3 B2']; inversion B2' as [|? ? X4 _]; subst.
  rewrite !ntoh16_read by assumption. unfold ip4_new. rewrite V1, V2, V3.
  match goal with |- context [open_params_loop ?f ?a ?b] => destruct (open_params_loop f a b); reflexivity end.
Qed.
Lemma open_cut_split m v c w i : op_caps m = v ++ c :: w -> (i <= length (param_wire c))%nat ->
  firstn (open_upto v + i) (open_wire m) = open_wire_ol (N.of_nat (length (params_wire (op_caps m)))) (with_caps m v) ++ firstn i (param_wire c).
Proof.
  intros E Hi. unfold open_wire, open_wire_ol, with_caps. cbn [op_as op_hold op_rid op_caps].
  rewrite E at 2. assert (EP : params_wire (v ++ c :: w) = params_wire v ++ param_wire c ++ params_wire w) by (unfold params_wire; rewrite map_app, concat_app; reflexivity).
  rewrite EP. unfold open_upto.
  set (h := [4] ++ be_bytes 2 (wire_as (op_as m)) ++ be_bytes 2 (op_hold m) ++ be_bytes 4 (op_rid m) ++ [N.of_nat (length (params_wire (op_caps m)))]).
  transitivity (firstn (10 + length (params_wire v) + i) ((h ++ params_wire v) ++ param_wire c ++ params_wire w)).
  { unfold h. rewrite <- !app_assoc. reflexivity. }
  assert (LH : length (h ++ params_wire v) = (10 + length (params_wire v))%nat) by (unfold h; rewrite !app_length, !length_be_bytes; reflexivity).
  rewrite <- LH, firstn_app_2, firstn_app. replace (i - length (param_wire c))%nat with 0%nat by lia. cbn [firstn]. rewrite app_nil_r.
  unfold h. rewrite <- !app_assoc. reflexivity.
Qed.
Lemma wf_with_caps m v w : op_caps m = v ++ w -> open_wf m -> open_wf (with_caps m v).
Proof. intros E (A & B & C & D). rewrite E in D. apply Forall_app in D as [D _]. repeat split; assumption. Qed.
Lemma open_cut_exact m v c w i self : open_wf m -> op_caps m = v ++ c :: w -> (i < length (param_wire c))%nat ->
  open_decode self (firstn (open_upto v + i) (open_wire m)) = if Nat.ltb i 2 then Ok (open_seen (with_caps m v)) else Err EInsufficient.
Proof.
  intros W E Hi. rewrite (open_cut_split m v c w i E) by lia.
  destruct (open_front self (N.of_nat (length (params_wire (op_caps m)))) (with_caps m v) (firstn i (param_wire c)) (wf_with_caps m v _ E W)) as [f ->].
  cbn [op_as op_hold op_rid op_caps with_caps].
  set (P := open_wire_ol _ _). assert (LP : length P = open_upto v) by (apply length_open). rewrite <- LP. clearbody P.
  assert (LF : length (firstn i (param_wire c)) = i) by (rewrite firstn_length; lia).
  cbn [open_params_loop]. rewrite app_length, LF.
  destruct (Nat.ltb_spec i 2) as [L|L].
  - replace (Nat.ltb _ _) with false by (symmetry; apply Nat.ltb_ge; lia). cbn [bind]. rewrite app_nil_r. reflexivity.
  - replace (Nat.ltb _ _) with true by (symmetry; apply Nat.ltb_lt; lia).
    rewrite length_param, bytes_len_wire in Hi.
    unfold param_wire. destruct i as [|[|i]]; [lia|lia|]. cbn [firstn].
    rewrite (idx_app_exact P) by reflexivity. rewrite bind_ok. cbn [N.eqb Pos.eqb negb].
    replace (P ++ 2 :: N.of_nat (length (cap_wire c)) :: firstn i (cap_wire c)) with ((P ++ [2]) ++ N.of_nat (length (cap_wire c)) :: firstn i (cap_wire c)) by (rewrite <- app_assoc; reflexivity).
    rewrite (idx_app_exact (P ++ [2])) by (rewrite app_length; reflexivity). rewrite bind_ok, Nat2N.id.
    destruct (length (cap_wire c)) as [|n] eqn:LC; [lia|].
    replace (length P + S (S i))%nat with (S (length P + S i))%nat by lia. cbn [open_caps_loop].
    unfold eslice. replace (Nat.leb (length P + 2 + S n) _) with false; [rewrite Bool.andb_false_r; reflexivity|].
    symmetry. apply Nat.leb_gt. rewrite !app_length. cbn [length]. rewrite firstn_length. lia.
Qed.
Lemma open_short self b : (length b < 10)%nat -> open_decode self b = Err EInsufficient.
Proof. intros H. unfold open_decode. apply Nat.ltb_lt in H. now rewrite H. Qed.
Lemma params_split v : forall k, (k < length (params_wire v))%nat -> exists a c w i, v = a ++ c :: w /\ (i < length (param_wire c))%nat /\ k = (length (params_wire a) + i)%nat.
Proof.
  induction v as [|c v IH]; intros k H; [cbn in H; lia|].
  change (params_wire (c :: v)) with (param_wire c ++ params_wire v) in H. rewrite app_length in H.
  destruct (Nat.ltb_spec k (length (param_wire c))) as [L|L].
  - exists [], c, v, k. repeat split; assumption.
  - destruct (IH (k - length (param_wire c))%nat ltac:(lia)) as (a & c' & w & i & -> & Hi & Hk). exists (c :: a), c', w, i.
    split; [reflexivity|]. split; [exact Hi|]. change (params_wire (c :: a)) with (param_wire c ++ params_wire a). rewrite app_length. lia.
Qed.
Lemma open_cut m k self : open_wf m -> (k < length (open_wire m))%nat -> ~ between_params m k -> open_decode self (firstn k (open_wire m)) = Err EInsufficient.
Proof.
  intros W H NB. unfold open_wire in H. rewrite length_open in H. unfold open_upto in H.
  destruct (Nat.ltb_spec k 10) as [L|L]; [apply open_short; rewrite firstn_length; lia|].
  destruct (params_split (op_caps m) (k - 10)%nat ltac:(lia)) as (v & c & w & i & E & Hi & Hk).
  replace k with (open_upto v + i)%nat by (unfold open_upto; lia).
  rewrite (open_cut_exact m v c w i self W E Hi). destruct (Nat.ltb_spec i 2) as [L2|L2]; [|reflexivity].
  destruct NB. exists v, (c :: w). split; [exact E|]. unfold open_upto. lia.
Qed.
Lemma open_cut_taken m v w k self : open_wf m -> op_caps m = v ++ w -> w <> [] -> k = open_upto v \/ k = S (open_upto v) ->
  open_decode self (firstn k (open_wire m)) = Ok (open_seen (with_caps m v)).
Proof.
  intros W E Hw Hk. destruct w as [|c w]; [congruence|]. pose proof (length_param c) as LP.
  destruct Hk as [-> | ->].
  - pose proof (open_cut_exact m v c w 0 self W E ltac:(lia)) as X. rewrite Nat.add_0_r in X. exact X.
  - pose proof (open_cut_exact m v c w 1 self W E ltac:(lia)) as X. rewrite Nat.add_1_r in X. exact X.
Qed.

(** ** UPDATE *)
Lemma upd_short oc p m0 w s k : N.of_nat (length w) < 65536 -> (k <= 2 + length w)%nat -> update_decode oc p m0 (firstn k (be_bytes 2 (N.of_nat (length w)) ++ w ++ s)) = Err EInsufficient.
Proof.
  intros Hw Hk. unfold update_decode. set (b := be_bytes 2 (N.of_nat (length w)) ++ w ++ s).
  assert (LB : (2 + length w <= length b)%nat) by (unfold b; rewrite !app_length, length_be_bytes; lia).
  assert (LK : length (firstn k b) = k) by (rewrite firstn_length; lia).
  destruct (Nat.ltb_spec k 2) as [L|L].
  - unfold eslice. replace (Nat.leb 2 (length (firstn k b))) with false by (symmetry; apply Nat.leb_gt; lia). reflexivity.
  - assert (E1 : eslice (firstn k b) 0 2 = Ok (be_bytes 2 (N.of_nat (length w)))).
    { unfold b. rewrite firstn_app, firstn_all2 by (rewrite length_be_bytes; lia). apply (eslice_app []); [reflexivity|rewrite length_be_bytes; reflexivity]. }
    rewrite E1, bind_ok, getn_u16_exact, bind_ok by lia. rewrite Nat2N.id. cbv zeta. rewrite LK.
    replace (Nat.leb k (2 + length w)) with true by (symmetry; apply Nat.leb_le; lia). reflexivity.
Qed.
Lemma upd_cut oc p m0 w wd la s : N.of_nat (length w) < 65536 -> upd_nlri_decode oc p w = Ok wd -> la < 65536 ->
  (forall b, update_decode oc p m0 (be_bytes 2 (N.of_nat (length w)) ++ w ++ [b]) = Err EInsufficient) /\ (N.of_nat (length s) < la -> update_decode oc p m0 (be_bytes 2 (N.of_nat (length w)) ++ w ++ be_bytes 2 la ++ s) = Err EProtocol).
Proof.
  intros Hw D Hl.
  assert (G : forall t, t <> [] -> update_decode oc p m0 (be_bytes 2 (N.of_nat (length w)) ++ w ++ t) =
    (s <- eslice (be_bytes 2 (N.of_nat (length w)) ++ w ++ t) (2 + length w) (2 + length w + 2) ;;
     pathattr_len <- getn_u16 s ;;
     let pathattr_end := (2 + length w + 2 + N.to_nat pathattr_len)%nat in
     let buf := be_bytes 2 (N.of_nat (length w)) ++ w ++ t in
     if Nat.ltb (length buf) pathattr_end then Err EProtocol else
     '(v, curpos) <- upd_attrs (S (length buf)) oc p buf (2 + length w + 2) pathattr_end ;;
     s <- eslice buf curpos (length buf) ;;
     updates <- upd_nlri_decode oc p s ;;
     Ok (mkUpd updates wd (u_attrs m0 ++ v)))).
  { intros t Ht. unfold update_decode. set (buf := be_bytes 2 (N.of_nat (length w)) ++ w ++ t).
    assert (LB : length buf = (2 + length w + length t)%nat) by (unfold buf; rewrite !app_length, !length_be_bytes; lia).
    assert (E1 : eslice buf 0 2 = Ok (be_bytes 2 (N.of_nat (length w)))) by (apply (eslice_app []); [reflexivity|rewrite length_be_bytes; reflexivity]).
    rewrite E1, bind_ok, getn_u16_exact, bind_ok by lia. rewrite Nat2N.id. cbv zeta.
    replace (Nat.leb (length buf) (2 + length w)) with false by (symmetry; apply Nat.leb_gt; destruct t; [congruence|cbn [length] in LB; lia]).
    assert (E2 : eslice buf 2 (2 + length w) = Ok w) by (apply eslice_app; [apply length_be_bytes|reflexivity]).
    rewrite E2, bind_ok, D, bind_ok. reflexivity. }
  split.
  - intros b. rewrite G by discriminate. unfold eslice. replace (Nat.leb (2 + length w + 2) _) with false; [rewrite Bool.andb_false_r; reflexivity|].
    symmetry. apply Nat.leb_gt. rewrite !app_length, length_be_bytes. cbn [length]. lia.
  - intros Hs. rewrite G by (destruct (be_bytes 2 la) eqn:E; [apply (f_equal (@length N)) in E; rewrite length_be_bytes in E; discriminate|discriminate]).
    assert (E3 : eslice (be_bytes 2 (N.of_nat (length w)) ++ w ++ be_bytes 2 la ++ s) (2 + length w) (2 + length w + 2) = Ok (be_bytes 2 la)).
    { rewrite (app_assoc (be_bytes 2 _) w). apply eslice_app; rewrite ?app_length, length_be_bytes; lia. }
    rewrite E3, bind_ok, getn_u16_exact, bind_ok by lia. cbv zeta.
    replace (Nat.ltb _ _) with true; [reflexivity|]. symmetry. apply Nat.ltb_lt. rewrite !app_length, !length_be_bytes.
    clear - Hs. pose proof (N2Nat.id la). lia.
Qed.
Lemma update_cut_head oc p m0 m k : update_ok p m -> (k < upd_attrs_at p m)%nat -> update_decode oc p m0 (firstn k (update_wire p m)) = Err EInsufficient.
Proof.
  intros (U & Wd & A & LW & LA) Hk. unfold update_wire, upd_attrs_at in *. set (w := nlri_wire p (u_withdraws m)) in *.
  destruct (Nat.leb_spec k (2 + length w)) as [L|L]; [apply upd_short; lia|].
  replace k with (2 + length w + 1)%nat by lia.
  set (l2 := be_bytes 2 (N.of_nat (length (attrs_wire p (u_attrs m))))).
  assert (L2 : length l2 = 2%nat) by apply length_be_bytes.
  destruct l2 as [|b0 l2]; [discriminate|]. cbn [app].
  replace (firstn (2 + length w + 1) (be_bytes 2 (N.of_nat (length w)) ++ w ++ b0 :: l2 ++ attrs_wire p (u_attrs m) ++ nlri_wire p (u_updates m)))
    with (be_bytes 2 (N.of_nat (length w)) ++ w ++ [b0]).
  2:{ rewrite !(app_assoc _ w). assert (LH : length (be_bytes 2 (N.of_nat (length w)) ++ w) = (2 + length w)%nat) by (rewrite app_length, length_be_bytes; lia).
      rewrite <- LH, firstn_app_2. reflexivity. }
  apply (upd_cut oc p m0 w (nlri_norm p (u_withdraws m)) 0 []); [lia|apply nlri_decode_ok; exact Wd|lia].
Qed.
Lemma update_cut_attrs oc p m0 m k : update_ok p m -> (upd_attrs_at p m <= k < upd_routes_at p m)%nat -> update_decode oc p m0 (firstn k (update_wire p m)) = Err EProtocol.
Proof.
  intros (U & Wd & A & LW & LA) Hk. unfold update_wire, upd_routes_at, upd_attrs_at in *. set (w := nlri_wire p (u_withdraws m)) in *.
  set (at_ := attrs_wire p (u_attrs m)) in *. set (i := (k - (4 + length w))%nat).
  replace (firstn k _) with (be_bytes 2 (N.of_nat (length w)) ++ w ++ be_bytes 2 (N.of_nat (length at_)) ++ firstn i at_).
  2:{ rewrite !app_assoc. rewrite <- (app_assoc _ at_).
      assert (LH : length ((be_bytes 2 (N.of_nat (length w)) ++ w) ++ be_bytes 2 (N.of_nat (length at_))) = (4 + length w)%nat) by (rewrite !app_length, !length_be_bytes; lia).
      replace k with (length ((be_bytes 2 (N.of_nat (length w)) ++ w) ++ be_bytes 2 (N.of_nat (length at_))) + i)%nat by (unfold i; lia).
      rewrite firstn_app_2, firstn_app. replace (i - length at_)%nat with 0%nat by (unfold i; lia). cbn [firstn]. rewrite app_nil_r. reflexivity. }
  apply (upd_cut oc p m0 w (nlri_norm p (u_withdraws m))); [lia|apply nlri_decode_ok; exact Wd|lia|]. rewrite firstn_length. unfold i. lia.
Qed.
(** an UPDATE of which only the announced routes are cut *)
Lemma update_cut_front oc p m0 m k : update_ok p m -> 
  update_decode oc p m0 (firstn (upd_routes_at p m + k) (update_wire p m)) =
  (up <- upd_nlri_decode oc p (firstn k (nlri_wire p (u_updates m))) ;; Ok (mkUpd up (nlri_norm p (u_withdraws m)) (u_attrs m0 ++ map attr_trunc (u_attrs m)))).
Proof.
  intros (U & Wd & A & LW & LA). unfold update_wire, upd_routes_at, upd_attrs_at. set (w := nlri_wire p (u_withdraws m)) in *.
  rewrite attrs_frames in *. set (fs := map (as_frame p) (u_attrs m)) in *.
  rewrite !app_assoc.
  assert (LH : length (((be_bytes 2 (N.of_nat (length w)) ++ w) ++ be_bytes 2 (N.of_nat (length (frames_wire fs)))) ++ frames_wire fs) = (4 + length w + length (frames_wire fs))%nat) by (rewrite !app_length, !length_be_bytes; lia).
  rewrite <- LH, firstn_app_2, <- !app_assoc.
  rewrite update_decode_frames by (first [assumption|apply frames_ok; assumption]).
  unfold w. rewrite nlri_decode_ok by exact Wd. rewrite bind_ok. unfold fs. rewrite dec_frames_wire by exact A. rewrite bind_ok. reflexivity.
Qed.

(** ** Routes cut short *)
Lemma items_cut {T} oc (ex : extractor T) st wf W nm v b r e : codec_ok oc ex st wf W nm -> Forall wf v -> ex oc b r = Err e ->
  decode_bgpitems_from oc ex (items_wire W v ++ b :: r) = Err e.
Proof.
  intros C Hv He. unfold decode_bgpitems_from. rewrite items_wire_flat.
  pose proof (dec_loop_prefix (decode_bgpitem_from oc ex) (fun x => fst (W x) :: snd (W x)) nm v) as P.
  specialize (P ltac:(intros x rest Hx; apply (decode_bgpitem_ok oc ex st wf W nm); [exact C|apply (proj1 (Forall_forall wf v) Hv x Hx)])
                ltac:(intros; cbn [length]; lia) [] (S (length (flat_map (fun x => fst (W x) :: snd (W x)) v ++ b :: r))) (b :: r)).
  assert (CC : forall u : list T, (length u <= length (flat_map (fun x => fst (W x) :: snd (W x)) u))%nat).
  { induction u as [|x u IH]; cbn [flat_map length]; [lia|]. rewrite app_length. cbn [length]. lia. }
  specialize (CC v). cbn [app length Nat.add] in P. rewrite P by (rewrite app_length; cbn [length]; lia). clear P.
  set (F := flat_map _ v) in *. rewrite app_length. cbn [length].
  replace (S (length F + S (length r)) - length v)%nat with (S (S (length F + length r) - length v)) by lia.
  rewrite dec_loop_step by (rewrite app_length; cbn [length]; lia). rewrite skipn_app_exact by reflexivity.
  rewrite decode_bgpitem_cons, He. reflexivity.
Qed.
Lemma pid_items_cut {T} oc (ex : extractor T) st wf W nm v i b r e : codec_ok oc ex st wf W nm -> Forall (fun x => pid x < 2 ^ 32 /\ wf (pid_nlri x)) v ->
  i < 2 ^ 32 -> ex oc b r = Err e -> decode_pathid_bgpitems_from oc ex (pid_items_wire W v ++ be_bytes 4 i ++ b :: r) = Err e.
Proof.
  intros C Hv Hi He. unfold decode_pathid_bgpitems_from.
  assert (G : forall v, Forall (fun x => pid x < 2 ^ 32 /\ wf (pid_nlri x)) v -> forall pre fuel, (length (pid_items_wire W v) < fuel)%nat ->
    dec_pathid_loop oc ex fuel (pre ++ pid_items_wire W v ++ be_bytes 4 i ++ b :: r) (length pre) = Err e).
  { clear v Hv. induction v as [|x v IH]; intros Hv pre fuel Hf; (destruct fuel as [|fuel]; [lia|]).
    - cbn [pid_items_wire flat_map app]. rewrite dec_pathid_step by (rewrite !app_length, length_be_bytes; cbn [length]; lia).
      rewrite skipn_app_exact by reflexivity. rewrite getn_u32_be by exact Hi. rewrite bind_ok.
      rewrite <- skipn_skipn', skipn_app_exact by reflexivity. rewrite skipn_app_exact by apply length_be_bytes.
      rewrite decode_bgpitem_cons, He. reflexivity.
    - inversion_clear Hv as [|? ? [Hp Hw] Hv'].
      set (E := be_bytes 4 (pid x) ++ fst (W (pid_nlri x)) :: snd (W (pid_nlri x))).
      assert (EE : pid_items_wire W (x :: v) = E ++ pid_items_wire W v) by reflexivity.
      assert (LE : length E = (4 + S (length (snd (W (pid_nlri x)))))%nat) by (unfold E; rewrite app_length, length_be_bytes; reflexivity).
      rewrite EE, <- !app_assoc. rewrite EE, app_length in Hf.
      rewrite dec_pathid_step by (rewrite !app_length; lia).
      rewrite skipn_app_exact by reflexivity. unfold E at 1. rewrite <- app_assoc, getn_u32_be by exact Hp. rewrite bind_ok.
      set (t := pid_items_wire W v ++ be_bytes 4 i ++ b :: r) in *.
      replace (skipn (length pre + 4) (pre ++ E ++ t)) with ((fst (W (pid_nlri x)) :: snd (W (pid_nlri x))) ++ t).
      2:{ rewrite <- skipn_skipn', skipn_app_exact by reflexivity. unfold E.
          rewrite <- app_assoc, skipn_app_exact by apply length_be_bytes. reflexivity. }
      rewrite (decode_bgpitem_ok oc ex st wf W nm) by auto. cbn [bind].
      rewrite app_assoc. replace (length pre + 4 + S (length (snd (W (pid_nlri x)))))%nat with (length (pre ++ E)) by (rewrite app_length; lia).
      unfold t. rewrite IH by (auto; lia). reflexivity. }
  apply (G v Hv [] _). rewrite app_length. lia.
Qed.
Lemma v4_too_short oc bits r : bits <= 32 -> (length r < prefix_octets bits)%nat -> v4_from_bits oc bits r = Err EOther.
Proof.
  intros H L. unfold v4_from_bits. rewrite bits_bytes_ok by lia. rewrite bind_ok. apply Nat.ltb_lt in L. rewrite L, Bool.orb_true_r. reflexivity.
Qed.
Lemma v6_too_short oc bits r : bits <= 128 -> (length r < prefix_octets bits)%nat -> v6_from_bits oc bits r = Err EOther.
Proof.
  intros H L. unfold v6_from_bits. rewrite bits_bytes_ok by lia. rewrite bind_ok. apply Nat.ltb_lt in L. rewrite L, Bool.orb_true_r. reflexivity.
Qed.

Lemma items_app {T} (W : T -> N * list N) v w : items_wire W (v ++ w) = items_wire W v ++ items_wire W w.
Proof. apply flat_map_app. Qed.
Lemma pid_items_app {T} (W : T -> N * list N) v w : pid_items_wire W (v ++ w) = pid_items_wire W v ++ pid_items_wire W w.
Proof. apply flat_map_app. Qed.
Lemma cut_whole {T} oc (ex : extractor T) st wf W nm v w : codec_ok oc ex st wf W nm -> Forall wf (v ++ w) ->
  exists n, decode_bgpitems_from oc ex (firstn (length (items_wire W v)) (items_wire W (v ++ w))) = Ok (map nm v, n).
Proof.
  intros C H. apply Forall_app in H as [H _]. rewrite items_app, firstn_app_exact by reflexivity. eexists. eapply items_decode; eauto.
Qed.
Lemma cut_whole_pid {T} oc (ex : extractor T) st wf W nm v w i : codec_ok oc ex st wf W nm -> Forall (pid_wf wf) (v ++ w) -> (i <= 4)%nat ->
  exists n, decode_pathid_bgpitems_from oc ex (firstn (length (pid_items_wire W v) + i) (pid_items_wire W (v ++ w))) = Ok (map (pid_map nm) v, n).
Proof.
  intros C H Hi. apply Forall_app in H as [H _]. rewrite pid_items_app, firstn_app_2. eexists.
  eapply (pid_items_decode oc ex st wf W nm v C H). rewrite firstn_length. lia.
Qed.
Lemma cut_inside {T} oc (ex : extractor T) st wf W nm v x w i e : codec_ok oc ex st wf W nm -> Forall wf (v ++ x :: w) ->
  (forall r, (length r < length (snd (W x)))%nat -> ex oc (fst (W x)) r = Err e) -> (1 <= i <= length (snd (W x)))%nat ->
  decode_bgpitems_from oc ex (firstn (length (items_wire W v) + i) (items_wire W (v ++ x :: w))) = Err e.
Proof.
  intros C H He Hi. apply Forall_app in H as [H _]. rewrite items_app, firstn_app_2. destruct i as [|i]; [lia|].
  cbn [items_wire flat_map app firstn]. eapply items_cut; eauto. apply He. rewrite firstn_length, app_length. lia.
Qed.
Lemma cut_inside_pid {T} oc (ex : extractor T) st wf W nm v x w i e : codec_ok oc ex st wf W nm -> Forall (pid_wf wf) (v ++ x :: w) ->
  (forall r, (length r < length (snd (W (pid_nlri x))))%nat -> ex oc (fst (W (pid_nlri x))) r = Err e) -> (1 <= i <= length (snd (W (pid_nlri x))))%nat ->
  decode_pathid_bgpitems_from oc ex (firstn (length (pid_items_wire W v) + 4 + i) (pid_items_wire W (v ++ x :: w))) = Err e.
Proof.
  intros C H He Hi. apply Forall_app in H as [H1 H2]. inversion_clear H2 as [|? ? [Hp _] _]. rewrite pid_items_app, <- Nat.add_assoc, firstn_app_2. destruct i as [|i]; [lia|].
  cbn [pid_items_wire flat_map]. rewrite <- app_assoc.
  rewrite <- (length_be_bytes 4 (pid x)) at 1. rewrite firstn_app_2. cbn [app firstn].
  eapply pid_items_cut; eauto. apply He. rewrite firstn_length, app_length. lia.
Qed.
Lemma told_exact p a k : list_ok p a -> sp_fuzzy p = false -> told p a k.
Proof.
  intros L Fz. unfold told. destruct L as [->|(S & W & F)]; [discriminate|]. unfold session_form, use_pathid in *. destruct (get_afi_safi a) as [afi sf].
  rewrite Fz in *. exact F.
Qed.
Lemma nlri_cut oc p a k : told p a k -> list_ok p a ->
  (forall b, left_whole a b k \/ left_pathid a b k -> upd_nlri_decode oc p (firstn k (nlri_wire p a)) = Ok (addrs_trunc b)) /\
  (left_prefix a k -> upd_nlri_decode oc p (firstn k (nlri_wire p a)) = Err EOther).
Proof.
  intros Fz [->|(S & W & _)]; [split; [intros b [H|H]|intros H]; inversion H|].
  unfold nlri_wire, upd_nlri_decode, dec_fam, told, with_pathid, session_list in *. rewrite S.
  split; [intros b [H|H]|intros H]; inversion H; subst; clear H; destruct (sp_mode p); try discriminate S; cbn [addrs_wire addrs_wf get_afi_safi] in *;
    specialize (Fz eq_refl); rewrite Fz.
  - destruct (cut_whole oc _ _ _ _ _ v w (v4_codec oc) W) as [n ->]. reflexivity.
  - destruct (cut_whole oc _ _ _ _ _ v w (v6_codec oc) W) as [n ->]. reflexivity.
  - destruct (cut_whole_pid oc _ _ _ _ _ v w 0 (v4_codec oc) W ltac:(lia)) as [n E]. rewrite Nat.add_0_r in E. rewrite E. reflexivity.
  - destruct (cut_whole_pid oc _ _ _ _ _ v w 0 (v6_codec oc) W ltac:(lia)) as [n E]. rewrite Nat.add_0_r in E. rewrite E. reflexivity.
  - destruct (cut_whole_pid oc _ _ _ _ _ v (x :: w) i (v4_codec oc) W ltac:(lia)) as [n ->]. reflexivity.
  - destruct (cut_whole_pid oc _ _ _ _ _ v (x :: w) i (v6_codec oc) W ltac:(lia)) as [n ->]. reflexivity.
  - assert (X : v4_wf x) by (apply (proj1 (Forall_forall _ _) W); apply in_or_app; right; now left).
    pose proof (prefix_octets_le (v4_len x) 4 ltac:(destruct X; lia)) as PO.
    assert (LX : length (snd (v4_wire x)) = prefix_octets (v4_len x)) by (cbn [v4_wire snd]; rewrite firstn_length, length_be_bytes; lia).
    rewrite (cut_inside oc _ _ _ _ _ v x w i EOther (v4_codec oc) W); [reflexivity| |lia].
    intros r Hr. apply (v4_too_short oc (v4_len x)); [destruct X; assumption|lia].
  - assert (X : v6_wf x) by (apply (proj1 (Forall_forall _ _) W); apply in_or_app; right; now left).
    pose proof (prefix_octets_le (v6_len x) 16 ltac:(destruct X; lia)) as PO.
    assert (LX : length (snd (v6_wire x)) = prefix_octets (v6_len x)) by (cbn [v6_wire snd]; rewrite firstn_length, length_be_bytes; lia).
    rewrite (cut_inside oc _ _ _ _ _ v x w i EOther (v6_codec oc) W); [reflexivity| |lia].
    intros r Hr. apply (v6_too_short oc (v6_len x)); [destruct X; assumption|lia].
  - assert (X : v4_wf (pid_nlri x)) by (apply (proj1 (Forall_forall _ _) W x); apply in_or_app; right; now left).
    pose proof (prefix_octets_le (v4_len (pid_nlri x)) 4 ltac:(destruct X; lia)) as PO.
    assert (LX : length (snd (v4_wire (pid_nlri x))) = prefix_octets (v4_len (pid_nlri x))) by (cbn [v4_wire snd]; rewrite firstn_length, length_be_bytes; lia).
    rewrite (cut_inside_pid oc _ _ _ _ _ v x w i EOther (v4_codec oc) W); [reflexivity| |lia].
    intros r Hr. apply (v4_too_short oc (v4_len (pid_nlri x))); [destruct X; assumption|lia].
  - assert (X : v6_wf (pid_nlri x)) by (apply (proj1 (Forall_forall _ _) W x); apply in_or_app; right; now left).
    pose proof (prefix_octets_le (v6_len (pid_nlri x)) 16 ltac:(destruct X; lia)) as PO.
    assert (LX : length (snd (v6_wire (pid_nlri x))) = prefix_octets (v6_len (pid_nlri x))) by (cbn [v6_wire snd]; rewrite firstn_length, length_be_bytes; lia).
    rewrite (cut_inside_pid oc _ _ _ _ _ v x w i EOther (v6_codec oc) W); [reflexivity| |lia].
    intros r Hr. apply (v6_too_short oc (v6_len (pid_nlri x))); [destruct X; assumption|lia].
Qed.
Lemma update_cut_taken oc p m0 m k b : update_ok p m -> told p (u_updates m) k -> left_whole (u_updates m) b k \/ left_pathid (u_updates m) b k ->
  update_decode oc p m0 (firstn (upd_routes_at p m + k) (update_wire p m)) =
    Ok (mkUpd (addrs_trunc b) (nlri_norm p (u_withdraws m)) (u_attrs m0 ++ map attr_trunc (u_attrs m))).
Proof.
  intros U Fz H. rewrite update_cut_front by exact U. destruct U as (U & _). rewrite (proj1 (nlri_cut oc p (u_updates m) k Fz U) b H). reflexivity.
Qed.
Lemma update_cut_prefix oc p m0 m k : update_ok p m -> told p (u_updates m) k -> left_prefix (u_updates m) k ->
  update_decode oc p m0 (firstn (upd_routes_at p m + k) (update_wire p m)) = Err EOther.
Proof.
  intros U Fz H. rewrite update_cut_front by exact U. destruct U as (U & _). rewrite (proj2 (nlri_cut oc p (u_updates m) k Fz U) H). reflexivity.
Qed.
(** the cases are all there are *)
Lemma items_split {T} (W : T -> N * list N) v : forall k, (k < length (items_wire W v))%nat ->
  exists a x w i, v = a ++ x :: w /\ (i <= length (snd (W x)))%nat /\ k = (length (items_wire W a) + i)%nat.
Proof.
  induction v as [|x v IH]; intros k H; [cbn in H; lia|].
  change (items_wire W (x :: v)) with ((fst (W x) :: snd (W x)) ++ items_wire W v) in H. rewrite app_length in H. cbn [length] in H.
  destruct (Nat.leb_spec k (length (snd (W x)))) as [L|L].
  - exists [], x, v, k. repeat split; assumption.
  - destruct (IH (k - S (length (snd (W x))))%nat ltac:(lia)) as (a & y & w & i & -> & Hi & Hk). exists (x :: a), y, w, i.
    split; [reflexivity|]. split; [exact Hi|]. change (items_wire W (x :: a)) with ((fst (W x) :: snd (W x)) ++ items_wire W a). rewrite app_length. cbn [length]. lia.
Qed.
Lemma pid_items_split {T} (W : T -> N * list N) v : forall k, (k < length (pid_items_wire W v))%nat ->
  exists a x w i, v = a ++ x :: w /\ (i <= 4 + length (snd (W (pid_nlri x))))%nat /\ k = (length (pid_items_wire W a) + i)%nat.
Proof.
  induction v as [|x v IH]; intros k H; [cbn in H; lia|].
  set (E := be_bytes 4 (pid x) ++ fst (W (pid_nlri x)) :: snd (W (pid_nlri x))).
  assert (LE : length E = (5 + length (snd (W (pid_nlri x))))%nat) by (unfold E; rewrite app_length, length_be_bytes; cbn [length]; lia).
  change (pid_items_wire W (x :: v)) with (E ++ pid_items_wire W v) in H. rewrite app_length in H.
  destruct (Nat.leb_spec k (4 + length (snd (W (pid_nlri x))))) as [L|L].
  - exists [], x, v, k. repeat split; assumption.
  - destruct (IH (k - length E)%nat ltac:(lia)) as (a & y & w & i & -> & Hi & Hk). exists (x :: a), y, w, i.
    split; [reflexivity|]. split; [exact Hi|]. change (pid_items_wire W (x :: a)) with (E ++ pid_items_wire W a). rewrite app_length. lia.
Qed.
Lemma left_cases p a k : list_ok p a -> (k < length (nlri_wire p a))%nat -> (exists b, left_whole a b k \/ left_pathid a b k) \/ left_prefix a k.
Proof.
  intros [->|(SL & W & F)] H; [rewrite none_wire in H; cbn in H; lia|]. unfold nlri_wire in H. rewrite SL in H. unfold session_list in SL.
  destruct (sp_mode p), a; try discriminate SL; cbn [addrs_wire addrs_wf] in *.
  - apply items_split in H as (a & x & w & i & -> & Hi & ->). destruct i as [|i]; [left; eexists; left; rewrite Nat.add_0_r; constructor|].
    right. constructor. cbn [v4_wire snd] in Hi. rewrite firstn_length in Hi. lia.
  - apply pid_items_split in H as (a & x & w & i & -> & Hi & ->). destruct i as [|i]; [left; eexists; left; rewrite Nat.add_0_r; constructor|].
    destruct (Nat.leb_spec (S i) 4) as [L|L]; [left; eexists; right; constructor; lia|].
    right. replace (length (pid_items_wire v4_wire a) + S i)%nat with (length (pid_items_wire v4_wire a) + 4 + (S i - 4))%nat by lia. constructor.
    cbn [v4_wire snd] in Hi. rewrite firstn_length in Hi. lia.
  - apply items_split in H as (a & x & w & i & -> & Hi & ->). destruct i as [|i]; [left; eexists; left; rewrite Nat.add_0_r; constructor|].
    right. constructor. cbn [v6_wire snd] in Hi. rewrite firstn_length in Hi. lia.
  - apply pid_items_split in H as (a & x & w & i & -> & Hi & ->). destruct i as [|i]; [left; eexists; left; rewrite Nat.add_0_r; constructor|].
    destruct (Nat.leb_spec (S i) 4) as [L|L]; [left; eexists; right; constructor; lia|].
    right. replace (length (pid_items_wire v6_wire a) + S i)%nat with (length (pid_items_wire v6_wire a) + 4 + (S i - 4))%nat by lia. constructor.
    cbn [v6_wire snd] in Hi. rewrite firstn_length in Hi. lia.
Qed.
Lemma update_cut_cases p m k : update_ok p m -> (k < length (update_wire p m))%nat ->
  (k < upd_attrs_at p m)%nat \/ (upd_attrs_at p m <= k < upd_routes_at p m)%nat \/
  exists i, k = (upd_routes_at p m + i)%nat /\ ((exists b, left_whole (u_updates m) b i \/ left_pathid (u_updates m) b i) \/ left_prefix (u_updates m) i).
Proof.
  intros (U & _) H. unfold update_wire in H. rewrite !app_length, !length_be_bytes in H. unfold upd_routes_at, upd_attrs_at in *.
  destruct (Nat.ltb_spec k (4 + length (nlri_wire p (u_withdraws m)))) as [L|L]; [now left|]. right.
  destruct (Nat.ltb_spec k (4 + length (nlri_wire p (u_withdraws m)) + length (attrs_wire p (u_attrs m)))) as [L2|L2]; [left; lia|]. right.
  exists (k - (4 + length (nlri_wire p (u_withdraws m)) + length (attrs_wire p (u_attrs m))))%nat. split; [lia|].
  apply (left_cases p (u_updates m)); [exact U|lia].
Qed.

(** ** NOTIFICATION, headers *)
Lemma notif_cut self m : notif_wf m ->
  (forall k, (k < 2)%nat -> notif_decode self (firstn k (notif_wire m)) = Err EOther) /\
  notif_decode self (firstn 2 (notif_wire m)) = Ok (mkNotif (nt_code m) (nt_sub m) (nt_data self)) /\
  notif_decode self (firstn 3 (notif_wire m)) = Ok (mkNotif (nt_code m) (nt_sub m) (nt_data m / 256)).
Proof.
  intros (A & B & C). split; [|split; [reflexivity|]].
  - intros k Hk. destruct k as [|[|k]]; [reflexivity|reflexivity|lia].
  - unfold notif_wire, notif_decode. cbn [be_bytes app firstn length Nat.ltb Nat.leb Nat.eqb idx nth_error bind].
    change (2 ^ (8 * N.of_nat 1)) with 256. rewrite N.mod_small; [reflexivity|]. apply N.div_lt_upper_bound; [discriminate|exact C].
Qed.
Lemma head_cut oc b : (length b < 19)%nat -> decode_message_head oc b = Err EOther.
Proof. intros H. unfold decode_message_head. apply Nat.ltb_lt in H. now rewrite H. Qed.

(** ** BMP *)
Lemma bmphdr_cut b : (length b < 5)%nat -> bmphdr_decode b = Err EInsufficient.
Proof. intros H. unfold bmphdr_decode. apply Nat.ltb_lt in H. now rewrite H. Qed.
Lemma bmp_cut oc b : ((length b < 62)%nat -> bmp_decode oc (0 :: b) = Err EInsufficient /\ bmp_decode oc (3 :: b) = Err EInsufficient) /\
  ((length b < 43)%nat -> bmp_decode oc (2 :: b) = Err EInsufficient).
Proof.
  unfold bmp_decode. cbn [idx nth_error bind N.eqb Pos.eqb]. change (rfrom (0 :: b) 1) with (@Ok (list N) b). change (rfrom (3 :: b) 1) with (@Ok (list N) b). change (rfrom (2 :: b) 1) with (@Ok (list N) b).
  rewrite !bind_ok. unfold rmon_decode, rmon_decode_with, peerup_decode, peerdown_decode.
  split; [intros H; apply Nat.ltb_lt in H; rewrite !H; split; reflexivity|intros H; apply Nat.ltb_lt in H; now rewrite !H].
Qed.
Lemma tlv_part k t s : (4 <= k < 4 + length s)%nat -> exists r, firstn k (tlv t s) = be_bytes 2 t ++ be_bytes 2 (N.of_nat (length s)) ++ r /\ (length r < length s)%nat.
Proof.
  intros H. exists (firstn (k - 4) s). split; [|rewrite firstn_length; lia]. unfold tlv. rewrite app_assoc.
  rewrite firstn_app, firstn_all2 by (rewrite app_length, !length_be_bytes; lia). rewrite app_length, !length_be_bytes, <- app_assoc. reflexivity.
Qed.
Lemma infoval_cut k t s : tlv_fits (t, s) -> (k < 4 + length s)%nat -> infoval_decode (firstn k (tlv t s)) = Err EInsufficient.
Proof.
  intros [Ht Hs] H. cbn [fst snd] in *. destruct (Nat.ltb_spec k 4) as [L|L].
  - unfold infoval_decode. replace (Nat.ltb _ 4) with true by (symmetry; apply Nat.ltb_lt; rewrite firstn_length; lia). reflexivity.
  - destruct (tlv_part k t s ltac:(lia)) as (r & -> & Lr). unfold infoval_decode.
    replace (Nat.ltb _ 4) with false by (symmetry; apply Nat.ltb_ge; rewrite !app_length, !length_be_bytes; lia).
    rewrite getn_u16_be, bind_ok by exact Ht. rewrite rslice_ok by (rewrite ?app_length, ?length_be_bytes; lia).
    rewrite (sub_app_exact (be_bytes 2 t)) by apply length_be_bytes. rewrite bind_ok, getn_u16_exact, bind_ok by exact Hs. cbv zeta. rewrite Nat2N.id.
    replace (Nat.ltb _ (length s)) with true by (symmetry; apply Nat.ltb_lt; rewrite !app_length, !length_be_bytes; lia). reflexivity.
Qed.
Lemma init_loop_cut l r : Forall info_ok l -> (0 < length r)%nat -> infoval_decode r = Err EInsufficient -> forall fuel pre ret, (length (tlvs_wire l) < fuel)%nat ->
  init_loop fuel (pre ++ tlvs_wire l ++ r) (length pre) ret = Err EInsufficient.
Proof.
  intros Hl Hr Er. induction Hl as [|[t s] l H Hl IH]; intros fuel pre ret Hf; (destruct fuel as [|fuel]; [lia|]); cbn [init_loop].
  - cbn [tlvs_wire flat_map app]. replace (Nat.ltb _ _) with true by (symmetry; apply Nat.ltb_lt; rewrite app_length; lia).
    rewrite rfrom_ok by (rewrite app_length; lia). rewrite bind_ok, skipn_app_exact by reflexivity. now rewrite Er.
  - change (tlvs_wire ((t, s) :: l)) with (tlv t s ++ tlvs_wire l) in *. rewrite app_length, length_tlv in Hf. rewrite <- app_assoc.
    replace (Nat.ltb _ _) with true by (symmetry; apply Nat.ltb_lt; rewrite !app_length, length_tlv; lia).
    rewrite rfrom_ok by (rewrite app_length; lia). rewrite bind_ok, skipn_app_exact by reflexivity.
    rewrite infoval_dec, bind_ok by exact H. rewrite app_assoc.
    replace (length pre + (4 + length s))%nat with (length (pre ++ tlv t s)) by (rewrite app_length, length_tlv; lia). apply IH. lia.
Qed.
Lemma init_cut l t s k : Forall tlv_fits l -> Forall (fun x => utf8_ok (snd x) = true) l -> tlv_fits (t, s) ->
  (0 < k < 4 + length s)%nat -> init_decode (tlvs_wire l ++ firstn k (tlv t s)) = Err EInsufficient.
Proof.
  intros H1 H2 F Hk. unfold init_decode. apply (init_loop_cut l) with (pre := []).
  - apply Forall_forall. intros x Hx. split; [apply (proj1 (Forall_forall _ _) H1 x Hx)|apply (proj1 (Forall_forall _ _) H2 x Hx)].
  - rewrite firstn_length, length_tlv. lia.
  - now apply infoval_cut.
  - rewrite app_length. lia.
Qed.
Lemma term_loop_cut l r : Forall term_tlv_ok l -> forall fuel pre ret, (length (tlvs_wire l) + 1 < fuel)%nat ->
  (forall fuel pre ret, term_loop (S fuel) (pre ++ r) (length pre) ret = Err EInsufficient) ->
  term_loop fuel (pre ++ tlvs_wire l ++ r) (length pre) ret = Err EInsufficient.
Proof.
  intros Hl. induction Hl as [|[t s] l H Hl IH]; intros fuel pre ret Hf Er; (destruct fuel as [|fuel]; [lia|]).
  - apply Er.
  - change (tlvs_wire ((t, s) :: l)) with (tlv t s ++ tlvs_wire l) in *. rewrite app_length, length_tlv in Hf. rewrite <- app_assoc.
    destruct H as [[F U] R]. rewrite term_tlv by exact F. cbn [fst snd] in *.
    match goal with |- bind ?x _ = _ => destruct x as [r'|e| |] eqn:E end; cbn [bind].
    + rewrite app_assoc. apply IH; [lia|exact Er].
    + exfalso. destruct (N.eqb_spec t 0) as [->|]; [unfold from_utf8 in E; rewrite U in E by reflexivity; discriminate E|].
      destruct (N.eqb_spec t 1) as [->|]; [|discriminate E]. destruct (R eq_refl) as [B L]. rewrite getn_u16_front in E by assumption. discriminate E.
    + exfalso. destruct (N.eqb_spec t 0) as [->|]; [unfold from_utf8 in E; rewrite U in E by reflexivity; discriminate E|].
      destruct (N.eqb_spec t 1) as [->|]; [|discriminate E]. destruct (R eq_refl) as [B L]. rewrite getn_u16_front in E by assumption. discriminate E.
    + exfalso. destruct (N.eqb_spec t 0) as [->|]; [unfold from_utf8 in E; rewrite U in E by reflexivity; discriminate E|].
      destruct (N.eqb_spec t 1) as [->|]; [|discriminate E]. destruct (R eq_refl) as [B L]. rewrite getn_u16_front in E by assumption. discriminate E.
Qed.
Lemma term_cut_in l t s k : Forall term_tlv_ok l -> tlv_fits (t, s) -> (4 <= k < 4 + length s)%nat ->
  term_decode (tlvs_wire l ++ firstn k (tlv t s)) = Err EInsufficient.
Proof.
  intros H [Ht Hs] Hk. cbn [fst snd] in *. destruct (tlv_part k t s Hk) as (r & E & Lr). rewrite E. unfold term_decode. apply (term_loop_cut l) with (pre := []); [exact H| |].
  - rewrite !app_length, !length_be_bytes. lia.
  - intros fuel pre ret. apply term_cut; [exact Ht|exact Hs|rewrite Nat2N.id; exact Lr].
Qed.
Lemma term_cut_taken l t s k : Forall term_tlv_ok l -> (k < 4)%nat -> term_decode (tlvs_wire l ++ firstn k (tlv t s)) = term_decode (tlvs_wire l).
Proof.
  intros H Hk. rewrite (term_decode_tlvs l (firstn k (tlv t s)) H) by (rewrite firstn_length; lia).
  rewrite <- (app_nil_r (tlvs_wire l)) at 2. now rewrite (term_decode_tlvs l [] H) by (cbn; lia).
Qed.
