(** Proofs about OPEN, NOTIFICATION and message framing. *)
From Verif Require Import Base BaseFacts M_Util F_Util M_Cap M_Open M_Session S_Cap S_Open F_Cap.
Ltac Zify.zify_post_hook ::= idtac.

Lemma length_param c : length (param_wire c) = (2 + bytes_len c)%nat.
Proof. unfold param_wire. cbn [length]. rewrite bytes_len_wire. lia. Qed.

Lemma open_caplen_eq v : open_caplen v = N.of_nat (length (params_wire v)) mod 256.
Proof.
  unfold open_caplen, cast. f_equal.
  assert (G : forall acc, fold_left (fun sum i => sum + N.of_nat (bytes_len i) + 2) v acc
              = acc + N.of_nat (length (params_wire v))).
  { induction v as [|c v IH]; intros acc; cbn [fold_left].
    - cbn. lia.
    - rewrite IH. unfold params_wire. cbn [map concat]. rewrite app_length, length_param. lia. }
  rewrite G. lia.
Qed.

Lemma fits_wf c : cap_fits c -> cap_wf c.
Proof.
  intros [H1 H2]. split; auto. unfold cap_wire in H2. cbn [length] in H2. lia.
Qed.

(** fill_buffer on an exactly sized slice *)
Lemma writes_fill c n m : cap_wf c -> ~ is_fqdn c -> (m - n = bytes_len c)%nat -> (n <= m)%nat ->
  writes_at n (on_eslice n m (fill_buffer c)) (cap_wire c) tt.
Proof.
  intros Hw Hf Hl Hn buf Hb. unfold on_eslice. rewrite bytes_len_wire in Hl.
  replace (Nat.leb n m) with true by (symmetry; apply Nat.leb_le; lia).
  replace (Nat.leb m (length buf)) with true by (symmetry; apply Nat.leb_le; lia). cbn [andb].
  rewrite fill_ok by (auto; rewrite length_sub; lia).
  unfold splice. repeat f_equal. lia.
Qed.

Lemma writes_open_caps v : Forall cap_sendable v -> forall pos,
  writes_at pos (open_fill_caps v pos) (params_wire v) (pos + length (params_wire v))%nat.
Proof.
  induction 1 as [|c v [Hc Hf] Hv IH]; intros pos.
  - eapply writes_at_eq; [apply writes_at_ret|reflexivity|reflexivity|cbn; lia].
  - cbn [open_fill_caps params_wire map concat].
    change (concat (map param_wire v)) with (params_wire v).
    unfold param_wire.
    change ((2 :: N.of_nat (length (cap_wire c)) :: cap_wire c) ++ params_wire v)
      with ([2] ++ [N.of_nat (length (cap_wire c))] ++ cap_wire c ++ params_wire v).
    apply (writes_at_bind pos _ _ _ _ tt); [apply writes_at_set_idx|].
    apply (writes_at_bind _ _ _ _ _ tt).
    { cbn [length]. rewrite cast8_small by (rewrite bytes_len_wire; apply Hc).
      rewrite bytes_len_wire. apply writes_at_set_idx. }
    apply (writes_at_bind _ _ _ _ _ tt).
    { cbn [length]. eapply writes_at_eq;
        [apply (writes_fill c (pos + 2) (bytes_len c + pos + 2)); auto using fits_wf; lia|lia|reflexivity|reflexivity]. }
    cbn [length].
    eapply writes_at_eq; [apply (IH (pos + (2 + bytes_len c))%nat)|rewrite bytes_len_wire; lia|reflexivity|].
    rewrite !app_length. cbn [length]. rewrite bytes_len_wire, ?app_length. lia.
Qed.

Lemma ntoh16_bytes n : n < 65536 -> le16_bytes (ntoh16 n) = be_bytes 2 n.
Proof.
  intros H. unfold ntoh16, le16_bytes. rewrite land_255, N.shiftr_div_pow2, N.shiftl_mul_pow2.
  unfold cast. change (2 ^ 8) with 256. cbn [be_bytes].
  change (2 ^ (8 * N.of_nat 1)) with 256. change (2 ^ (8 * N.of_nat 0)) with 1. rewrite N.div_1_r.
  assert (H1 : n / 256 < 256) by (apply N.div_lt_upper_bound; [discriminate|exact H]).
  assert (H2 : n mod 256 < 256) by (apply N.mod_lt; discriminate).
  rewrite (N.mod_small (n mod 256 * 256)) by (change (2 ^ 16) with 65536; clear - H2; lia).
  rewrite N.lor_comm, (lor_disj 8) by (try exact H1; apply N.mod_mul; discriminate).
  rewrite N.add_comm, N.mod_add, N.div_add by discriminate.
  rewrite (N.div_small (n / 256)) by exact H1. cbn [N.add].
  rewrite N.mod_mod by discriminate. reflexivity.
Qed.

Lemma ntoh16_read a b : a < 256 -> b < 256 -> ntoh16 (le16 a b) = be_val [a; b].
Proof.
  intros Ha Hb. unfold ntoh16, le16. rewrite land_255, N.shiftr_div_pow2, N.shiftl_mul_pow2.
  unfold cast. change (2 ^ 8) with 256. change (2 ^ 16) with 65536.
  rewrite (N.mul_comm 256 b), N.div_add, N.mod_add by discriminate.
  rewrite N.div_small, (N.mod_small a) by exact Ha.
  rewrite N.mod_small by lia.
  rewrite N.lor_comm, (lor_disj 8) by (try exact Hb; apply N.mod_mul; discriminate).
  unfold be_val. cbn [fold_left]. lia.
Qed.

Lemma wire_as_lt n : wire_as n < 65536.
Proof. unfold wire_as. destruct (N.ltb_spec n 65536); lia. Qed.

Lemma open_encode_ok m : open_wf m ->
  writes (open_encode m) (open_wire_ol (open_caplen (op_caps m)) m)
         (length (open_wire m)).
Proof.
  intros (_ & Hh & _ & Hc) buf Hb.
  assert (Hl : (10 <= length buf)%nat).
  { unfold open_wire_ol in Hb. rewrite !app_length, !length_be_bytes in Hb. cbn [length] in Hb. lia. }
  unfold open_encode. cbv [ebind elen]. cbv beta iota.
  replace (Nat.ltb (length buf) 10) with false by (symmetry; apply Nat.ltb_ge; lia).
  unfold on_eslice.
  replace (Nat.leb 1 (length buf)) with true by (symmetry; apply Nat.leb_le; lia).
  rewrite Nat.leb_refl. cbn [andb]. unfold eret at 1. cbv beta iota.
  replace (firstn 1 buf ++ sub buf 1 (length buf) ++ skipn (length buf) buf) with buf.
  2:{ unfold sub. rewrite skipn_all, app_nil_r.
      assert (E : firstn (length buf - 1) (skipn 1 buf) = skipn 1 buf)
        by (apply firstn_all2; rewrite skipn_length; lia).
      rewrite E. symmetry. apply firstn_skipn. }
  revert Hb. revert buf Hl.
  assert (W : writes (set_idx 0 4 ;;;
       write_at 1 (le16_bytes (ntoh16 (if op_as m <? 65536 then cast 16 (op_as m) else 23456))) ;;;
       write_at 3 (le16_bytes (ntoh16 (op_hold m))) ;;;
       write_at 5 (octets4 (op_rid m)) ;;;
       set_idx 9 (open_caplen (op_caps m)) ;;; open_fill_caps (op_caps m) 10)
     (open_wire_ol (open_caplen (op_caps m)) m) (length (open_wire m))).
  2:{ intros buf Hl Hb. specialize (W buf Hb). exact W. }
  replace (if op_as m <? 65536 then cast 16 (op_as m) else 23456) with (wire_as (op_as m)).
  2:{ unfold wire_as. destruct (N.ltb_spec (op_as m) 65536); auto. unfold cast. now rewrite N.mod_small. }
  rewrite !ntoh16_bytes by (auto; apply wire_as_lt).
  unfold writes, open_wire_ol.
  apply (writes_at_bind 0 _ _ _ _ tt); [apply writes_at_set_idx|].
  apply (writes_at_bind _ _ _ _ _ tt); [apply writes_at_write_at|].
  apply (writes_at_bind _ _ _ _ _ tt); [apply writes_at_write_at|].
  apply (writes_at_bind _ _ _ _ _ tt); [apply writes_at_write_at|].
  apply (writes_at_bind _ _ _ _ _ tt); [apply writes_at_set_idx|].
  rewrite !length_be_bytes. cbn [length Nat.add].
  eapply writes_at_eq; [apply (writes_open_caps _ Hc 10)|reflexivity|reflexivity|].
  unfold open_wire, open_wire_ol. rewrite !app_length, !length_be_bytes. reflexivity.
Qed.

(** ** decoding *)
Lemma caps_loop_one c pre post fuel : cap_sendable c ->
  (1 <= fuel)%nat ->
  open_caps_loop fuel (pre ++ cap_wire c ++ post) (length pre) (length (cap_wire c))
  = Ok ([c], length pre + length (cap_wire c))%nat.
Proof.
  intros [Hc Hf] Hfu. destruct fuel; [lia|].
  assert (Hn : exists n, length (cap_wire c) = S n) by (unfold cap_wire; cbn; eauto).
  destruct Hn as [n Hn]. cbn [open_caps_loop]. rewrite Hn. cbv iota.
  rewrite eslice_ok by (rewrite ?app_length; lia). cbn [bind].
  rewrite sub_app_exact by lia.
  rewrite <- (app_nil_r (cap_wire c)) at 1.
  rewrite cap_decode_wire by auto using fits_wf. cbn [bind]. rewrite Hn, Nat.ltb_irrefl, Nat.sub_diag.
  destruct fuel; reflexivity.
Qed.

Lemma params_loop_wire v : Forall cap_sendable v -> forall pre fuel,
  (length v <= fuel)%nat ->
  open_params_loop fuel (pre ++ params_wire v) (length pre) = Ok v.
Proof.
  induction 1 as [|c v Hc Hv IH]; intros pre fuel Hf.
  - unfold params_wire. cbn [map concat]. rewrite app_nil_r.
    destruct fuel; cbn [open_params_loop];
      (replace (Nat.ltb (length pre + 1) (length pre)) with false by (symmetry; apply Nat.ltb_ge; lia)); auto.
  - cbn [length] in Hf. destruct fuel; [lia|].
    unfold params_wire. cbn [map concat]. change (concat (map param_wire v)) with (params_wire v).
    cbn [open_params_loop].
    assert (HL : (length pre + 1 < length (pre ++ param_wire c ++ params_wire v))%nat).
    { rewrite !app_length, length_param. lia. }
    replace (Nat.ltb (length pre + 1) (length (pre ++ param_wire c ++ params_wire v))) with true
      by (symmetry; apply Nat.ltb_lt; exact HL).
    assert (I0 : idx (pre ++ param_wire c ++ params_wire v) (length pre) = Ok 2).
    { unfold idx. rewrite nth_error_app2, Nat.sub_diag by lia. reflexivity. }
    assert (I1 : idx (pre ++ param_wire c ++ params_wire v) (length pre + 1) = Ok (N.of_nat (length (cap_wire c)))).
    { unfold idx. rewrite nth_error_app2 by lia. replace (length pre + 1 - length pre)%nat with 1%nat by lia. reflexivity. }
    rewrite I0, I1. cbn [bind N.eqb Pos.eqb negb]. rewrite Nat2N.id.
    assert (E : pre ++ param_wire c ++ params_wire v
      = (pre ++ [2; N.of_nat (length (cap_wire c))]) ++ cap_wire c ++ params_wire v).
    { unfold param_wire. now rewrite <- app_assoc. }
    pose proof (caps_loop_one c (pre ++ [2; N.of_nat (length (cap_wire c))]) (params_wire v)
       (length (pre ++ param_wire c ++ params_wire v)) Hc ltac:(lia)) as L.
    rewrite <- E in L.
    assert (E2 : length (pre ++ [2; N.of_nat (length (cap_wire c))]) = (length pre + 2)%nat)
      by (rewrite app_length; reflexivity).
    rewrite E2 in L. rewrite L. cbn [bind].
    specialize (IH (pre ++ param_wire c) fuel ltac:(lia)).
    rewrite <- app_assoc, app_length, length_param, bytes_len_wire in IH.
    replace (length pre + 2 + length (cap_wire c))%nat with (length pre + (2 + length (cap_wire c)))%nat by lia.
    rewrite IH. reflexivity.
Qed.

Lemma open_decode_wire self ol m : open_wf m ->
  open_decode self (open_wire_ol ol m) = Ok (open_seen m).
Proof.
  intros (Ha & Hh & Hr & Hc). unfold open_decode.
  set (buf := open_wire_ol ol m).
  assert (HL : length buf = (10 + length (params_wire (op_caps m)))%nat).
  { unfold buf, open_wire_ol. rewrite !app_length, !length_be_bytes. reflexivity. }
  replace (Nat.ltb (length buf) 10) with false by (symmetry; apply Nat.ltb_ge; lia).
  change (idx buf 0) with (Ok 4). cbn [bind N.eqb Pos.eqb negb].
  rewrite eslice_ok by lia. cbn [bind].
  assert (Es : sub buf 1 (length buf) = be_bytes 2 (wire_as (op_as m)) ++ be_bytes 2 (op_hold m) ++
                 be_bytes 4 (op_rid m) ++ [ol] ++ params_wire (op_caps m)).
  { unfold sub. rewrite firstn_all2 by (rewrite skipn_length; lia). reflexivity. }
  rewrite Es.
  pose proof (be_bytes_ok 2 (wire_as (op_as m))) as B1.
  pose proof (be_bytes_ok 2 (op_hold m)) as B2.
  pose proof (be_val_be_bytes 2 (wire_as (op_as m)) (wire_as_lt _)) as V1.
  pose proof (be_val_be_bytes 2 (op_hold m) Hh) as V2.
  pose proof (be_val_be_bytes 4 (op_rid m) Hr) as V3.
  assert (PL : open_params_loop (length buf) buf 10 = Ok (op_caps m)).
  { pose proof (params_loop_wire (op_caps m) Hc ([4] ++ be_bytes 2 (wire_as (op_as m)) ++ be_bytes 2 (op_hold m) ++
       be_bytes 4 (op_rid m) ++ [ol]) (length buf)) as P.
    assert (HF : (length (op_caps m) <= length buf)%nat).
    { rewrite HL. unfold params_wire. clear. induction (op_caps m) as [|c v IH]; cbn; [lia|].
      rewrite app_length. cbn in *. lia. }
    specialize (P HF). rewrite <- !app_assoc in P.
    rewrite !app_length, !length_be_bytes in P. exact P. }
  remember (be_bytes 2 (wire_as (op_as m))) as l1.
  remember (be_bytes 2 (op_hold m)) as l2.
  remember (be_bytes 4 (op_rid m)) as l3.
  assert (L1 : length l1 = 2%nat) by (subst; apply length_be_bytes).
  assert (L2 : length l2 = 2%nat) by (subst; apply length_be_bytes).
  assert (L3 : length l3 = 4%nat) by (subst; apply length_be_bytes).
  do 3 (destruct l1; try discriminate L1). do 3 (destruct l2; try discriminate L2).
  do 5 (destruct l3; try discriminate L3).
  cbn [app idx nth_error bind]. rewrite PL. cbn [bind op_as op_hold op_rid op_caps app].
  inversion B1 as [|? ? X1 B1']; inversion B1' as [|? ? X2 _]; subst.
  inversion B2 as [|? ? X3 B2']; inversion B2' as [|? ? X4 _]; subst.
  rewrite !ntoh16_read by assumption. unfold ip4_new. rewrite V1, V2, V3. reflexivity.
Qed.

(** *** totality *)
Definition total {A} (r : res A) : Prop := match r with Ok _ | Err _ => True | _ => False end.

Lemma caps_loop_total fuel : forall buf pos optlen, (optlen <= fuel)%nat ->
  match open_caps_loop fuel buf pos optlen with
  | Ok (v, p) => p = (pos + optlen)%nat /\ (bytes_ok buf -> (optlen < 256)%nat -> Forall cap_fits v)
  | Err _ => True | _ => False end.
Proof.
  induction fuel as [|f IH]; intros buf pos optlen Hf.
  - replace optlen with 0%nat by lia. cbn. split; auto.
  - cbn [open_caps_loop]. destruct optlen as [|o]; [split; auto|].
    destruct (eslice_cases buf pos (pos + S o)) as [(s & E & H1 & H2 & ->)|E]; rewrite E; cbn [bind]; auto.
    pose proof (from_buffer_cases (sub buf pos (pos + S o))) as C.
    pose proof (cap_decoded_wf (sub buf pos (pos + S o))) as W.
    destruct (from_buffer (sub buf pos (pos + S o))) as [[mc used]|e| |] eqn:EF; cbn [bind]; auto.
    destruct C as [Hu _]. rewrite length_sub in Hu by lia.
    replace (Nat.ltb (S o) used) with false by (symmetry; apply Nat.ltb_ge; lia).
    specialize (IH buf (pos + used)%nat (S o - used)%nat ltac:(lia)).
    destruct (open_caps_loop f buf (pos + used) (S o - used)) as [[v p]|e| |]; cbn [bind]; auto.
    destruct IH as [-> HF].
    destruct mc as [c|[]]; (split; [lia|]); intros B Ho; auto.
    + constructor; [|apply HF; auto; lia].
      destruct (W c used (Forall_sub _ _ _ _ B) eq_refl) as [[Wp _] Wn]. split; auto. lia.
    + apply HF; auto; lia.
Qed.

Lemma params_loop_total fuel : forall buf pos, (length buf <= pos + fuel)%nat ->
  match open_params_loop fuel buf pos with
  | Ok v => bytes_ok buf -> Forall cap_fits v | Err _ => True | _ => False end.
Proof.
  induction fuel as [|f IH]; intros buf pos Hf; cbn [open_params_loop];
    destruct (Nat.ltb_spec (pos + 1) (length buf)) as [L|L]; try (intros; constructor); try lia.
  destruct (idx_ok buf pos ltac:(lia)) as [t [-> _]]. cbn [bind].
  destruct (t =? 2); cbn [negb]; auto.
  destruct (idx_ok buf (pos + 1) ltac:(lia)) as [o [-> Ho]]. cbn [bind].
  destruct (le_lt_dec (length buf) (pos + 2 + N.to_nat o)) as [Hbig|Hsm].
  - (* may not fit: then the loop answers Err or has consumed everything *)
    destruct (N.to_nat o) as [|o'] eqn:Eo.
    + destruct (length buf) as [|lb] eqn:El; [lia|]. cbn [open_caps_loop bind]. rewrite <- El in *.
      specialize (IH buf (pos + 2)%nat ltac:(lia)).
      destruct (open_params_loop f buf (pos + 2)); cbn [bind]; auto.
    + destruct (le_lt_dec (pos + 2 + S o') (length buf)) as [Hx|Hx].
      * pose proof (caps_loop_total (length buf) buf (pos + 2) (S o') ltac:(lia)) as C.
        destruct (open_caps_loop (length buf) buf (pos + 2) (S o')) as [[v p]|e| |]; cbn [bind]; auto.
        destruct C as [-> HC]. specialize (IH buf (pos + 2 + S o')%nat ltac:(lia)).
        destruct (open_params_loop f buf (pos + 2 + S o')); cbn [bind]; auto.
        intros B. apply Forall_app. split; auto. apply HC; auto.
        pose proof (proj1 (Forall_forall is_byte buf) B o Ho) as Q. unfold is_byte in Q. lia.
      * destruct (length buf) as [|lb] eqn:El; [lia|]. cbn [open_caps_loop].
        unfold eslice. rewrite El.
        replace (Nat.leb (pos + 2 + S o') (S lb)) with false by (symmetry; apply Nat.leb_gt; lia).
        rewrite andb_false_r. cbn [bind]. auto.
  - pose proof (caps_loop_total (length buf) buf (pos + 2) (N.to_nat o) ltac:(lia)) as C.
    destruct (open_caps_loop (length buf) buf (pos + 2) (N.to_nat o)) as [[v p]|e| |]; cbn [bind]; auto.
    destruct C as [-> HC]. specialize (IH buf (pos + 2 + N.to_nat o)%nat ltac:(lia)).
    destruct (open_params_loop f buf (pos + 2 + N.to_nat o)); cbn [bind]; auto.
    intros B. apply Forall_app. split; auto. apply HC; auto.
    pose proof (proj1 (Forall_forall is_byte buf) B o Ho) as Q. unfold is_byte in Q. lia.
Qed.

Definition open_decoded_wf (m : openMsg) : Prop :=
  op_as m < 65536 /\ op_hold m < 65536 /\ op_rid m < 2 ^ 32 /\ Forall cap_fits (op_caps m).

Lemma open_decode_total self buf :
  match open_decode self buf with
  | Ok m => bytes_ok buf -> open_decoded_wf m | Err _ => True | _ => False end.
Proof.
  unfold open_decode. destruct (Nat.ltb_spec (length buf) 10) as [L|L]; auto.
  destruct (idx_ok buf 0 ltac:(lia)) as [v [-> _]]. cbn [bind].
  destruct (v =? 4); cbn [negb]; auto.
  rewrite eslice_ok by lia. cbn [bind].
  assert (HL : length (sub buf 1 (length buf)) = (length buf - 1)%nat) by (apply length_sub; lia).
  pose proof (params_loop_total (length buf) buf 10 ltac:(lia)) as P.
  assert (HB : bytes_ok buf -> bytes_ok (sub buf 1 (length buf))) by (intros; now apply Forall_sub).
  remember (sub buf 1 (length buf)) as s.
  do 9 (destruct s as [|? s]; [cbn in HL; lia|]).
  cbn [idx nth_error bind].
  destruct (open_params_loop (length buf) buf 10); cbn [bind]; auto.
  intros B. specialize (P B). specialize (HB B).
  repeat match goal with B : bytes_ok (_ :: _) |- _ => inversion B; clear B; subst
                   | B : Forall is_byte (_ :: _) |- _ => inversion B; clear B; subst end.
  unfold open_decoded_wf. cbn [op_as op_hold op_rid op_caps app].
  rewrite !ntoh16_read by assumption. repeat split; auto.
  - apply (be_val_bound [n; n0]). repeat constructor; auto.
  - apply (be_val_bound [n1; n2]). repeat constructor; auto.
  - apply (be_val_bound [n3; n4; n5; n6]). repeat constructor; auto.
Qed.

Lemma open_decode_self s1 s2 buf : open_decode s1 buf = open_decode s2 buf.
Proof. reflexivity. Qed.

(** ** encoding never panics when there is room *)
Definition enc_total {A} (e : Enc A) (k : nat) : Prop :=
  forall buf, length buf = k ->
  match e buf with Ok (_, b') => length b' = k | Err _ => True | _ => False end.

Lemma set_idx_len i b buf : (i < length buf)%nat ->
  exists b', set_idx i b buf = Ok (tt, b') /\ length b' = length buf.
Proof.
  intros H. rewrite (writes_at_set_idx i b) by (cbn; lia). eexists; split; [reflexivity|].
  apply length_splice. cbn; lia.
Qed.

Lemma gr_enc_total g : enc_total (gr_encode g) 4.
Proof.
  intros buf H. rewrite (writes_gr g) by (rewrite length_gr_wire; lia).
  rewrite length_splice by (rewrite length_gr_wire; lia). auto.
Qed.
Lemma ap_enc_total g : enc_total (ap_encode g) 4.
Proof.
  intros buf H. rewrite (writes_ap g) by (rewrite length_ap_wire; lia).
  rewrite length_splice by (rewrite length_ap_wire; lia). auto.
Qed.
Lemma ll_enc_total g : enc_total (llgr_encode g) 7.
Proof.
  intros buf H. do 8 (destruct buf as [|? buf]; try discriminate H).
  unfold llgr_encode. cbv [ebind elen]. cbn [length Nat.ltb Nat.leb].
  destruct (exceeds24 (ll_stale g)); [exact I|]. rewrite head2_run. reflexivity.
Qed.

Lemma fill_entries_total {T} k (enc : T -> Enc unit) v : (forall c, enc_total (enc c) k) ->
  forall cp buf, (cp + length v * k <= length buf)%nat ->
  match fill_entries k enc v cp buf with Ok (_, b') => length b' = length buf | Err _ => True | _ => False end.
Proof.
  intros He. induction v as [|c v IH]; intros cp buf Hl; cbn [fill_entries].
  - reflexivity.
  - cbn [length] in Hl. unfold ebind, on_slice.
    replace (Nat.leb cp (cp + k)) with true by (symmetry; apply Nat.leb_le; lia).
    replace (Nat.leb (cp + k) (length buf)) with true by (symmetry; apply Nat.leb_le; lia).
    cbn [andb].
    pose proof (He c (sub buf cp (cp + k)) ltac:(rewrite length_sub; lia)) as E.
    destruct (enc c (sub buf cp (cp + k))) as [[u b']|e| |]; auto.
    assert (L : length (firstn cp buf ++ b' ++ skipn (cp + k) buf) = length buf).
    { rewrite !app_length, firstn_length, skipn_length, E. lia. }
    specialize (IH (cp + k)%nat _ ltac:(rewrite L; lia)). rewrite L in IH. exact IH.
Qed.

Lemma fill_total c : enc_total (fill_buffer c) (bytes_len c).
Proof.
  intros buf Hb. destruct c as [s|st t v|n| |v| |v|h d| ].
  all: try (unfold fill_buffer; cbv [ebind elen]; rewrite Hb, Nat.ltb_irrefl;
            rewrite clone_ok by (rewrite Hb; reflexivity); reflexivity).
  - unfold fill_buffer. cbv [ebind elen]. rewrite Hb, Nat.ltb_irrefl.
    rewrite clone_ok by (rewrite Hb; destruct s; reflexivity). destruct s; reflexivity.
  - unfold fill_buffer. cbv [ebind elen]. rewrite Hb, Nat.ltb_irrefl. cbn [bytes_len] in *.
    des_buf buf 4%nat. rewrite set_idx_0, set_idx_1.
    destruct (4096 <=? t); [exact I|].
    assert (E : forall x y l, on_slice 2 4 (setn_u16 t) (x :: y :: b1 :: b2 :: l)
                = Ok (tt, [x; y] ++ be_bytes 2 t ++ l)).
    { intros. rewrite (writes_on_slice 2 4 (setn_u16 t) (be_bytes 2 t) tt); [reflexivity|reflexivity|lia| |cbn; lia].
      apply writes_setn_u16. }
    rewrite E. cbv beta iota. clear E.
    destruct st.
    + match goal with |- context [upd_idx 2 ?f ([?x; ?y] ++ be_bytes 2 t ++ buf)] =>
        change (upd_idx 2 f ([x; y] ++ be_bytes 2 t ++ buf))
        with (Ok (tt, [x; y; f ((t / 2 ^ 8) mod 256); (t / 2 ^ 0) mod 256] ++ buf)) end.
      cbv beta iota.
      match goal with |- context [fill_entries _ _ _ _ ?b] =>
        pose proof (fill_entries_total 4 gr_encode v gr_enc_total 4 b) as F end.
      match type of F with (?a -> _) => assert (X : a) end.
      { rewrite app_length. cbn [length] in *. lia. }
      specialize (F X). clear X. rewrite app_length in F. cbn [length] in F.
      destruct (fill_entries 4 gr_encode v 4 _) as [[]|e| |]; auto. cbn [length] in Hb. lia.
    + unfold eret.
      match goal with |- context [fill_entries _ _ _ _ ?b] =>
        pose proof (fill_entries_total 4 gr_encode v gr_enc_total 4 b) as F end.
      match type of F with (?a -> _) => assert (X : a) end.
      { rewrite !app_length, length_be_bytes. cbn [length] in *. lia. }
      specialize (F X). clear X. rewrite !app_length, length_be_bytes in F. cbn [length] in F.
      destruct (fill_entries 4 gr_encode v 4 _) as [[]|e| |]; auto. cbn [length] in Hb. lia.
  - unfold fill_buffer. cbv [ebind elen]. rewrite Hb, Nat.ltb_irrefl. cbn [bytes_len] in *.
    des_buf buf 2%nat. rewrite set_idx_0, set_idx_1.
    match goal with |- context [fill_entries _ _ _ _ ?b] =>
      pose proof (fill_entries_total 4 ap_encode v ap_enc_total 2 b) as F end.
    match type of F with (?a -> _) => assert (X : a) end.
    { cbn [length] in *. lia. }
    specialize (F X). clear X. cbn [length] in F, Hb. rewrite Hb in F. exact F.
  - unfold fill_buffer. cbv [ebind elen]. rewrite Hb, Nat.ltb_irrefl. cbn [bytes_len] in *.
    des_buf buf 2%nat. rewrite set_idx_0, set_idx_1.
    match goal with |- context [fill_entries _ _ _ _ ?b] =>
      pose proof (fill_entries_total 7 llgr_encode v ll_enc_total 2 b) as F end.
    match type of F with (?a -> _) => assert (X : a) end.
    { cbn [length] in *. lia. }
    specialize (F X). clear X. cbn [length] in F, Hb. rewrite Hb in F. exact F.
  - destruct (fqdn_fill h d buf Hb) as (u & v & E). rewrite E. cbn [bytes_len length].
    rewrite app_length. cbn [length]. rewrite app_length. cbn [length]. lia.
Qed.

Definition caps_room (v : list bgpcap) : nat := length (params_wire v).

Lemma open_caps_total v : forall pos buf, (pos + length (params_wire v) <= length buf)%nat ->
  total (open_fill_caps v pos buf).
Proof.
  induction v as [|c v IH]; intros pos buf Hl; cbn [open_fill_caps]; [exact I|].
  unfold params_wire in Hl. cbn [map concat] in Hl.
  change (concat (map param_wire v)) with (params_wire v) in Hl.
  rewrite app_length, length_param in Hl.
  unfold ebind.
  destruct (set_idx_len pos 2 buf ltac:(lia)) as [b1 [-> L1]].
  destruct (set_idx_len (pos + 1) (cast 8 (N.of_nat (bytes_len c))) b1 ltac:(lia)) as [b2 [-> L2]].
  unfold on_eslice.
  replace (Nat.leb (pos + 2) (bytes_len c + pos + 2)) with true by (symmetry; apply Nat.leb_le; lia).
  replace (Nat.leb (bytes_len c + pos + 2) (length b2)) with true by (symmetry; apply Nat.leb_le; lia).
  cbn [andb].
  pose proof (fill_total c (sub b2 (pos + 2) (bytes_len c + pos + 2)) ltac:(rewrite length_sub; lia)) as F.
  destruct (fill_buffer c (sub b2 (pos + 2) (bytes_len c + pos + 2))) as [[u b']|e| |]; try exact I; auto.
  apply IH. rewrite !app_length, firstn_length, skipn_length, F. lia.
Qed.

Lemma write_at_len a bs buf : (a + length bs <= length buf)%nat ->
  exists b', write_at a bs buf = Ok (tt, b') /\ length b' = length buf.
Proof.
  intros H. rewrite (writes_at_write_at a bs) by lia. eexists; split; [reflexivity|].
  now apply length_splice.
Qed.

(** the part before the capabilities *)
Lemma open_encode_head m buf : (10 <= length buf)%nat ->
  exists buf', length buf' = length buf /\ open_encode m buf = open_fill_caps (op_caps m) 10 buf'.
Proof.
  intros Hl. unfold open_encode. cbv [ebind elen]. cbv beta iota.
  replace (Nat.ltb (length buf) 10) with false by (symmetry; apply Nat.ltb_ge; lia).
  unfold on_eslice.
  replace (Nat.leb 1 (length buf)) with true by (symmetry; apply Nat.leb_le; lia).
  rewrite Nat.leb_refl. cbn [andb]. unfold eret at 1. cbv beta iota.
  set (b0 := firstn 1 buf ++ sub buf 1 (length buf) ++ skipn (length buf) buf).
  assert (L0 : length b0 = length buf).
  { unfold b0. rewrite !app_length, length_sub, firstn_length, skipn_length by lia. lia. }
  destruct (set_idx_len 0 4 b0 ltac:(lia)) as [b1 [-> L1]].
  match goal with |- context [write_at 1 ?x b1] =>
    destruct (write_at_len 1 x b1 ltac:(cbn; lia)) as [b2 [-> L2]] end.
  match goal with |- context [write_at 3 ?x b2] =>
    destruct (write_at_len 3 x b2 ltac:(cbn; lia)) as [b3 [-> L3]] end.
  match goal with |- context [write_at 5 ?x b3] =>
    destruct (write_at_len 5 x b3 ltac:(cbn; lia)) as [b4 [-> L4]] end.
  destruct (set_idx_len 9 (open_caplen (op_caps m)) b4 ltac:(lia)) as [b5 [-> L5]].
  exists b5. split; [lia|reflexivity].
Qed.

Lemma open_encode_total m buf :
  ((length buf < 10)%nat \/ (10 + length (params_wire (op_caps m)) <= length buf)%nat) ->
  total (open_encode m buf).
Proof.
  intros [H|H].
  - unfold open_encode. cbv [ebind elen].
    replace (Nat.ltb (length buf) 10) with true by (symmetry; apply Nat.ltb_lt; lia). exact I.
  - destruct (open_encode_head m buf ltac:(lia)) as (b & L & ->). apply open_caps_total. lia.
Qed.

(** exact outcome for sendable capabilities *)
Lemma open_caps_exact v : Forall cap_sendable v -> forall pos buf, (pos <= length buf)%nat ->
  (length buf < pos + length (params_wire v))%nat ->
  exists pre c post, v = pre ++ c :: post /\
    (pos + length (params_wire pre) <= length buf < pos + length (params_wire (pre ++ [c])))%nat /\
    open_fill_caps v pos buf =
      (if Nat.ltb (length buf) (pos + length (params_wire pre) + 2) then Panic else Err EInsufficient).
Proof.
  induction 1 as [|c v Hc Hv IH]; intros pos buf Hp Hl.
  - cbn in Hl. lia.
  - destruct (le_lt_dec (pos + length (param_wire c)) (length buf)) as [Hfit|Hno].
    + (* this capability fits *)
      assert (W : open_fill_caps [c] pos buf =
                Ok (pos + length (params_wire [c]), splice pos (params_wire [c]) buf)%nat).
      { apply writes_open_caps; [constructor; auto|].
        unfold params_wire. cbn [map concat]. rewrite app_nil_r. lia. }
      assert (Hstep : open_fill_caps (c :: v) pos buf =
        open_fill_caps v (pos + length (param_wire c)) (splice pos (params_wire [c]) buf)).
      { cbn [open_fill_caps] in *. unfold ebind in *.
        destruct (set_idx pos 2 buf) as [[[] b1]|e| |]; try discriminate W.
        destruct (set_idx (pos + 1) (cast 8 (N.of_nat (bytes_len c))) b1) as [[[] b2]|e| |]; try discriminate W.
        destruct (on_eslice (pos + 2) (bytes_len c + pos + 2) (fill_buffer c) b2) as [[[] b3]|e| |]; try discriminate W.
        unfold eret in W. apply (f_equal (fun r => match r with Ok x => snd x | _ => [] end)) in W.
        cbn [snd] in W. rewrite <- W, length_param. reflexivity. }
      assert (HL : length (splice pos (params_wire [c]) buf) = length buf).
      { apply length_splice. unfold params_wire. cbn [map concat]. rewrite app_nil_r. lia. }
      destruct (IH (pos + length (param_wire c))%nat (splice pos (params_wire [c]) buf))
        as (pre & c' & post & -> & Hr & Hx).
      * lia.
      * unfold params_wire in Hl. cbn [map concat] in Hl. rewrite app_length in Hl.
        change (concat (map param_wire v)) with (params_wire v) in Hl. lia.
      * exists (c :: pre), c', post. split; [reflexivity|]. rewrite Hstep, Hx, HL.
        unfold params_wire in *. cbn [map concat app] in *. rewrite !app_length. rewrite HL in Hr.
        split; [lia|]. replace (pos + (length (param_wire c) + length (concat (map param_wire pre))) + 2)%nat
          with (pos + length (param_wire c) + length (concat (map param_wire pre)) + 2)%nat by lia.
        reflexivity.
    + exists [], c, v. split; [reflexivity|]. cbn [app]. unfold params_wire. cbn [map concat length].
      rewrite app_nil_r. split; [lia|]. rewrite Nat.add_0_r. rewrite length_param in Hno.
      cbn [open_fill_caps]. unfold ebind.
      destruct (Nat.ltb_spec (length buf) (pos + 2)) as [L|L].
      * destruct (Nat.eq_dec (length buf) pos) as [Eq|Ne].
        -- unfold set_idx at 1. replace (Nat.ltb pos (length buf)) with false by (symmetry; apply Nat.ltb_ge; lia). reflexivity.
        -- destruct (set_idx_len pos 2 buf ltac:(lia)) as [b1 [-> L1]].
           unfold set_idx at 1. replace (Nat.ltb (pos + 1) (length b1)) with false by (symmetry; apply Nat.ltb_ge; lia). reflexivity.
      * destruct (set_idx_len pos 2 buf ltac:(lia)) as [b1 [-> L1]].
        destruct (set_idx_len (pos + 1) (cast 8 (N.of_nat (bytes_len c))) b1 ltac:(lia)) as [b2 [-> L2]].
        unfold on_eslice.
        replace (Nat.leb (bytes_len c + pos + 2) (length b2)) with false by (symmetry; apply Nat.leb_gt; lia).
        rewrite andb_false_r. reflexivity.
Qed.

(** ** NOTIFICATION *)
Lemma notif_encode_ok m : notif_wf m -> writes (notif_encode m) (notif_wire m) 4%nat.
Proof.
  intros (H1 & H2 & H3) buf Hb. unfold notif_wire in *.
  rewrite app_length, length_be_bytes in Hb. cbn [length] in Hb. des_buf buf 4%nat.
  unfold notif_encode. cbv [ebind elen]. cbn [length Nat.ltb Nat.leb].
  rewrite land_255. unfold cast. rewrite N.shiftr_div_pow2. cbn [be_bytes].
  change (2 ^ (8 * N.of_nat 0)) with 1. rewrite N.div_1_r. reflexivity.
Qed.
Lemma notif_decode_ok self m : notif_wf m -> notif_decode self (notif_wire m) = Ok m.
Proof.
  intros (H1 & H2 & H3). unfold notif_decode, notif_wire.
  pose proof (be_val_be_bytes 2 (nt_data m) H3) as V. pose proof (be_bytes_ok 2 (nt_data m)) as B.
  remember (be_bytes 2 (nt_data m)) as l. assert (L : length l = 2%nat) by (subst; apply length_be_bytes).
  do 3 (destruct l; try discriminate L). cbn [app length Nat.ltb Nat.leb Nat.eqb idx nth_error bind].
  inversion B as [|? ? _ B']; inversion B' as [|? ? X2 _]; subst.
  rewrite lor_shiftl by exact X2. unfold be_val in V. cbn [fold_left] in V.
  change (2 ^ 8) with 256. replace (n * 256 + n0) with (nt_data m) by lia. now destruct m.
Qed.
Lemma notif_total self buf : total (notif_decode self buf).
Proof.
  unfold notif_decode. destruct buf as [|a [|b [|c [|d buf]]]]; cbn; auto.
Qed.
Lemma notif_self s1 s2 buf : length buf <> 2%nat -> notif_decode s1 buf = notif_decode s2 buf.
Proof.
  intros H. unfold notif_decode. destruct buf as [|a [|b [|c [|d buf]]]]; cbn; auto.
  cbn in H. lia.
Qed.
Lemma notif_two self a b : notif_decode self [a; b] = Ok (mkNotif a b (nt_data self)).
Proof. reflexivity. Qed.
Lemma notif_enc_total m buf : total (notif_encode m buf).
Proof.
  unfold notif_encode. cbv [ebind elen]. destruct (Nat.ltb_spec (length buf) 4); [exact I|].
  des_buf buf 4%nat. exact I.
Qed.


(** ** statements used by the theorems *)
Lemma length_wire_ol a b m : length (open_wire_ol a m) = length (open_wire_ol b m).
Proof. reflexivity. Qed.

Lemma open_roundtrip m : open_wf m ->
  exists bs, length bs = length (open_wire m) /\
    writes (open_encode m) bs (length (open_wire m)) /\
    forall self, open_decode self bs = Ok (open_seen m).
Proof.
  intros H. exists (open_wire_ol (open_caplen (op_caps m)) m). split; [reflexivity|].
  split; [now apply open_encode_ok|]. intros. now apply open_decode_wire.
Qed.
Lemma open_encode_wire m : open_wf m -> (length (params_wire (op_caps m)) < 256)%nat ->
  writes (open_encode m) (open_wire m) (length (open_wire m)).
Proof.
  intros H Hl. pose proof (open_encode_ok m H) as W. rewrite open_caplen_eq in W.
  rewrite N.mod_small in W by lia. exact W.
Qed.
Lemma open_reencode self buf m : bytes_ok buf -> open_decode self buf = Ok m ->
  Forall (fun c => ~ is_fqdn c) (op_caps m) -> open_wf m /\ open_seen m = m.
Proof.
  intros B E HF. pose proof (open_decode_total self buf) as T. rewrite E in T.
  destruct (T B) as (H1 & H2 & H3 & H4). split.
  - repeat split; auto.
    + change (2 ^ 32) with 4294967296. clear - H1. lia.
    + rewrite Forall_forall in *. intros c Hc. split; auto.
  - unfold open_seen, wire_as. replace (op_as m <? 65536) with true by (symmetry; now apply N.ltb_lt).
    now destruct m.
Qed.
Lemma open_refuted : exists m buf out n,
  op_as m < 65536 /\ op_hold m < 65536 /\ op_rid m < 2 ^ 32 /\ Forall cap_fits (op_caps m) /\
  open_encode m buf = Ok (n, out) /\ forall self, open_decode self (firstn n out) <> Ok (open_seen m).
Proof.
  exists (mkOpen 1 180 1 [CapFQDN [104] []]), (repeat 0 17). do 2 eexists.
  split; [reflexivity|]. split; [reflexivity|]. split; [reflexivity|].
  split. { repeat constructor; try (vm_compute; lia). }
  split; [vm_compute; reflexivity|]. intros self. vm_compute. discriminate.
Qed.
Lemma open_encode_refuted : exists m buf, open_wf m /\ open_encode m buf = Panic.
Proof.
  exists (mkOpen 1 180 1 [CapRR]), (repeat 0 10). split; [|reflexivity].
  repeat split; try reflexivity. repeat constructor; try (vm_compute; lia).
  intros (h & d & H); discriminate.
Qed.
Lemma open_encode_exact m buf : open_wf m ->
  (10 <= length buf < 10 + length (params_wire (op_caps m)))%nat ->
  exists pre c post, op_caps m = pre ++ c :: post /\
    (10 + length (params_wire pre) <= length buf < 10 + length (params_wire (pre ++ [c])))%nat /\
    open_encode m buf =
      (if Nat.ltb (length buf) (10 + length (params_wire pre) + 2) then Panic else Err EInsufficient).
Proof.
  intros (_ & _ & _ & Hc) Hl. destruct (open_encode_head m buf ltac:(lia)) as (b & L & ->).
  rewrite <- L. apply open_caps_exact; auto; lia.
Qed.
Lemma open_optlen m : open_wf m ->
  exists bs, writes (open_encode m) bs (length bs) /\
    nth_error bs 9 = Some (N.of_nat (length bs - 10) mod 256).
Proof.
  intros H. exists (open_wire_ol (open_caplen (op_caps m)) m).
  split; [exact (open_encode_ok m H)|].
  replace (length (open_wire_ol (open_caplen (op_caps m)) m) - 10)%nat with (length (params_wire (op_caps m))).
  - rewrite <- open_caplen_eq. reflexivity.
  - unfold open_wire_ol. rewrite !app_length, !length_be_bytes. cbn [length]. lia.
Qed.
Lemma open_optlen_fits m : open_wf m -> (length (params_wire (op_caps m)) < 256)%nat ->
  exists bs, writes (open_encode m) bs (length bs) /\
    nth_error bs 9 = Some (N.of_nat (length bs - 10)).
Proof.
  intros H Hl. exists (open_wire m). split; [now apply open_encode_wire|].
  unfold open_wire, open_wire_ol. rewrite !app_length, !length_be_bytes. cbn [length].
  match goal with |- context [(?a - 10)%nat] => replace (a - 10)%nat with (length (params_wire (op_caps m))) by lia end.
  reflexivity.
Qed.
Lemma open_optlen_refuted : exists m bs, open_wf m /\
  writes (open_encode m) bs (length bs) /\
  nth_error bs 9 = Some 0 /\ (10 < length bs)%nat.
Proof.
  set (m := mkOpen 1 180 1 (repeat (CapMP SafiEVPN) 32)).
  assert (H : open_wf m).
  { repeat split; try reflexivity. cbn [op_caps m]. apply Forall_forall. intros c Hc.
    apply repeat_spec in Hc. subst c. split; [split; [exact I|vm_compute; lia]|].
    intros (h & d & E); discriminate. }
  exists m, (open_wire_ol (open_caplen (op_caps m)) m).
  split; [exact H|]. split; [exact (open_encode_ok m H)|].
  split; [reflexivity|]. vm_compute. lia.
Qed.
