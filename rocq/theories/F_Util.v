(** Facts about the model of util.rs. *)
From Verif Require Import Base BaseFacts M_Util S_Wire.
From Coq Require Import ZArith ZifyBool ZifyNat ZifyN.
Ltac Zify.zify_post_hook ::= Z.div_mod_to_equations.

Ltac inv_bytes := repeat match goal with
  | H : bytes_ok (_ :: _) |- _ => inversion H; subst; clear H
  | H : Forall is_byte (_ :: _) |- _ => inversion H; subst; clear H
  end; unfold is_byte in *.

Lemma be_val_2 a b : be_val [a; b] = a * 256 + b.
Proof. unfold be_val. cbn [fold_left]. lia. Qed.
Lemma be_val_4 a b c d : be_val [a; b; c; d] = ((a * 256 + b) * 256 + c) * 256 + d.
Proof. unfold be_val. cbn [fold_left]. lia. Qed.

Lemma getn_u16_val a b rest : a < 256 -> b < 256 ->
  getn_u16 (a :: b :: rest) = Ok (be_val [a; b]).
Proof.
  intros. unfold getn_u16. cbn [idx nth_error bind].
  rewrite lor_shiftl by (change (2 ^ 8) with 256; lia). now rewrite be_val_2.
Qed.

Lemma getn_u32_val a b c d rest : a < 256 -> b < 256 -> c < 256 -> d < 256 ->
  getn_u32 (a :: b :: c :: d :: rest) = Ok (be_val [a; b; c; d]).
Proof.
  intros. unfold getn_u32. cbn [idx nth_error bind].
  rewrite be_val_4, !N.shiftl_mul_pow2.
  change (2 ^ 24) with 16777216. change (2 ^ 16) with 65536. change (2 ^ 8) with 256.
  rewrite (lor_disj 24 (a * 16777216) (b * 65536)) by (change (2 ^ 24) with 16777216; lia).
  rewrite (lor_disj 16 _ (c * 256)) by (change (2 ^ 16) with 65536; lia).
  rewrite (lor_disj 8) by (change (2 ^ 8) with 256; lia).
  f_equal. lia.
Qed.

Lemma getn_u16_ok l : bytes_ok l -> (2 <= length l)%nat -> getn_u16 l = Ok (be_val (firstn 2 l)).
Proof.
  intros H Hl. destruct l as [|a [|b l]]; cbn in Hl; try lia. inv_bytes. now apply getn_u16_val.
Qed.
Lemma getn_u32_ok l : bytes_ok l -> (4 <= length l)%nat -> getn_u32 l = Ok (be_val (firstn 4 l)).
Proof.
  intros H Hl. destruct l as [|a [|b [|c [|d l]]]]; cbn in Hl; try lia. inv_bytes. now apply getn_u32_val.
Qed.
Lemma getn_u64_ok l : bytes_ok l -> (8 <= length l)%nat -> getn_u64 l = Ok (be_val (firstn 8 l)).
Proof.
  intros H Hl. unfold getn_u64. rewrite getn_u32_ok by (auto; lia). cbn [bind].
  rewrite rslice_ok by lia. cbn [bind].
  assert (Hb : bytes_ok (sub l 4 8)) by now apply Forall_sub.
  rewrite getn_u32_ok by (auto; rewrite length_sub; lia). cbn [bind].
  replace (firstn 4 (sub l 4 8)) with (sub l 4 8) by (symmetry; apply firstn_all2; rewrite length_sub; lia).
  pose proof (be_val_bound _ Hb) as Hbd. rewrite length_sub in Hbd by lia.
  rewrite lor_shiftl by exact Hbd.
  f_equal. unfold sub. change (8 - 4)%nat with 4%nat.
  replace (firstn 8 l) with (firstn 4 l ++ firstn 4 (skipn 4 l)).
  - rewrite be_val_app. rewrite firstn_length, skipn_length. replace (Nat.min 4 (length l - 4)) with 4%nat by lia. reflexivity.
  - rewrite <- (firstn_skipn 4 l) at 3. rewrite firstn_app, firstn_length.
    replace (8 - Nat.min 4 (length l))%nat with 4%nat by lia.
    now rewrite (firstn_all2 (firstn 4 l)) by (rewrite firstn_length; lia).
Qed.
Lemma getn_u128_ok l : bytes_ok l -> (16 <= length l)%nat -> getn_u128 l = Ok (be_val (firstn 16 l)).
Proof.
  intros H Hl. unfold getn_u128. rewrite getn_u64_ok by (auto; lia). cbn [bind].
  rewrite rslice_ok by lia. cbn [bind].
  assert (Hb : bytes_ok (sub l 8 16)) by now apply Forall_sub.
  rewrite getn_u64_ok by (auto; rewrite length_sub; lia). cbn [bind].
  replace (firstn 8 (sub l 8 16)) with (sub l 8 16) by (symmetry; apply firstn_all2; rewrite length_sub; lia).
  pose proof (be_val_bound _ Hb) as Hbd. rewrite length_sub in Hbd by lia.
  rewrite lor_shiftl by exact Hbd.
  f_equal. unfold sub. change (16 - 8)%nat with 8%nat.
  replace (firstn 16 l) with (firstn 8 l ++ firstn 8 (skipn 8 l)).
  - rewrite be_val_app. rewrite firstn_length, skipn_length. replace (Nat.min 8 (length l - 8)) with 8%nat by lia. reflexivity.
  - rewrite <- (firstn_skipn 8 l) at 3. rewrite firstn_app, firstn_length.
    replace (16 - Nat.min 8 (length l))%nat with 8%nat by lia.
    now rewrite (firstn_all2 (firstn 8 l)) by (rewrite firstn_length; lia).
Qed.

Lemma bytes_ok_app a b : bytes_ok a -> bytes_ok b -> bytes_ok (a ++ b).
Proof. intros. now apply Forall_app. Qed.

(** Readers on a big-endian image followed by anything (even non-bytes). *)
Lemma getn_u16_be s rest : s < 2 ^ 16 -> getn_u16 (be_bytes 2 s ++ rest) = Ok s.
Proof.
  intros H. rewrite <- (be_val_be_bytes 2 s) at 2 by exact H.
  pose proof (be_bytes_ok 2 s) as B. cbn [be_bytes app] in *. inv_bytes. now apply getn_u16_val.
Qed.
Lemma getn_u32_be s rest : s < 2 ^ 32 -> getn_u32 (be_bytes 4 s ++ rest) = Ok s.
Proof.
  intros H. rewrite <- (be_val_be_bytes 4 s) at 2 by exact H.
  pose proof (be_bytes_ok 4 s) as B. cbn [be_bytes app] in *. inv_bytes. now apply getn_u32_val.
Qed.
Lemma getn_u64_app l rest : length l = 8%nat -> getn_u64 (l ++ rest) = getn_u64 l.
Proof. intros H. do 9 (destruct l; try discriminate). reflexivity. Qed.
Lemma getn_u64_be s rest : s < 2 ^ 64 -> getn_u64 (be_bytes 8 s ++ rest) = Ok s.
Proof.
  intros H. rewrite getn_u64_app by apply length_be_bytes.
  rewrite getn_u64_ok by (try apply be_bytes_ok; rewrite length_be_bytes; lia).
  rewrite firstn_all2 by (rewrite length_be_bytes; lia). now rewrite be_val_be_bytes.
Qed.
Lemma getn_u128_be s : s < 2 ^ 128 -> getn_u128 (be_bytes 16 s) = Ok s.
Proof.
  intros H.
  rewrite getn_u128_ok by (try apply be_bytes_ok; rewrite length_be_bytes; lia).
  rewrite firstn_all2 by (rewrite length_be_bytes; lia). now rewrite be_val_be_bytes.
Qed.

Lemma getn_u16_short l : (length l < 2)%nat -> getn_u16 l = Panic.
Proof. intros. destruct l as [|a [|b l]]; cbn in *; try lia; reflexivity. Qed.
Lemma getn_u32_short l : (length l < 4)%nat -> getn_u32 l = Panic.
Proof. intros. destruct l as [|a [|b [|c [|d l]]]]; cbn in *; try lia; reflexivity. Qed.

Lemma getn_u16_cases l : (exists v, getn_u16 l = Ok v /\ (2 <= length l)%nat) \/ (getn_u16 l = Panic /\ (length l < 2)%nat).
Proof. destruct l as [|a [|b l]]; cbn; [right; split; auto; lia..|left; eexists; split; eauto; lia]. Qed.
Lemma getn_u32_cases l : (exists v, getn_u32 l = Ok v /\ (4 <= length l)%nat) \/ (getn_u32 l = Panic /\ (length l < 4)%nat).
Proof. destruct l as [|a [|b [|c [|d l]]]]; cbn; [right; split; auto; lia..|left; eexists; split; eauto; lia]. Qed.

(** Writers *)
Lemma cast8_shiftr s k w : s < 2 ^ w -> w <= k + 8 -> cast 8 (N.shiftr s k) = (s / 2 ^ k) mod 256.
Proof. intros. unfold cast. now rewrite N.shiftr_div_pow2. Qed.

Lemma writes_setn_u16 s : writes (setn_u16 s) (be_bytes 2 s) tt.
Proof.
  unfold setn_u16, writes.
  change (be_bytes 2 s) with ([(s / 2 ^ 8) mod 256] ++ [(s / 2 ^ 0) mod 256]).
  apply (writes_at_bind 0 _ _ _ _ tt).
  - unfold cast. rewrite N.shiftr_div_pow2. apply writes_at_set_idx.
  - rewrite land_255, N.pow_0_r, N.div_1_r. apply writes_at_set_idx.
Qed.

Lemma writes_setn_u32 s : writes (setn_u32 s) (be_bytes 4 s) tt.
Proof.
  unfold setn_u32, writes. rewrite !land_255. unfold cast. rewrite !N.shiftr_div_pow2.
  change (be_bytes 4 s) with ([(s / 2 ^ 24) mod 256] ++ [(s / 2 ^ 16) mod 256] ++ [(s / 2 ^ 8) mod 256] ++ [(s / 2 ^ 0) mod 256]).
  rewrite (N.pow_0_r 2), N.div_1_r.
  repeat (apply (writes_at_bind _ _ _ _ _ tt); [apply writes_at_set_idx|]).
  apply writes_at_set_idx.
Qed.

Lemma writes_setn_u64 s : writes (setn_u64 s) (be_bytes 8 s) tt.
Proof.
  unfold setn_u64, writes. rewrite !land_255. unfold cast. rewrite !N.shiftr_div_pow2.
  change (be_bytes 8 s) with
    ([(s / 2 ^ 56) mod 256] ++ [(s / 2 ^ 48) mod 256] ++ [(s / 2 ^ 40) mod 256] ++ [(s / 2 ^ 32) mod 256] ++
     [(s / 2 ^ 24) mod 256] ++ [(s / 2 ^ 16) mod 256] ++ [(s / 2 ^ 8) mod 256] ++ [(s / 2 ^ 0) mod 256]).
  rewrite (N.pow_0_r 2), N.div_1_r.
  repeat (apply (writes_at_bind _ _ _ _ _ tt); [apply writes_at_set_idx|]).
  apply writes_at_set_idx.
Qed.

Lemma writes_elen_guard {A} p k (e : err) (m : Enc A) bs a :
  (k <= p + length bs)%nat -> writes_at p m bs a ->
  writes_at p (len <~ elen ;; if Nat.ltb len k then eerr e else m) bs a.
Proof.
  intros Hk H buf Hb. unfold ebind, elen.
  replace (Nat.ltb (length buf) k) with false by (symmetry; apply Nat.ltb_ge; lia). now apply H.
Qed.

Lemma writes_encode_addrv4 a : writes (encode_addrv4_to a) (be_bytes 4 a) 4%nat.
Proof.
  apply writes_elen_guard; [rewrite length_be_bytes; lia|].
  eapply writes_at_map; [apply writes_at_write_at|]. intros; reflexivity.
Qed.
Lemma writes_encode_addrv6 a : writes (encode_addrv6_to a) (be_bytes 16 a) 16%nat.
Proof.
  apply writes_elen_guard; [rewrite length_be_bytes; lia|].
  eapply writes_at_map; [apply writes_at_write_at|]. intros; reflexivity.
Qed.
Lemma writes_encode_addr a : writes (encode_addr_to a) (ip_bytes a) (length (ip_bytes a)).
Proof. destruct a; [apply writes_encode_addrv4|apply writes_encode_addrv6]. Qed.

Lemma decode_addrv4_short l : (length l < 4)%nat -> decode_addrv4_from l = Err EOther.
Proof. intros. unfold decode_addrv4_from. now replace (Nat.ltb (length l) 4) with true by (symmetry; apply Nat.ltb_lt; auto). Qed.
Lemma decode_addrv6_short l : (length l < 16)%nat -> decode_addrv6_from l = Err EOther.
Proof. intros. unfold decode_addrv6_from. now replace (Nat.ltb (length l) 16) with true by (symmetry; apply Nat.ltb_lt; auto). Qed.

Lemma decode_addrv4_ok l : (4 <= length l)%nat -> decode_addrv4_from l = Ok (be_val (firstn 4 l)).
Proof.
  intros. destruct l as [|b0 [|b1 [|b2 [|b3 l]]]]; cbn in H; try lia. reflexivity.
Qed.

Lemma be_val_16_groups g0 g1 g2 g3 g4 g5 g6 g7 h0 h1 h2 h3 h4 h5 h6 h7 :
  be_val [g0;h0;g1;h1;g2;h2;g3;h3;g4;h4;g5;h5;g6;h6;g7;h7] =
  ip6_new [be_val [g0;h0]; be_val [g1;h1]; be_val [g2;h2]; be_val [g3;h3];
           be_val [g4;h4]; be_val [g5;h5]; be_val [g6;h6]; be_val [g7;h7]].
Proof. unfold ip6_new, be_val. cbn [fold_left]. lia. Qed.

Lemma decode_addrv6_ok l : bytes_ok (firstn 16 l) -> (16 <= length l)%nat -> decode_addrv6_from l = Ok (be_val (firstn 16 l)).
Proof.
  intros B H. do 16 (destruct l as [|? l]; [cbn in H; lia|]). clear H.
  cbn [firstn] in *. inv_bytes.
  rewrite be_val_16_groups. unfold decode_addrv6_from.
  cbn [length Nat.ltb Nat.leb rslice sub firstn skipn Nat.sub andb bind].
  unfold rslice, sub. cbn [length Nat.ltb Nat.leb firstn skipn Nat.sub andb bind].
  rewrite !getn_u16_val by auto. cbn [bind]. 
  repeat (rewrite getn_u16_val by auto; cbn [bind]). reflexivity.
Qed.

Lemma decode_addrv4_be a rest : a < 2 ^ 32 -> decode_addrv4_from (be_bytes 4 a ++ rest) = Ok a.
Proof.
  intros. rewrite decode_addrv4_ok by (rewrite app_length, length_be_bytes; lia).
  rewrite firstn_app_exact by apply length_be_bytes. now rewrite be_val_be_bytes.
Qed.
Lemma decode_addrv6_be a rest : a < 2 ^ 128 -> decode_addrv6_from (be_bytes 16 a ++ rest) = Ok a.
Proof.
  intros.
  assert (E : firstn 16 (be_bytes 16 a ++ rest) = be_bytes 16 a) by (apply firstn_app_exact, length_be_bytes).
  rewrite decode_addrv6_ok.
  - rewrite E. now rewrite be_val_be_bytes.
  - rewrite E. apply be_bytes_ok.
  - rewrite app_length, length_be_bytes; lia.
Qed.

Lemma decode_addr_be a : ip_wf a -> decode_addr_from (ip_bytes a) = Ok a.
Proof.
  destruct a as [a|a]; cbn [ip_wf ip_bytes]; intros H; unfold decode_addr_from; rewrite length_be_bytes.
  - rewrite <- (app_nil_r (be_bytes 4 a)). now rewrite decode_addrv4_be.
  - rewrite <- (app_nil_r (be_bytes 16 a)). now rewrite decode_addrv6_be.
Qed.

Lemma decode_addr_total l : bytes_ok l -> is_panic (decode_addr_from l) = false.
Proof.
  intros B. unfold decode_addr_from.
  do 4 (destruct l as [|? l]; [reflexivity|]). cbn [length].
  destruct l as [|? l]; [reflexivity|]. cbn [length].
  do 11 (destruct l as [|? l]; [reflexivity|]; cbn [length]).
  destruct l as [|? l]; [|reflexivity].
  rewrite decode_addrv6_ok; [reflexivity| |cbn; lia]. now rewrite firstn_all2 by (cbn; lia).
Qed.

(** reading and re-encoding *)
Lemma decode_addr_inv l a : bytes_ok l -> decode_addr_from l = Ok a -> ip_wf a /\ ip_bytes a = l.
Proof.
  intros B H. unfold decode_addr_from in H.
  assert (length l = 4 \/ length l = 16)%nat as [E|E].
  { do 17 (destruct l as [|? l]; [cbn in *; try discriminate; auto|]). cbn in H. discriminate. }
  - rewrite E in H. rewrite decode_addrv4_ok in H by lia. rewrite firstn_all2 in H by lia. cbn in H. inversion H; subst.
    cbn -[be_bytes N.pow]. split.
    + pose proof (be_val_bound l B). rewrite E in H0. exact H0.
    + rewrite <- E at 1. now apply be_bytes_be_val.
  - rewrite E in H. rewrite decode_addrv6_ok in H; [|rewrite firstn_all2 by lia; auto|lia]. rewrite firstn_all2 in H by lia. cbn in H. inversion H; subst.
    cbn -[be_bytes N.pow]. split.
    + pose proof (be_val_bound l B). rewrite E in H0. exact H0.
    + rewrite <- E at 1. now apply be_bytes_be_val.
Qed.

(** ** Statements used by the property file *)

Lemma net_repr_be k s : s < 2 ^ (8 * N.of_nat k) -> net_repr k s (be_bytes k s).
Proof. intros. repeat split; [apply length_be_bytes|apply be_bytes_ok|now apply be_val_be_bytes]. Qed.
Lemma net_repr_unique k s bs : net_repr k s bs -> bs = be_bytes k s.
Proof. intros (H & B & V). subst. symmetry. now apply be_bytes_be_val. Qed.

Lemma C01_u16_l s buf : s < 2 ^ 16 -> (2 <= length buf)%nat ->
  exists bs, net_repr 2 s bs /\ setn_u16 s buf = Ok (tt, bs ++ skipn 2 buf) /\
    getn_u16 (bs ++ skipn 2 buf) = Ok s.
Proof.
  intros H Hl. exists (be_bytes 2 s). repeat split.
  - apply be_bytes_ok.
  - now apply be_val_be_bytes.
  - apply (writes_setn_u16 s buf). rewrite length_be_bytes. exact Hl.
  - now apply getn_u16_be.
Qed.
Lemma C01_u32_l s buf : s < 2 ^ 32 -> (4 <= length buf)%nat ->
  exists bs, net_repr 4 s bs /\ setn_u32 s buf = Ok (tt, bs ++ skipn 4 buf) /\
    getn_u32 (bs ++ skipn 4 buf) = Ok s.
Proof.
  intros H Hl. exists (be_bytes 4 s). repeat split.
  - apply be_bytes_ok.
  - now apply be_val_be_bytes.
  - apply (writes_setn_u32 s buf). rewrite length_be_bytes. exact Hl.
  - now apply getn_u32_be.
Qed.
Lemma C01_u64_l s buf : s < 2 ^ 64 -> (8 <= length buf)%nat ->
  exists bs, net_repr 8 s bs /\ setn_u64 s buf = Ok (tt, bs ++ skipn 8 buf) /\
    getn_u64 (bs ++ skipn 8 buf) = Ok s.
Proof.
  intros H Hl. exists (be_bytes 8 s). repeat split.
  - apply be_bytes_ok.
  - now apply be_val_be_bytes.
  - apply (writes_setn_u64 s buf). rewrite length_be_bytes. exact Hl.
  - now apply getn_u64_be.
Qed.
Lemma C01_addr_l a buf : ip_wf a ->
  let k := match a with IPv4 _ => 4%nat | IPv6 _ => 16%nat end in
  let v := match a with IPv4 v => v | IPv6 v => v end in
  if Nat.ltb (length buf) k then encode_addr_to a buf = Err EOther
  else exists bs, net_repr k v bs /\ encode_addr_to a buf = Ok (k, bs ++ skipn k buf) /\
         decode_addr_from bs = Ok a.
Proof.
  intros H k v. destruct (Nat.ltb (length buf) k) eqn:E.
  - destruct a; subst k; unfold encode_addr_to, encode_addrv4_to, encode_addrv6_to, ebind, elen; now rewrite E.
  - apply Nat.ltb_ge in E. exists (ip_bytes a). split; [|split].
    + destruct a; now apply net_repr_be.
    + destruct a as [a|a]; [apply (writes_encode_addrv4 a buf)|apply (writes_encode_addrv6 a buf)]; rewrite length_be_bytes; exact E.
    + now apply decode_addr_be.
Qed.
Lemma C01_addr_dec_l l : bytes_ok l ->
  (decode_addr_from l = Err EOther /\ length l <> 4%nat /\ length l <> 16%nat) \/
  (exists a, decode_addr_from l = Ok a /\ ip_wf a /\
     net_repr (match a with IPv4 _ => 4 | IPv6 _ => 16 end) (match a with IPv4 v => v | IPv6 v => v end) l).
Proof.
  intros B. destruct (Nat.eq_dec (length l) 4) as [E4|E4]; [|destruct (Nat.eq_dec (length l) 16) as [E|E]].
  - right. exists (IPv4 (be_val l)). unfold decode_addr_from. rewrite E4, decode_addrv4_ok by lia.
    rewrite firstn_all2 by lia. pose proof (be_val_bound l B) as Hb. rewrite E4 in Hb.
    repeat split; auto.
  - right. exists (IPv6 (be_val l)). unfold decode_addr_from. rewrite E, decode_addrv6_ok; [|rewrite firstn_all2 by lia; auto|lia].
    rewrite firstn_all2 by lia. pose proof (be_val_bound l B) as Hb. rewrite E in Hb.
    repeat split; auto.
  - left. split; auto. unfold decode_addr_from.
    generalize dependent (length l). intros n E4 E.
    repeat match goal with |- context [match ?n with _ => _ end] => destruct n; try reflexivity; try congruence end.
Qed.
Lemma C01_u128_l l : bytes_ok l -> (16 <= length l)%nat ->
  getn_u128 l = Ok (be_val (firstn 16 l)) /\ getn_u64 l = Ok (be_val (firstn 8 l)) /\
  getn_u32 l = Ok (be_val (firstn 4 l)) /\ getn_u16 l = Ok (be_val (firstn 2 l)).
Proof.
  intros. repeat split; [apply getn_u128_ok|apply getn_u64_ok|apply getn_u32_ok|apply getn_u16_ok]; auto; lia.
Qed.
