(** Which routes stop the program when encoded. *)
From Verif Require Import Base BaseFacts M_Util S_Wire F_Util M_Prefix M_Nlri M_Vpls M_Mvpn M_Evpn M_Flowspec M_Addrs S_Stop F_Stop.
Ltac Zify.zify_post_hook ::= idtac.

(** ** Numbers and addresses *)
Lemma at_seq {A B} n (m : Enc A) (f : A -> Enc B) x r : at_len n m (Ok x) -> at_len n (f x) r -> at_len n (ebind m f) r.
Proof. intros H1 H2. apply (at_bind n m f (Ok x) (fun _ => r)); [exact H1|]. intros y E. assert (y = x) as -> by congruence. exact H2. Qed.
Lemma at_u16 n v : (2 <= n)%nat -> at_len n (setn_u16 v) (Ok tt).
Proof. intros H. unfold setn_u16. eapply at_seq; apply at_set; lia. Qed.
Lemma at_u32 n v : (4 <= n)%nat -> at_len n (setn_u32 v) (Ok tt).
Proof. intros H. unfold setn_u32. do 3 (eapply at_seq; [apply at_set; lia|]). apply at_set; lia. Qed.
Lemma at_u64 n v : (8 <= n)%nat -> at_len n (setn_u64 v) (Ok tt).
Proof. intros H. unfold setn_u64. do 7 (eapply at_seq; [apply at_set; lia|]). apply at_set; lia. Qed.
Lemma at_addr4 n a : (4 <= n)%nat -> at_len n (encode_addrv4_to a) (Ok 4%nat).
Proof.
  intros H. unfold encode_addrv4_to. apply at_elen. destruct (Nat.ltb_spec n 4); [lia|]. eapply at_seq; [|apply at_ret]. apply at_write. unfold octets4. rewrite length_be_bytes. exact H.
Qed.
Lemma at_addr6 n a : (16 <= n)%nat -> at_len n (encode_addrv6_to a) (Ok 16%nat).
Proof.
  intros H. unfold encode_addrv6_to. apply at_elen. destruct (Nat.ltb_spec n 16); [lia|]. eapply at_seq; [|apply at_ret]. apply at_write. unfold octets16. rewrite length_be_bytes. exact H.
Qed.
Lemma room_u16 v : room (setn_u16 v) (Ok tt).
Proof. exists 2%nat. intros. now apply at_u16. Qed.
Lemma room_u32 v : room (setn_u32 v) (Ok tt).
Proof. exists 4%nat. intros. now apply at_u32. Qed.
Lemma room_u64 v : room (setn_u64 v) (Ok tt).
Proof. exists 8%nat. intros. now apply at_u64. Qed.
Lemma room_addr4 v : room (encode_addrv4_to v) (Ok 4%nat).
Proof. exists 4%nat. intros. now apply at_addr4. Qed.
Lemma room_addr6 v : room (encode_addrv6_to v) (Ok 16%nat).
Proof. exists 16%nat. intros. now apply at_addr6. Qed.
Definition addr_size (a : ipaddr) : nat := match a with IPv4 _ => 4 | IPv6 _ => 16 end.
Lemma room_addr a : room (encode_addr_to a) (Ok (addr_size a)).
Proof. destruct a; [apply room_addr4|apply room_addr6]. Qed.
Lemma room_rd r : room (encode_rd_to r) (Ok 8%nat).
Proof.
  unfold encode_rd_to. eapply room_seq; [apply room_u32|]. eapply room_seq; [apply room_slice; [lia|apply at_u32; lia]|]. apply room_ret.
Qed.
Lemma room_labels_write v : forall p, room (labels_write v p) (Ok (p + 3 * length v)%nat).
Proof.
  induction v as [|l v IH]; intros p; cbn [labels_write length].
  - replace (p + 3 * 0)%nat with p by lia. apply room_ret.
  - do 3 (eapply room_seq; [apply room_set|]). replace (p + 3 * S (length v))%nat with (p + 3 + 3 * length v)%nat by lia. apply IH.
Qed.
Lemma room_labels v : room (labels_set v) (Ok (label_bits v, (3 * length v)%nat)).
Proof.
  unfold labels_set, label_bits. destruct v as [|l v]; [apply room_ret|]. eapply room_seq; [apply room_labels_write|].
  eapply room_seq; [apply room_upd|].
  replace ((24 * N.of_nat (length (l :: v))) mod 256) with (cast 8 (N.of_nat (0 + 3 * length (l :: v)) * 8)); [apply room_ret|].
  unfold cast. f_equal. lia.
Qed.

(** ** Setters of bits: they stop or announce [b] bits *)
Definition sets (e : Enc (N * nat)) (P : Prop) (b : N) : Prop := (P /\ room e Panic) \/ (~ P /\ exists n, room e (Ok (b, n))).
(** [calm] or not *)
Definition either {A} (e : Enc A) (P : Prop) : Prop := (P /\ room e Panic) \/ (~ P /\ calm e).
Lemma either_exact {A} (e : Enc A) P : either e P -> (stops e <-> P) /\ (never_stops e <-> ~ P).
Proof. intros H. apply exact_iff; destruct H as [(H1 & H2)|(H1 & H2)]; tauto. Qed.

Lemma length_rsl (l : list N) n : (n <= length l)%nat -> rslice l 0 n = Ok (firstn n l).
Proof. intros H. unfold rslice. cbn [Nat.leb andb]. destruct (Nat.leb_spec n (length l)); [|lia]. unfold sub. now rewrite Nat.sub_0_r. Qed.
Lemma long_rsl (l : list N) n : (length l < n)%nat -> rslice l 0 n = Panic.
Proof. intros H. unfold rslice. cbn [Nat.leb andb]. destruct (Nat.leb_spec n (length l)); [lia|reflexivity]. Qed.
(** the octets of a prefix of [len] bits in an address of [k] octets *)
Lemma bytes_cases oc len k : (k <= 31)%nat -> len < 256 ->
  (prefix_stops oc (8 * N.of_nat k) len /\ (bits_bytes oc len = Panic \/ exists n, bits_bytes oc len = Ok n /\ (k < n)%nat)) \/
  (~ prefix_stops oc (8 * N.of_nat k) len /\ exists n, bits_bytes oc len = Ok n /\ (n <= k)%nat).
Proof.
  intros Hk Hl. unfold bits_bytes, uadd, prefix_stops. change (2 ^ 8) with 256. destruct (N.ltb_spec (len + 7) 256) as [H|H]; cbn [bind].
  - destruct (N.lt_ge_cases (8 * N.of_nat k) len) as [H1|H1].
    + left. split; [split; [exact H1|lia]|]. right. eexists. split; [reflexivity|].
      assert (N.of_nat k + 1 <= (len + 7) / 8) by (apply N.div_le_lower_bound; lia). lia.
    + right. split; [lia|]. eexists. split; [reflexivity|]. assert ((len + 7) / 8 < N.of_nat k + 1) by (apply N.div_lt_upper_bound; lia). lia.
  - destruct oc; cbn [bind].
    + left. split; [split; [lia|discriminate]|]. now left.
    + right. split; [intros (_ & H1); specialize (H1 eq_refl); lia|]. eexists. split; [reflexivity|].
      replace (len + 7) with (len - 249 + 1 * 256) by lia. rewrite N.mod_add by lia. rewrite (N.mod_small (len - 249)) by lia.
      rewrite N.div_small by lia. lia.
Qed.
Lemma set_v4 oc x : v4_len x < 256 -> sets (v4_to_bits oc x) (v4_stops oc x) (v4_len x).
Proof.
  intros Hl. unfold v4_to_bits, v4_stops. destruct (N.eqb_spec (v4_len x) 0) as [E|E].
  { right. split; [unfold prefix_stops; lia|]. exists 0%nat. rewrite E. apply room_ret. }
  assert (L : length (octets4 (v4_addr x)) = 4%nat) by apply length_be_bytes.
  destruct (bytes_cases oc (v4_len x) 4 ltac:(lia) Hl) as [(H & [B|(n & B & Hn)])|(H & n & B & Hn)]; rewrite B.
  - left. split; [exact H|]. apply room_bind_panic. apply room_lift.
  - left. split; [exact H|]. eapply room_seq; [apply room_lift|]. apply room_bind_panic. rewrite long_rsl by lia. apply room_lift.
  - right. split; [exact H|]. exists n. eapply room_seq; [apply room_lift|]. rewrite length_rsl by lia. eapply room_seq; [apply room_lift|].
    eapply room_seq; [apply room_write|]. apply room_ret.
Qed.
Lemma set_v6 oc x : v6_len x < 256 -> sets (v6_to_bits oc x) (v6_stops oc x) (v6_len x).
Proof.
  intros Hl. unfold v6_to_bits, v6_stops. destruct (N.eqb_spec (v6_len x) 0) as [E|E].
  { right. split; [unfold prefix_stops; lia|]. exists 0%nat. rewrite E. apply room_ret. }
  assert (L : length (octets16 (v6_addr x)) = 16%nat) by apply length_be_bytes.
  destruct (bytes_cases oc (v6_len x) 16 ltac:(lia) Hl) as [(H & [B|(n & B & Hn)])|(H & n & B & Hn)]; rewrite B.
  - left. split; [exact H|]. apply room_bind_panic. apply room_lift.
  - left. split; [exact H|]. eapply room_seq; [apply room_lift|]. apply room_bind_panic. rewrite long_rsl by lia. apply room_lift.
  - right. split; [exact H|]. exists n. eapply room_seq; [apply room_lift|]. rewrite length_rsl by lia. eapply room_seq; [apply room_lift|].
    eapply room_seq; [apply room_write|]. apply room_ret.
Qed.
(** an addition in an octet *)
Lemma uadd8 oc a b : (255 < a + b /\ oc = true /\ uadd oc 8 a b = Panic) \/
  ((oc = true -> a + b <= 255) /\ uadd oc 8 a b = Ok (if oc then a + b else (a + b) mod 256)).
Proof.
  unfold uadd. change (2 ^ 8) with 256. destruct (N.ltb_spec (a + b) 256) as [H|H].
  - right. split; [lia|]. destruct oc; [reflexivity|]. now rewrite N.mod_small.
  - destruct oc; [left; repeat split; lia|right; split; [discriminate|reflexivity]].
Qed.
Definition sum8 (oc : bool) (a b : N) : N := if oc then a + b else (a + b) mod 256.
Lemma set_mdt4 oc x : v4_len (mdt4_addr x) < 256 -> sets (mdt4_set oc x) (v4_stops oc (mdt4_addr x)) (sum8 oc (v4_len (mdt4_addr x)) 32).
Proof.
  intros Hl. unfold mdt4_set, v4_stops. cbv zeta. set (p := mdt4_addr x) in *.
  assert (Hrest : forall k, (oc = true -> v4_len p + 32 <= 255) ->
    exists n, room (write_at k (octets4 (mdt4_group x)) ;;; b <~ elift (uadd oc 8 (v4_len p) 32) ;; eret (b, (k + 4)%nat)) (Ok (sum8 oc (v4_len p) 32, n))).
  { intros k Hk. exists (k + 4)%nat. eapply room_seq; [apply room_write|]. destruct (uadd8 oc (v4_len p) 32) as [(H1 & -> & _)|(_ & ->)]; [specialize (Hk eq_refl); lia|].
    eapply room_seq; [apply room_lift|]. apply room_ret. }
  destruct (N.ltb_spec 0 (v4_len p)) as [E|E].
  - assert (L : length (octets4 (v4_addr p)) = 4%nat) by apply length_be_bytes.
    destruct (bytes_cases oc (v4_len p) 4 ltac:(lia) Hl) as [(H & [B|(n & B & Hn)])|(H & n & B & Hn)]; rewrite B.
    + left. split; [exact H|]. do 2 apply room_bind_panic. apply room_lift.
    + left. split; [exact H|]. apply room_bind_panic. eapply room_seq; [apply room_lift|]. apply room_bind_panic. rewrite long_rsl by lia. apply room_lift.
    + right. split; [exact H|]. destruct (Hrest n) as (m & R).
      { intros ->. unfold prefix_stops in H. destruct (N.lt_ge_cases 32 (v4_len p)); [|lia]. exfalso. apply H. split; [assumption|discriminate]. }
      exists m. eapply room_seq; [|exact R]. eapply room_seq; [apply room_lift|]. rewrite length_rsl by lia. eapply room_seq; [apply room_lift|].
      eapply room_seq; [apply room_write|]. apply room_ret.
  - right. split; [unfold prefix_stops; lia|]. destruct (Hrest 0%nat) as (m & R); [lia|]. exists m. eapply room_seq; [apply room_ret|exact R].
Qed.
Lemma set_mdt6 oc x : v6_len (mdt6_addr x) < 256 ->
  sets (mdt6_set oc x) (v6_stops oc (mdt6_addr x) \/ oc = true /\ 127 < v6_len (mdt6_addr x)) (sum8 oc (v6_len (mdt6_addr x)) 128).
Proof.
  intros Hl. unfold mdt6_set, v6_stops. cbv zeta. set (p := mdt6_addr x) in *.
  assert (Hrest : forall k,
    (oc = true /\ 127 < v6_len p /\ room (write_at k (octets16 (mdt6_group x)) ;;; b <~ elift (uadd oc 8 (v6_len p) 128) ;; eret (b, (k + 16)%nat)) Panic) \/
    (~ (oc = true /\ 127 < v6_len p) /\
      exists n, room (write_at k (octets16 (mdt6_group x)) ;;; b <~ elift (uadd oc 8 (v6_len p) 128) ;; eret (b, (k + 16)%nat)) (Ok (sum8 oc (v6_len p) 128, n)))).
  { intros k. destruct (uadd8 oc (v6_len p) 128) as [(H1 & Ho & H2)|(H1 & H2)].
    - left. split; [exact Ho|]. split; [lia|]. eapply room_seq; [apply room_write|]. apply room_bind_panic. rewrite H2. apply room_lift.
    - right. split; [intros (Ho & H3); specialize (H1 Ho); lia|]. exists (k + 16)%nat. eapply room_seq; [apply room_write|]. rewrite H2.
      eapply room_seq; [apply room_lift|]. apply room_ret. }
  destruct (N.ltb_spec 0 (v6_len p)) as [E|E].
  - assert (L : length (octets16 (v6_addr p)) = 16%nat) by apply length_be_bytes.
    destruct (bytes_cases oc (v6_len p) 16 ltac:(lia) Hl) as [(H & [B|(n & B & Hn)])|(H & n & B & Hn)]; rewrite B.
    + left. split; [left; exact H|]. do 2 apply room_bind_panic. apply room_lift.
    + left. split; [left; exact H|]. apply room_bind_panic. eapply room_seq; [apply room_lift|]. apply room_bind_panic. rewrite long_rsl by lia. apply room_lift.
    + assert (G : room (bytes <~ elift (Ok n) ;; s <~ elift (rslice (octets16 (v6_addr p)) 0 bytes) ;; write_at 0 s ;;; eret bytes) (Ok n)).
      { eapply room_seq; [apply room_lift|]. rewrite length_rsl by lia. eapply room_seq; [apply room_lift|]. eapply room_seq; [apply room_write|]. apply room_ret. }
      destruct (Hrest n) as [(Ho & Hb & R)|(Hb & m & R)].
      * left. split; [right; now split|]. eapply room_seq; [exact G|exact R].
      * right. split; [intros [F|F]; [now apply H|now apply Hb]|]. exists m. eapply room_seq; [exact G|exact R].
  - right. destruct (Hrest 0%nat) as [(_ & Hb & _)|(Hb & m & R)]; [lia|]. split; [unfold prefix_stops; intros [F|F]; lia|]. exists m. eapply room_seq; [apply room_ret|exact R].
Qed.
Lemma set_rd {T} oc (st : setter T) x P b : sets (st oc (wrd_prefix x)) P b ->
  sets (withrd_set st oc x) (P \/ oc = true /\ 255 < 64 + b) (sum8 oc 64 b).
Proof.
  intros H. unfold withrd_set. destruct H as [(HP & H)|(HP & n & H)].
  - left. split; [now left|]. eapply room_seq; [apply room_rd|]. apply room_bind_panic. now apply room_from.
  - change (cast 8 (N.of_nat 8 * 8)) with 64. destruct (uadd8 oc 64 b) as [(H1 & Ho & H2)|(H1 & H2)].
    + left. split; [right; now split|]. eapply room_seq; [apply room_rd|]. eapply room_seq; [apply room_from; exact H|]. cbn beta iota.
      apply room_bind_panic. change (cast 8 (N.of_nat 8 * 8)) with 64. rewrite H2. apply room_lift.
    + right. split; [intros [F|(F1 & F2)]; [now apply HP|specialize (H1 F1); lia]|]. exists (8 + n)%nat. eapply room_seq; [apply room_rd|].
      eapply room_seq; [apply room_from; exact H|]. cbn beta iota. change (cast 8 (N.of_nat 8 * 8)) with 64. rewrite H2. eapply room_seq; [apply room_lift|]. apply room_ret.
Qed.
Lemma set_lab {T} oc (st : setter T) x P b : sets (st oc (lab_prefix x)) P b ->
  sets (labeled_set st oc x) (P \/ labels_stop oc (lab_labels x) b) (sum8 oc (label_bits (lab_labels x)) b).
Proof.
  intros H. unfold labeled_set, labels_stop. destruct H as [(HP & H)|(HP & n & H)].
  - left. split; [now left|]. eapply room_seq; [apply room_labels|]. cbn beta iota. apply room_bind_panic. now apply room_from.
  - destruct (uadd8 oc (label_bits (lab_labels x)) b) as [(H1 & Ho & H2)|(H1 & H2)].
    + left. split; [right; now split|]. eapply room_seq; [apply room_labels|]. cbn beta iota. eapply room_seq; [apply room_from; exact H|]. cbn beta iota.
      apply room_bind_panic. rewrite H2. apply room_lift.
    + right. split; [intros [F|(F1 & F2)]; [now apply HP|specialize (H1 F1); lia]|]. eexists. eapply room_seq; [apply room_labels|]. cbn beta iota.
      eapply room_seq; [apply room_from; exact H|]. cbn beta iota. rewrite H2. eapply room_seq; [apply room_lift|]. apply room_ret.
Qed.
Lemma sets_iff e P Q b : (P <-> Q) -> sets e P b -> sets e Q b.
Proof. unfold sets. intros H. tauto. Qed.
Lemma stops_small oc max len : max <= 255 -> ~ prefix_stops oc max len -> oc = true -> len <= max.
Proof. intros _ H Ho. destruct (N.lt_ge_cases max len); [|lia]. exfalso. apply H. split; [assumption|congruence]. Qed.
Lemma set_lu4 oc x : v4_len (lab_prefix x) < 256 -> exists b, sets (labeled_set v4_to_bits oc x) (lu4_stops oc x) b.
Proof. intros H. eexists. unfold lu4_stops. apply set_lab. now apply set_v4. Qed.
Lemma set_lu6 oc x : v6_len (lab_prefix x) < 256 -> exists b, sets (labeled_set v6_to_bits oc x) (lu6_stops oc x) b.
Proof. intros H. eexists. unfold lu6_stops. apply set_lab. now apply set_v6. Qed.
Lemma set_mdtr4 oc x : v4_len (mdt4_addr (wrd_prefix x)) < 256 -> exists b, sets (withrd_set mdt4_set oc x) (mdt4_stops oc x) b.
Proof.
  intros H. eexists. eapply sets_iff; [|apply set_rd, set_mdt4, H]. unfold mdt4_stops. split; [|now left]. intros [F|(Ho & F)]; [exact F|].
  unfold v4_stops, prefix_stops, sum8 in *. rewrite Ho in *. split; [lia|discriminate].
Qed.
Lemma set_mdtr6 oc x : v6_len (mdt6_addr (wrd_prefix x)) < 256 -> exists b, sets (withrd_set mdt6_set oc x) (mdt6_stops oc x) b.
Proof.
  intros H. eexists. eapply sets_iff; [|apply set_rd, set_mdt6, H]. unfold mdt6_stops. cbv zeta. split.
  - intros [[F|(Ho & F)]|(Ho & F)]; [now left|right; split; [exact Ho|lia]|right; split; [exact Ho|]]. unfold sum8 in F. rewrite Ho in F. lia.
  - intros [F|(Ho & F)]; [left; now left|]. right. split; [exact Ho|]. unfold sum8. rewrite Ho. lia.
Qed.
Lemma set_vpn4 oc x : v4_len (wrd_prefix (lab_prefix x)) < 256 -> exists b, sets (labeled_set (withrd_set v4_to_bits) oc x) (vpn4_stops oc x) b.
Proof.
  intros H. eexists. eapply sets_iff; [|apply set_lab, set_rd, set_v4, H]. unfold vpn4_stops, v4_stops, labels_stop, sum8, prefix_stops. cbv zeta. split.
  - intros [[F|(Ho & F)]|(Ho & F)]; [now left| |]; rewrite Ho in *; [left; split; [lia|discriminate]|right; now split].
  - intros [F|(Ho & F)]; [left; now left|]. right. split; [exact Ho|]. now rewrite Ho.
Qed.
Lemma set_vpn6 oc x : v6_len (wrd_prefix (lab_prefix x)) < 256 -> exists b, sets (labeled_set (withrd_set v6_to_bits) oc x) (vpn6_stops oc x) b.
Proof.
  intros H. eexists. eapply sets_iff; [|apply set_lab, set_rd, set_v6, H]. unfold vpn6_stops, v6_stops, labels_stop, sum8, prefix_stops. cbv zeta. split.
  - intros [[F|(Ho & F)]|(Ho & F)]; [now left| |]; rewrite Ho in *; [left; split; [lia|discriminate]|right; now split].
  - intros [F|(Ho & F)]; [left; now left|]. right. split; [exact Ho|]. now rewrite Ho.
Qed.

(** ** Lists of them *)
Lemma items_goes {T} oc (st : setter T) (P : T -> Prop) v : Forall (fun x => exists b, sets (st oc x) (P x) b) v ->
  forall p, (Exists P v /\ room (enc_items oc st v p) Panic) \/ (~ Exists P v /\ goes (enc_items oc st v p)).
Proof.
  induction 1 as [|x v (b & Hx) Hv IH]; intros p; cbn [enc_items].
  - right. split; [intros F; inversion F|]. exists p. apply room_ret.
  - destruct Hx as [(HP & Hx)|(HP & n & Hx)].
    + left. split; [now apply Exists_cons_hd|]. apply room_bind_panic. now apply room_from.
    + destruct (IH (p + (n + 1))%nat) as [(HE & R)|(HE & k & R)].
      * left. split; [now apply Exists_cons_tl|]. eapply room_seq; [apply room_from; exact Hx|]. cbn beta iota. eapply room_seq; [apply room_set|exact R].
      * right. split; [intros F; inversion F; tauto|]. exists k. eapply room_seq; [apply room_from; exact Hx|]. cbn beta iota. eapply room_seq; [apply room_set|exact R].
Qed.
Lemma pathid_goes {T} oc (st : setter T) (P : T -> Prop) v : Forall (fun x => exists b, sets (st oc (pid_nlri x)) (P (pid_nlri x)) b) v ->
  forall p, (Exists (fun x => P (pid_nlri x)) v /\ room (enc_pathid_items oc st v p) Panic) \/ (~ Exists (fun x => P (pid_nlri x)) v /\ goes (enc_pathid_items oc st v p)).
Proof.
  induction 1 as [|x v (b & Hx) Hv IH]; intros p; cbn [enc_pathid_items].
  - right. split; [intros F; inversion F|]. exists p. apply room_ret.
  - destruct Hx as [(HP & Hx)|(HP & n & Hx)].
    + left. split; [now apply Exists_cons_hd|]. eapply room_seq; [apply room_from, room_u32|]. apply room_bind_panic. now apply room_from.
    + destruct (IH (p + 4 + (n + 1))%nat) as [(HE & R)|(HE & k & R)].
      * left. split; [now apply Exists_cons_tl|]. eapply room_seq; [apply room_from, room_u32|]. eapply room_seq; [apply room_from; exact Hx|]. cbn beta iota. eapply room_seq; [apply room_set|exact R].
      * right. split; [intros F; inversion F; tauto|]. exists k. eapply room_seq; [apply room_from, room_u32|]. eapply room_seq; [apply room_from; exact Hx|]. cbn beta iota. eapply room_seq; [apply room_set|exact R].
Qed.
Lemma either_items {T} oc (st : setter T) (P : T -> Prop) v : Forall (fun x => exists b, sets (st oc x) (P x) b) v -> either (encode_bgpitems_to oc st v) (Exists P v).
Proof. intros H. destruct (items_goes oc st P v H 0%nat) as [G|(H1 & G)]; [left; exact G|right; split; [exact H1|now left]]. Qed.
Lemma either_pathid {T} oc (st : setter T) (P : T -> Prop) v : Forall (fun x => exists b, sets (st oc (pid_nlri x)) (P (pid_nlri x)) b) v ->
  either (encode_pathid_bgpitems_to oc st v) (Exists (fun x => P (pid_nlri x)) v).
Proof. intros H. destruct (pathid_goes oc st P v H 0%nat) as [G|(H1 & G)]; [left; exact G|right; split; [exact H1|now left]]. Qed.

(** ** VPLS and MVPN *)
Lemma l2a_goes x : goes (l2a_pack x).
Proof.
  unfold l2a_pack. eexists. apply room_guard. eapply room_seq; [apply room_rd|].
  do 3 (eapply room_seq; [apply room_slice; [lia|apply at_u16; lia]|]). eapply room_seq; [apply room_from, room_labels|]. cbn beta iota. apply room_ret.
Qed.
Lemma long_goes {T} (pk : T -> Enc nat) v : (forall x, goes (pk x)) -> forall p, goes (enc_long_items pk v p).
Proof.
  intros H. induction v as [|x v IH]; intros p; cbn [enc_long_items]; [exists p; apply room_ret|].
  destruct (H x) as (n & Hn). destruct (IH (p + n)%nat) as (m & Hm). exists m. eapply room_seq; [apply room_from; exact Hn|].
  eapply room_seq; [apply room_slice; [lia|apply at_u16; lia]|]. exact Hm.
Qed.
Lemma addritems_goes {T} (enc : T -> Enc nat) v : (forall x, goes (enc x)) -> forall p, goes (enc_addritems enc v p).
Proof.
  intros H. induction v as [|x v IH]; intros p; cbn [enc_addritems]; [exists p; apply room_ret|].
  destruct (H x) as (n & Hn). destruct (IH (p + n)%nat) as (m & Hm). exists m. eapply room_seq; [apply room_from; exact Hn|exact Hm].
Qed.
Lemma mvpn3_goes r : goes (mvpn3_encode r).
Proof. eexists. unfold mvpn3_encode. eapply room_seq; [apply room_rd|]. do 3 (eapply room_seq; [apply room_from, room_addr|]). apply room_ret. Qed.
Lemma mvpn_goes r : goes (mvpn_encode r).
Proof.
  unfold mvpn_encode. apply goes_bind; [|intros sz; eexists; eapply room_seq; [apply room_set|]; apply room_ret].
  destruct r as [r|r|r|r|r|r|r]; (apply goes_bind; [eexists; apply room_set|intros _]).
  - eexists. apply room_from. unfold mvpn1_encode. eapply room_seq; [apply room_rd|]. eapply room_seq; [apply room_from, room_addr|]. apply room_ret.
  - eexists. apply room_from. unfold mvpn2_encode. eapply room_seq; [apply room_rd|]. eapply room_seq; [apply room_from, room_u32|]. apply room_ret.
  - destruct (mvpn3_goes r) as (n & H). exists n. now apply room_from.
  - destruct (mvpn3_goes (mv4_spmsi r)) as (n & H). eexists. apply room_from. unfold mvpn4_encode. eapply room_seq; [exact H|]. eapply room_seq; [apply room_from, room_addr|]. apply room_ret.
  - eexists. apply room_from. unfold mvpn5_encode. eapply room_seq; [apply room_rd|]. do 2 (eapply room_seq; [apply room_from, room_addr|]). apply room_ret.
  - eexists. apply room_from. unfold mvpn67_encode. eapply room_seq; [apply room_rd|]. eapply room_seq; [apply room_from, room_u32|]. do 2 (eapply room_seq; [apply room_from, room_addr|]). apply room_ret.
  - eexists. apply room_from. unfold mvpn67_encode. eapply room_seq; [apply room_rd|]. eapply room_seq; [apply room_from, room_u32|]. do 2 (eapply room_seq; [apply room_from, room_addr|]). apply room_ret.
Qed.

(** ** EVPN *)
Lemma room_esi p t v : length v = 9%nat -> room (esi_write p t v) (Ok tt).
Proof. intros H. unfold esi_write. eapply room_seq; [apply room_set|]. rewrite H. apply room_write. Qed.
Lemma room_ip lim p a : room (ip_write lim p a) (Ok (p + 1 + addr_size a)%nat).
Proof.
  unfold ip_write. destruct a as [a|a]; cbn [addr_size].
  - eapply room_seq; [apply room_set|]. eapply room_seq; [destruct lim; [apply room_slice; [lia|apply at_addr4; lia]|apply room_from, room_addr4]|].
    replace (p + 1 + 4)%nat with (p + 5)%nat by lia. apply room_ret.
  - eapply room_seq; [apply room_set|]. eapply room_seq; [destruct lim; [apply room_slice; [lia|apply at_addr6; lia]|apply room_from, room_addr6]|].
    replace (p + 1 + 16)%nat with (p + 17)%nat by lia. apply room_ret.
Qed.
Lemma evpn_calm r : ev_typed r -> calm (evpn_encode r).
Proof.
  intros H. unfold evpn_encode. apply calm_bind.
  2:{ intros n. apply calm_bind; [destruct (Nat.leb n 255); [left; eexists; apply room_set|right; eexists; apply room_err]|]. intros _. left. eexists. apply room_ret. }
  destruct r as [r|r|r|r|r]; cbn [ev_typed] in H; (apply calm_bind; [left; eexists; apply room_set|intros _]).
  - left. eexists. apply room_from. unfold evpn1_encode. eapply room_seq; [apply room_rd|]. eapply room_seq; [now apply room_esi|].
    eapply room_seq; [apply room_slice; [lia|apply at_u32; lia]|]. eapply room_seq; [apply room_from, room_labels|]. cbn beta iota. apply room_ret.
  - destruct H as (H1 & H2). left. eexists. apply room_from. unfold evpn2_encode. eapply room_seq; [apply room_rd|]. eapply room_seq; [now apply room_esi|].
    eapply room_seq; [apply room_slice; [lia|apply at_u32; lia]|]. eapply room_seq; [apply room_set|].
    eapply room_seq; [apply room_slice; [lia|]|].
    { unfold mac_write_to_network_bytes. apply at_elen. replace (8 + 21 - (8 + 15))%nat with 6%nat by reflexivity. cbn [Nat.eqb]. apply at_write. rewrite rev_length. lia. }
    eapply room_seq with (x := (8 + 22 + match ev2_ip r with None => 0 | Some a => addr_size a end)%nat).
    { destruct (ev2_ip r) as [a|]; [|eapply room_seq; [apply room_set|]; replace (8 + 22 + 0)%nat with (8 + 22)%nat by lia; apply room_ret].
      replace (8 + 22 + addr_size a)%nat with (8 + 21 + 1 + addr_size a)%nat by lia. apply room_ip. }
    eapply room_seq; [apply room_from, room_labels|]. cbn beta iota. apply room_ret.
  - left. eexists. apply room_from. unfold evpn3_encode. eapply room_seq; [apply room_rd|]. eapply room_seq; [apply room_slice; [lia|apply at_u32; lia]|]. apply room_ip.
  - left. eexists. apply room_from. unfold evpn4_encode. eapply room_seq; [apply room_rd|]. eapply room_seq; [now apply room_esi|]. apply room_ip.
  - assert (R : forall k : nat, room ('(_, n) <~ on_from k (labels_set (ev5_labels r)) ;; eret (k + n)%nat) (Ok (k + 3 * length (ev5_labels r))%nat)).
    { intros k. eapply room_seq; [apply room_from, room_labels|]. cbn beta iota. apply room_ret. }
    unfold evpn5_encode. destruct (ev5_prefix r) as [a|a], (ev5_gw r) as [g|g].
    + left. eexists. apply room_from. eapply room_seq; [apply room_rd|]. eapply room_seq; [now apply room_esi|]. eapply room_seq; [apply room_slice; [lia|apply at_u32; lia]|].
      eapply room_seq; [apply room_set|]. eapply room_seq; [do 2 (eapply room_seq; [apply room_from, room_addr4|]); apply room_ret|]. apply R.
    + right. eexists. apply room_from. eapply room_seq; [apply room_rd|]. eapply room_seq; [now apply room_esi|]. eapply room_seq; [apply room_slice; [lia|apply at_u32; lia]|].
      eapply room_seq; [apply room_set|]. apply room_bind_err. apply room_err.
    + right. eexists. apply room_from. eapply room_seq; [apply room_rd|]. eapply room_seq; [now apply room_esi|]. eapply room_seq; [apply room_slice; [lia|apply at_u32; lia]|].
      eapply room_seq; [apply room_set|]. apply room_bind_err. apply room_err.
    + left. eexists. apply room_from. eapply room_seq; [apply room_rd|]. eapply room_seq; [now apply room_esi|]. eapply room_seq; [apply room_slice; [lia|apply at_u32; lia]|].
      eapply room_seq; [apply room_set|]. eapply room_seq; [do 2 (eapply room_seq; [apply room_from, room_addr6|]); apply room_ret|]. apply R.
Qed.
Lemma from_calm {A} p (e : Enc A) : calm e -> calm (on_from p e).
Proof. intros [(x & H)|(er & H)]; [left; exists x|right; exists er]; now apply room_from. Qed.
Lemma addritems_calm {T} (enc : T -> Enc nat) v : Forall (fun x => calm (enc x)) v -> forall p, calm (enc_addritems enc v p).
Proof.
  induction 1 as [|x v H _ IH]; intros p; cbn [enc_addritems]; [left; exists p; apply room_ret|].
  apply calm_bind; [now apply from_calm|]. intros n. apply IH.
Qed.

(** ** Flow specifications *)
Lemma oper_goes op v : goes (oper_write op v).
Proof.
  unfold oper_write. destruct (65535 <? v); [|destruct (255 <? v)].
  - eexists. eapply room_seq; [apply room_set|]. eapply room_seq; [apply room_from, room_u32|]. apply room_ret.
  - eexists. eapply room_seq; [apply room_set|]. eapply room_seq; [apply room_from, room_u16|]. apply room_ret.
  - eexists. eapply room_seq; [apply room_set|]. eapply room_seq; [apply room_set|]. apply room_ret.
Qed.
Lemma vec_goes {U} (o : fsoper U) : (forall x, goes (op_enc o x)) -> forall v, goes (vec_enc o v).
Proof.
  intros H v. assert (W : forall v p l, goes (vec_write o v p l)).
  { clear v. induction v as [|x v IH]; intros p l; cbn [vec_write]; [eexists; apply room_ret|]. destruct (H x) as (n & Hn). destruct (IH (p + n)%nat p) as (m & Hm).
    exists m. eapply room_seq; [apply room_from; exact Hn|exact Hm]. }
  unfold vec_enc. destruct v as [|x v]; [eexists; apply room_ret|]. destruct (W (x :: v) 0%nat 0%nat) as ([p l] & Hp). eexists. eapply room_seq; [exact Hp|]. cbn beta iota.
  eapply room_seq; [apply room_upd|]. apply room_ret.
Qed.
Lemma put_vec_goes {U} (o : fsoper U) c v p : (forall x, goes (op_enc o x)) -> goes (fs_put_vec o c v p).
Proof. intros H. destruct (vec_goes o H v) as (n & Hn). eexists. unfold fs_put_vec. eapply room_seq; [apply room_set|]. eapply room_seq; [apply room_from; exact Hn|]. apply room_ret. Qed.
Lemma fsval_goes x : goes (op_enc fsvalop x).
Proof. apply oper_goes. Qed.
Lemma fsmask_goes x : goes (op_enc fsmaskop x).
Proof. apply oper_goes. Qed.
Lemma fold_len {U} (f : U -> nat) v : forall a, fold_left (fun a c => (a + f c)%nat) v a = (a + list_sum (map f v))%nat.
Proof. induction v as [|x v IH]; intros a; cbn [fold_left map list_sum fold_right]; [lia|]. rewrite IH. unfold list_sum. lia. Qed.
Lemma nlen_refused {T} (it : fsitem T) r : (forall a, match r with FsDst x | FsSrc x => x = a -> (fs_size it a <= 100)%nat | _ => True end) ->
  (Nat.ltb 4094 (fs_nlen it r) = true /\ comp_refused r) \/ (Nat.ltb 4094 (fs_nlen it r) = false /\ ~ comp_refused r).
Proof.
  intros H. assert (G : forall k : nat, (Nat.ltb 4094 (2 + k) = true /\ (4092 < k)%nat) \/ (Nat.ltb 4094 (2 + k) = false /\ ~ (4092 < k)%nat)).
  { intros k. destruct (Nat.ltb_spec 4094 (2 + k)); [left|right]; split; try reflexivity; lia. }
  destruct r as [a|a|v|v|v|v|v|v|v|v|v|v|v]; cbn [fs_nlen comp_refused];
    try (specialize (H a eq_refl); right; split; [destruct (Nat.ltb_spec 4094 (1 + fs_size it a)); [lia|reflexivity]|tauto]);
    unfold vec_byteslen; rewrite fold_len; rewrite Nat.add_0_l; apply G.
Qed.
Definition item_either {T} (it : fsitem T) (P : T -> Prop) (x : T) : Prop :=
  (fs_size it x <= 100)%nat /\ ((P x /\ room (fs_enc it x) Panic) \/ (~ P x /\ room (fs_enc it x) (Ok tt))).
Definition comp_all {T} (Q : T -> Prop) (r : flowspec T) : Prop := match r with FsDst x | FsSrc x => Q x | _ => True end.
Lemma fs_cases {T} (it : fsitem T) P r : comp_all (item_either it P) r ->
  (comp_stops P r /\ ~ comp_refused r /\ room (fs_encode it r) Panic) \/
  (~ comp_stops P r /\ comp_refused r /\ exists er, room (fs_encode it r) (Err er)) \/
  (~ comp_stops P r /\ ~ comp_refused r /\ goes (fs_encode it r)).
Proof.
  intros H. unfold fs_encode. cbv zeta. destruct (nlen_refused it r) as [(-> & HR)|(-> & HR)].
  { destruct r; try (intros; exact I); intros ? <-; apply H. }
  { right. left. split; [destruct r; cbn in *; tauto|]. split; [exact HR|]. eexists. apply room_err. }
  set (n := fs_nlen it r).
  assert (G : exists p, room (if Nat.ltb n 240
     then len <~ elen ;; (if Nat.ltb len (n + 1) then eerr EInsufficient else set_idx 0 (cast 8 (N.of_nat n)) ;;; eret 1%nat)
     else len <~ elen ;; (if Nat.ltb len (n + 2) then eerr EInsufficient
           else setn_u16 (cast 16 (N.of_nat n)) ;;; upd_idx 0 (fun b => N.lor b 240) ;;; eret 2%nat)) (Ok p)).
  { destruct (Nat.ltb n 240).
    - eexists. apply room_guard. eapply room_seq; [apply room_set|]. apply room_ret.
    - eexists. apply room_guard. eapply room_seq; [apply room_u16|]. eapply room_seq; [apply room_upd|]. apply room_ret. }
  destruct G as (p & G). clearbody n.
  assert (PF : forall c a, item_either it P a -> (P a /\ room (fs_put_pfx it c a p) Panic) \/ (~ P a /\ goes (fs_put_pfx it c a p))).
  { intros c a (_ & [(HP & R)|(HP & R)]).
    - left. split; [exact HP|]. unfold fs_put_pfx. eapply room_seq; [apply room_set|]. apply room_bind_panic. now apply room_from.
    - right. split; [exact HP|]. eexists. unfold fs_put_pfx. eapply room_seq; [apply room_set|]. eapply room_seq; [apply room_from; exact R|]. apply room_ret. }
  assert (VC : forall c v, goes (fs_put_vec fsvalop c v p)) by (intros; apply put_vec_goes, fsval_goes).
  assert (MC : forall c v, goes (fs_put_vec fsmaskop c v p)) by (intros; apply put_vec_goes, fsmask_goes).
  destruct r as [a|a|v|v|v|v|v|v|v|v|v|v|v]; cbn [comp_stops comp_all] in *;
    try (right; right; split; [tauto|]; split; [exact HR|];
         match goal with |- context [fs_put_vec fsvalop ?c ?v _] => destruct (VC c v) as (k & R) | |- context [fs_put_vec fsmaskop ?c ?v _] => destruct (MC c v) as (k & R) end;
         exists k; eapply room_seq; [exact G|exact R]).
  - destruct (PF 1 a H) as [(HP & R)|(HP & k & R)]; [left|right; right]; (split; [exact HP|]); (split; [exact HR|]); [|exists k]; (eapply room_seq; [exact G|exact R]).
  - destruct (PF 2 a H) as [(HP & R)|(HP & k & R)]; [left|right; right]; (split; [exact HP|]); (split; [exact HR|]); [|exists k]; (eapply room_seq; [exact G|exact R]).
Qed.
Lemma rules_either {T} (it : fsitem T) P v : Forall (comp_all (item_either it P)) v ->
  forall p, either (enc_addritems (fs_encode it) v p) (rules_stop P v).
Proof.
  induction 1 as [|x v H _ IH]; intros p; cbn [enc_addritems].
  - right. split; [intros (v1 & y & v2 & E & _); destruct v1; discriminate|]. left. exists p. apply room_ret.
  - destruct (fs_cases it P x H) as [(H1 & H2 & R)|[(H1 & H2 & er & R)|(H1 & H2 & n & R)]].
    + left. split; [exists [], x, v; split; [reflexivity|split; [exact H1|constructor]]|]. apply room_bind_panic. now apply room_from.
    + right. split; [|right; exists er; apply room_bind_err; now apply room_from]. intros (v1 & y & v2 & E & Hy & Hv). destruct v1 as [|z v1]; injection E as -> ->; [tauto|].
      inversion Hv; subst. tauto.
    + destruct (IH (p + n)%nat) as [(HS & R2)|(HS & C)].
      * left. split; [|eapply room_seq; [apply room_from; exact R|exact R2]]. destruct HS as (v1 & y & v2 & -> & Hy & Hv). exists (x :: v1), y, v2.
        split; [reflexivity|]. split; [exact Hy|]. now constructor.
      * right. split; [|destruct C as [(k & C)|(er & C)]; [left; exists k|right; exists er]; (eapply room_seq; [apply room_from; exact R|exact C])].
        intros (v1 & y & v2 & E & Hy & Hv). destruct v1 as [|z v1]; injection E as -> ->; [tauto|]. inversion Hv; subst. apply HS. now exists v1, y, v2.
Qed.
Lemma bytes100 len : len < 256 -> (pfx_bytes len <= 40)%nat.
Proof. intros H. unfold pfx_bytes. assert ((len + 7) / 8 < 40) by (apply N.div_lt_upper_bound; lia). lia. Qed.
Lemma fs4_item oc x : v4_len x < 256 -> item_either (fs4 oc) (v4_stops oc) x.
Proof.
  intros H. split; [cbn; pose proof (bytes100 _ H); lia|]. cbn [fs4 fs_enc]. unfold fs4_enc. destruct (set_v4 oc x H) as [(HP & R)|(HP & n & R)]; [left|right]; (split; [exact HP|]).
  - eapply room_seq; [apply room_set|]. apply room_bind_panic. now apply room_from.
  - eapply room_seq; [apply room_set|]. eapply room_seq; [apply room_from; exact R|]. apply room_ret.
Qed.
Lemma fs6_item oc x : v6_len (fs6_ip x) < 256 -> item_either (fs6i oc) (fun x => v6_stops oc (fs6_ip x)) x.
Proof.
  intros H. split; [cbn; pose proof (bytes100 _ H); lia|]. cbn [fs6i fs_enc]. unfold fs6_enc. destruct (set_v6 oc _ H) as [(HP & R)|(HP & n & R)]; [left|right]; (split; [exact HP|]).
  - do 2 (eapply room_seq; [apply room_set|]). apply room_bind_panic. now apply room_from.
  - do 2 (eapply room_seq; [apply room_set|]). eapply room_seq; [apply room_from; exact R|]. apply room_ret.
Qed.
Lemma fsv4_item oc x : v4_len (wrd_prefix x) < 256 -> item_either (fsv4 oc) (fun x => v4_stops oc (wrd_prefix x)) x.
Proof.
  intros H. split; [cbn; pose proof (bytes100 _ H); lia|]. cbn [fsv4 fs_enc]. unfold fsv4_enc.
  assert (Hs : sets (withrd_set v4_to_bits oc x) (v4_stops oc (wrd_prefix x)) (sum8 oc 64 (v4_len (wrd_prefix x)))).
  { eapply sets_iff; [|apply set_rd, set_v4, H]. split; [|now left]. intros [F|(Ho & F)]; [exact F|]. unfold v4_stops, prefix_stops. rewrite Ho. split; [lia|discriminate]. }
  destruct Hs as [(HP & R)|(HP & n & R)]; [left|right]; (split; [exact HP|]).
  - do 2 (eapply room_seq; [apply room_set|]). apply room_bind_panic. now apply room_from.
  - do 2 (eapply room_seq; [apply room_set|]). eapply room_seq; [apply room_from; exact R|]. apply room_ret.
Qed.

(** ** All families *)
Lemma addrs_either oc a : addrs_typed a -> either (addrs_encode oc a) (addrs_stop oc a).
Proof.
  intros H.
  assert (N0 : forall (e : Enc nat), calm e -> either e False) by (intros e C; right; split; [tauto|exact C]).
  assert (FM : forall {A} (P Q : A -> Prop) l, (forall x, P x -> Q x) -> Forall P l -> Forall Q l) by (intros; eapply Forall_impl; eauto).
  assert (V4 : forall x, v4_len x < 256 -> exists b, sets (v4_to_bits oc x) (v4_stops oc x) b) by (intros x Hx; eexists; now apply set_v4).
  assert (V6 : forall x, v6_len x < 256 -> exists b, sets (v6_to_bits oc x) (v6_stops oc x) b) by (intros x Hx; eexists; now apply set_v6).
  assert (IT : forall T (st : setter T) (P : T -> Prop) (w : T -> N) v, (forall x, w x < 256 -> exists b, sets (st oc x) (P x) b) ->
     Forall (fun x => w x < 256) v -> either (encode_bgpitems_to oc st v) (Exists P v)).
  { intros T st P w v Hs Hv. apply either_items. revert Hv. apply FM. exact Hs. }
  assert (PT : forall T (st : setter T) (P : T -> Prop) (w : T -> N) v, (forall x, w x < 256 -> exists b, sets (st oc x) (P x) b) ->
     Forall (fun x => w (pid_nlri x) < 256) v -> either (encode_pathid_bgpitems_to oc st v) (Exists (fun x => P (pid_nlri x)) v)).
  { intros T st P w v Hs Hv. apply either_pathid. revert Hv. apply FM. intros x. apply Hs. }
  pose proof (set_lu4 oc) as L4. pose proof (set_lu6 oc) as L6. pose proof (set_mdtr4 oc) as M4. pose proof (set_mdtr6 oc) as M6. pose proof (set_vpn4 oc) as W4. pose proof (set_vpn6 oc) as W6.
  destruct a as [|v|v|v|v|v|v|v|v|v|v|v|v|v|v|v|v|v|v|v|v|v|v|v|v|v|v|v|v|v|v]; cbn [addrs_typed addrs_stop addrs_encode] in *.
  - apply N0. left. eexists. apply room_ret.
  - exact (IT _ _ (v4_stops oc) v4_len v V4 H).
  - exact (PT _ _ (v4_stops oc) v4_len v V4 H).
  - exact (IT _ _ (v4_stops oc) v4_len v V4 H).
  - exact (PT _ _ (v4_stops oc) v4_len v V4 H).
  - exact (IT _ _ (lu4_stops oc) (fun x => v4_len (lab_prefix x)) v L4 H).
  - exact (PT _ _ (lu4_stops oc) (fun x => v4_len (lab_prefix x)) v L4 H).
  - exact (IT _ _ (mdt4_stops oc) (fun x => v4_len (mdt4_addr (wrd_prefix x))) v M4 H).
  - exact (PT _ _ (mdt4_stops oc) (fun x => v4_len (mdt4_addr (wrd_prefix x))) v M4 H).
  - exact (IT _ _ (vpn4_stops oc) (fun x => v4_len (wrd_prefix (lab_prefix x))) v W4 H).
  - exact (PT _ _ (vpn4_stops oc) (fun x => v4_len (wrd_prefix (lab_prefix x))) v W4 H).
  - exact (IT _ _ (vpn4_stops oc) (fun x => v4_len (wrd_prefix (lab_prefix x))) v W4 H).
  - exact (PT _ _ (vpn4_stops oc) (fun x => v4_len (wrd_prefix (lab_prefix x))) v W4 H).
  - exact (IT _ _ (v6_stops oc) v6_len v V6 H).
  - exact (PT _ _ (v6_stops oc) v6_len v V6 H).
  - exact (IT _ _ (v6_stops oc) v6_len v V6 H).
  - exact (PT _ _ (v6_stops oc) v6_len v V6 H).
  - exact (IT _ _ (lu6_stops oc) (fun x => v6_len (lab_prefix x)) v L6 H).
  - exact (PT _ _ (lu6_stops oc) (fun x => v6_len (lab_prefix x)) v L6 H).
  - exact (IT _ _ (mdt6_stops oc) (fun x => v6_len (mdt6_addr (wrd_prefix x))) v M6 H).
  - exact (PT _ _ (mdt6_stops oc) (fun x => v6_len (mdt6_addr (wrd_prefix x))) v M6 H).
  - exact (IT _ _ (vpn6_stops oc) (fun x => v6_len (wrd_prefix (lab_prefix x))) v W6 H).
  - exact (PT _ _ (vpn6_stops oc) (fun x => v6_len (wrd_prefix (lab_prefix x))) v W6 H).
  - exact (IT _ _ (vpn6_stops oc) (fun x => v6_len (wrd_prefix (lab_prefix x))) v W6 H).
  - exact (PT _ _ (vpn6_stops oc) (fun x => v6_len (wrd_prefix (lab_prefix x))) v W6 H).
  - apply N0. apply goes_calm. apply long_goes. apply l2a_goes.
  - apply N0. apply goes_calm. apply addritems_goes. apply mvpn_goes.
  - apply N0. apply addritems_calm. revert H. apply FM. apply evpn_calm.
  - apply rules_either. revert H. apply FM. intros x Hx. destruct x; cbn [comp_typed comp_all] in *; try exact I; now apply fs4_item.
  - apply rules_either. revert H. apply FM. intros x Hx. destruct x; cbn [comp_typed comp_all] in *; try exact I; now apply fs6_item.
  - apply rules_either. revert H. apply FM. intros x Hx. destruct x; cbn [comp_typed comp_all] in *; try exact I; now apply fsv4_item.
Qed.
