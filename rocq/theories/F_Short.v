(** Buffers that are too short: proofs of C110. *)
From Verif Require Import Base BaseFacts M_Util S_Wire F_Util M_Prefix M_Nlri M_Vpls M_Mvpn M_Evpn M_Flowspec M_Addrs M_Attr S_Attr F_Attr M_Update M_Cap M_Open M_Session M_Peer
  S_Stop F_Stop F_Stop2 F_Stop3 S_Room F_Room F_Room6 S_Short.
Ltac Zify.zify_post_hook ::= idtac.

(** ** Encoders that have no error *)
Definition noerr_res {A} (r : res A) : Prop := match r with Ok _ | Panic => True | _ => False end.
Definition noerr {A} (e : Enc A) : Prop := forall buf, noerr_res (e buf).
Lemma ne_ret {A} (x : A) : noerr (eret x). Proof. intros buf. exact I. Qed.
Lemma ne_bind {A B} (m : Enc A) (f : A -> Enc B) : noerr m -> (forall x, noerr (f x)) -> noerr (ebind m f).
Proof. intros H1 H2 buf. specialize (H1 buf). unfold ebind. destruct (m buf) as [[x b]| | |]; try exact H1. apply H2. Qed.
Lemma ne_lift {A} (r : res A) : noerr_res r -> noerr (elift r).
Proof. intros H buf. unfold elift. destruct r; exact H. Qed.
Lemma ne_set i v : noerr (set_idx i v). Proof. intros buf. unfold set_idx. now destruct (Nat.ltb _ _). Qed.
Lemma ne_upd i f : noerr (upd_idx i f). Proof. intros buf. unfold upd_idx. now destruct (nth_error _ _). Qed.
Lemma ne_write i v : noerr (write_at i v). Proof. intros buf. unfold write_at. now destruct (Nat.leb _ _). Qed.
Lemma ne_from {A} a (e : Enc A) : noerr e -> noerr (on_from a e).
Proof. intros H buf. unfold on_from. destruct (Nat.leb _ _); [|exact I]. specialize (H (skipn a buf)). destruct (e _) as [[]| | |]; exact H. Qed.
Lemma ne_slice {A} a b (e : Enc A) : noerr e -> noerr (on_slice a b e).
Proof. intros H buf. unfold on_slice. destruct (Nat.leb _ _ && _)%bool; [|exact I]. specialize (H (sub buf a b)). destruct (e _) as [[]| | |]; exact H. Qed.
Lemma ne_u16 v : noerr (setn_u16 v). Proof. apply ne_bind; [apply ne_set|intros _; apply ne_set]. Qed.
Lemma ne_u32 v : noerr (setn_u32 v). Proof. repeat (apply ne_bind; [apply ne_set|intros _]). apply ne_set. Qed.
Lemma ne_bytes oc l : noerr_res (bits_bytes oc l).
Proof. unfold bits_bytes, uadd, bind. destruct (_ <? _); [exact I|]. now destruct oc. Qed.
Lemma ne_rslice (l : list N) a b : noerr_res (rslice l a b).
Proof. unfold rslice. now destruct (Nat.leb _ _ && _)%bool. Qed.
Lemma ne_uadd oc w a b : noerr_res (uadd oc w a b).
Proof. unfold uadd. destruct (_ <? _); [exact I|]. now destruct oc. Qed.
Lemma ne_rd r : noerr (encode_rd_to r).
Proof. apply ne_bind; [apply ne_u32|intros _]. apply ne_bind; [apply ne_slice, ne_u32|intros _; apply ne_ret]. Qed.
Definition ne_setter {T} (st : setter T) : Prop := forall oc x, noerr (st oc x).
Lemma ne_v4 : ne_setter v4_to_bits.
Proof.
  intros oc x. unfold v4_to_bits. destruct (v4_len x =? 0); [apply ne_ret|]. apply ne_bind; [apply ne_lift, ne_bytes|intros n]. apply ne_bind; [apply ne_lift, ne_rslice|intros s].
  apply ne_bind; [apply ne_write|intros _; apply ne_ret].
Qed.
Lemma ne_v6 : ne_setter v6_to_bits.
Proof.
  intros oc x. unfold v6_to_bits. destruct (v6_len x =? 0); [apply ne_ret|]. apply ne_bind; [apply ne_lift, ne_bytes|intros n]. apply ne_bind; [apply ne_lift, ne_rslice|intros s].
  apply ne_bind; [apply ne_write|intros _; apply ne_ret].
Qed.
Lemma ne_mdt4 : ne_setter mdt4_set.
Proof.
  intros oc x. unfold mdt4_set. cbv zeta. apply ne_bind.
  - destruct (_ <? _); [|apply ne_ret]. apply ne_bind; [apply ne_lift, ne_bytes|intros n]. apply ne_bind; [apply ne_lift, ne_rslice|intros s]. apply ne_bind; [apply ne_write|intros _; apply ne_ret].
  - intros n. apply ne_bind; [apply ne_write|intros _]. apply ne_bind; [apply ne_lift, ne_uadd|intros b; apply ne_ret].
Qed.
Lemma ne_mdt6 : ne_setter mdt6_set.
Proof.
  intros oc x. unfold mdt6_set. cbv zeta. apply ne_bind.
  - destruct (_ <? _); [|apply ne_ret]. apply ne_bind; [apply ne_lift, ne_bytes|intros n]. apply ne_bind; [apply ne_lift, ne_rslice|intros s]. apply ne_bind; [apply ne_write|intros _; apply ne_ret].
  - intros n. apply ne_bind; [apply ne_write|intros _]. apply ne_bind; [apply ne_lift, ne_uadd|intros b; apply ne_ret].
Qed.
Lemma ne_labels_write v : forall p, noerr (labels_write v p).
Proof.
  induction v as [|l v IH]; intros p; cbn [labels_write]; [apply ne_ret|]. repeat (apply ne_bind; [first [apply ne_set|apply ne_slice, ne_u16|apply ne_write|apply ne_upd]|intros _]). apply IH.
Qed.
Lemma ne_labels v : noerr (labels_set v).
Proof.
  unfold labels_set. destruct v; [apply ne_ret|]. apply ne_bind; [apply ne_labels_write|intros c]. apply ne_bind; [apply ne_upd|intros _; apply ne_ret].
Qed.
Lemma ne_labeled {T} (st : setter T) : ne_setter st -> ne_setter (labeled_set st).
Proof.
  intros H oc x. unfold labeled_set. apply ne_bind; [apply ne_labels|intros [lb ln]]. apply ne_bind; [apply ne_from, H|intros [pb pn]]. apply ne_bind; [apply ne_lift, ne_uadd|intros b; apply ne_ret].
Qed.
Lemma ne_withrd {T} (st : setter T) : ne_setter st -> ne_setter (withrd_set st).
Proof.
  intros H oc x. unfold withrd_set. apply ne_bind; [apply ne_rd|intros rn]. apply ne_bind; [apply ne_from, H|intros [pb pn]]. apply ne_bind; [apply ne_lift, ne_uadd|intros b; apply ne_ret].
Qed.
Lemma ne_items {T} oc (st : setter T) : ne_setter st -> forall v p, noerr (enc_items oc st v p).
Proof.
  intros H. induction v as [|x v IH]; intros p; cbn [enc_items]; [apply ne_ret|]. apply ne_bind; [apply ne_from, H|intros [b n]]. apply ne_bind; [apply ne_set|intros _; apply IH].
Qed.
Lemma ne_pids {T} oc (st : setter T) : ne_setter st -> forall v p, noerr (enc_pathid_items oc st v p).
Proof.
  intros H. induction v as [|x v IH]; intros p; cbn [enc_pathid_items]; [apply ne_ret|]. apply ne_bind; [apply ne_from, ne_u32|intros _].
  apply ne_bind; [apply ne_from, H|intros [b n]]. apply ne_bind; [apply ne_set|intros _; apply IH].
Qed.
Lemma routes_noerr oc a : prefix_routes a -> noerr (addrs_encode oc a).
Proof.
  intros H. destruct a; try destruct H; cbn [addrs_encode];
    first [apply ne_items|apply ne_pids]; repeat first [apply ne_v4|apply ne_v6|apply ne_mdt4|apply ne_mdt6|apply ne_labeled|apply ne_withrd].
Qed.
Lemma routes_tidy a : prefix_routes a -> addrs_tidy a.
Proof. destruct a; cbn; tauto. Qed.
Lemma short_panics (e : Enc nat) : noerr e -> settled e -> forall buf n b, e buf = Ok (n, b) -> forall buf2, (length buf2 < n)%nat -> e buf2 = Panic.
Proof.
  intros H S buf n b E buf2 L. destruct (S buf n b E) as (bs & _ & F). specialize (proj2 (F buf2) L). specialize (H buf2).
  destruct (e buf2); cbn; intros; try discriminate; try destruct H. reflexivity.
Qed.
Lemma routes_short oc a buf n b : prefix_routes a -> addrs_encode oc a buf = Ok (n, b) -> forall buf2, (length buf2 < n)%nat -> addrs_encode oc a buf2 = Panic.
Proof. intros H. apply short_panics; [now apply routes_noerr|]. apply C104_addrs_l. now apply routes_tidy. Qed.

(** ** Attributes *)
Lemma header_short oc p a buf : (length buf < header_len a)%nat -> attr_encode oc p a buf = Panic.
Proof.
  intros H. unfold attr_encode. unfold header_len, len_octets, attr_flags in H. rewrite <- ext_bit in H. destruct (attr_params a) as [tc f]. cbn [snd] in H.
  unfold ebind at 1. unfold set_idx at 1. destruct (Nat.ltb_spec 0 (length buf)) as [L0|L0]; [|reflexivity].
  unfold ebind at 1. unfold set_idx at 1. rewrite length_splice by (cbn; lia). destruct (Nat.ltb_spec 1 (length buf)) as [L1|L1]; [|reflexivity].
  unfold ebind at 1. unfold on_from. rewrite (length_splice 1) by (rewrite (length_splice 0) by (cbn; lia); cbn; lia). rewrite (length_splice 0) by (cbn; lia).
  match goal with |- context [Nat.leb ?x _] => replace (Nat.leb x (length buf)) with false; [reflexivity|] end.
  symmetry. apply Nat.leb_gt. destruct (0 <? N.land f 16); lia.
Qed.
(** a result within the buffer, or an error *)
Definition tame (e : Enc nat) : Prop := forall n, (exists x, (x <= n)%nat /\ at_len n e (Ok x)) \/ exists er, at_len n e (Err er).
Lemma tame_calm e n : tame e -> calm_at n e.
Proof. intros H. destruct (H n) as [(x & _ & G)|G]; [left; eauto|now right]. Qed.
Lemma tame_guard k er (e : Enc nat) : (forall n, (k <= n)%nat -> at_len n e (Ok k)) -> tame (len <~ elen ;; if Nat.ltb len k then eerr er else e).
Proof.
  intros H n. destruct (Nat.ltb_spec n k) as [L|L].
  - right. exists er. apply at_elen. apply Nat.ltb_lt in L. rewrite L. apply at_err.
  - left. exists k. split; [exact L|]. apply at_elen. apply Nat.ltb_ge in L. rewrite L. apply H. now apply Nat.ltb_ge.
Qed.
Lemma tame_guard' k er (e : Enc nat) : (forall n, (k <= n)%nat -> at_len n e (Ok k)) -> tame (len <~ elen ;; if Nat.leb k len then e else eerr er).
Proof.
  intros H n. destruct (Nat.leb_spec k n) as [L|L].
  - left. exists k. split; [exact L|]. apply at_elen. apply Nat.leb_le in L. rewrite L. apply H. now apply Nat.leb_le.
  - right. exists er. apply at_elen. apply Nat.leb_gt in L. rewrite L. apply at_err.
Qed.
Lemma tame_addr4 a : tame (encode_addrv4_to a).
Proof. apply tame_guard. intros n H. eapply at_seq; [apply at_write; exact H|apply at_ret]. Qed.
Lemma tame_addr6 a : tame (encode_addrv6_to a).
Proof. apply tame_guard. intros n H. eapply at_seq; [apply at_write|apply at_ret]. unfold octets16. rewrite length_be_bytes. exact H. Qed.
Lemma tame_addr a : tame (encode_addr_to a).
Proof. destruct a; [apply tame_addr4|apply tame_addr6]. Qed.
Lemma tame_items {T} (enc : T -> Enc nat) : (forall x, tame (enc x)) -> forall v p n, (p <= n)%nat ->
  (exists x, (x <= n)%nat /\ at_len n (enc_addritems enc v p) (Ok x)) \/ exists er, at_len n (enc_addritems enc v p) (Err er).
Proof.
  intros H. induction v as [|x v IH]; intros p n L; cbn [enc_addritems]; [left; exists p; split; [exact L|apply at_ret]|].
  destruct (H x (n - p)%nat) as [(k & Lk & A)|(er & A)].
  - destruct (IH (p + k)%nat n ltac:(lia)) as [(y & Ly & B)|(er & B)]; [left; exists y; split; [exact Ly|]|right; exists er];
      (eapply at_seq; [apply at_from; [exact L|exact A]|exact B]).
  - right. exists er. apply (at_bind n _ _ (Err er) (fun _ => Err er)); [now apply at_from|discriminate].
Qed.
Lemma tame_list {T} (enc : T -> Enc nat) v : (forall x, tame (enc x)) -> tame (encode_bgpaddritems_to enc v).
Proof. intros H n. apply tame_items; [exact H|lia]. Qed.
Lemma tame_comm v : tame (comm_encode v).
Proof. apply tame_guard. intros n H. eapply at_seq; [now apply at_u32|apply at_ret]. Qed.
Lemma tame_ecomm x : tame (ecomm_encode x).
Proof.
  apply tame_guard. intros n H. eapply at_seq; [apply at_set; lia|]. eapply at_seq; [apply at_set; lia|].
  eapply at_seq; [apply at_slice; [lia|]; apply at_u16; lia|]. eapply at_seq; [apply at_slice; [lia|]; apply at_u32; lia|]. apply at_ret.
Qed.
Lemma tame_lcomm x : tame (lcomm_encode x).
Proof.
  apply tame_guard. intros n H. eapply at_seq; [apply at_u32; lia|].
  eapply at_seq; [apply at_slice; [lia|]; apply at_u32; lia|]. eapply at_seq; [apply at_slice; [lia|]; apply at_u32; lia|]. apply at_ret.
Qed.
Lemma at_as_write (b : bool) v : forall p n, (p + length v * (if b then 4 else 2) <= n)%nat -> at_len n (as_write b v p) (Ok (p + length v * (if b then 4 else 2))%nat).
Proof.
  induction v as [|x v IH]; intros p n H; cbn [as_write length]; [rewrite Nat.mul_0_l, Nat.add_0_r; apply at_ret|]. cbn [length] in H. destruct b.
  - eapply at_seq; [apply at_slice; [lia|]; apply at_u32; lia|]. replace (p + S (length v) * 4)%nat with (p + 4 + length v * 4)%nat by lia. apply IH. lia.
  - eapply at_seq; [apply at_slice; [lia|]; apply at_u16; lia|]. replace (p + S (length v) * 2)%nat with (p + 2 + length v * 2)%nat by lia. apply IH. lia.
Qed.
Lemma careful_put oc p a n : careful a -> calm_at n (attr_put oc p a).
Proof.
  intros H. destruct a; try destruct H; cbn [attr_put].
  - unfold origin_encode. destruct n as [|n]; [right; eexists; apply at_elen; apply at_err|]. left. eexists. apply at_elen. cbn [Nat.eqb].
    eapply at_seq; [apply at_set; lia|apply at_ret].
  - unfold aspath_encode. destruct v as [|x v]; [apply calm_at_ret|]. remember (x :: v) as w eqn:Hw. apply tame_calm. apply tame_guard. intros k L.
    eapply at_seq; [apply at_set; lia|]. eapply at_seq; [apply at_set; lia|]. apply at_as_write. exact L.
  - unfold nexthop_encode. destruct a as [a|a], (sp_mode p).
    + apply tame_calm. apply tame_guard'. intros k L. now apply at_addr4.
    + right. eexists. apply at_elen. apply at_err.
    + right. eexists. apply at_elen. apply at_err.
    + apply tame_calm. apply tame_guard'. intros k L. now apply at_addr6.
  - apply tame_calm. apply tame_guard'. intros k L. eapply at_seq; [now apply at_u32|apply at_ret].
  - apply tame_calm. apply tame_guard'. intros k L. eapply at_seq; [now apply at_u32|apply at_ret].
  - apply tame_calm, tame_addr.
  - apply calm_at_ret.
  - unfold community_encode. destruct (Nat.ltb n (length v * 4)) eqn:E; [right; eexists; apply at_elen; rewrite E; apply at_err|].
    destruct (tame_calm _ n (tame_list comm_encode v tame_comm)) as [(x & A)|(er & A)]; [left; exists x|right; exists er]; apply at_elen; rewrite E; exact A.
  - unfold originator_encode. destruct (sp_mode p), a as [a|a]; try (right; eexists; apply at_err); apply tame_calm; [apply tame_addr4|apply tame_addr6].
  - apply tame_calm, tame_list. apply tame_addr.
  - apply tame_calm, tame_list. apply tame_ecomm.
  - apply tame_calm, tame_list. apply tame_lcomm.
  - apply tame_calm. apply tame_guard'. intros k L. eapply at_seq; [apply at_u16; lia|]. eapply at_seq; [apply at_slice; [lia|]; apply at_u32; lia|].
    eapply at_seq; [apply at_slice; [lia|]; apply at_addr4; lia|]. eapply at_seq; [apply at_slice; [lia|]; apply at_addr4; lia|]. apply at_ret.
Qed.
Lemma calm_at_from {A} n k (e : Enc A) : (k <= n)%nat -> calm_at (n - k) e -> calm_at n (on_from k e).
Proof. intros L [(x & H)|(er & H)]; [left; exists x|right; exists er]; now apply at_from. Qed.
Lemma calm_no_panic {A} n (e : Enc A) buf : calm_at n e -> length buf = n -> e buf <> Panic.
Proof. intros [(x & H)|(er & H)] L; specialize (H buf L); cbn [shape] in H; [destruct H as (b & _ & ->)|rewrite H]; discriminate. Qed.
Lemma calm_attr oc p a n : (header_len a <= n)%nat -> calm_at (n - header_len a) (attr_put oc p a) -> calm_at n (attr_encode oc p a).
Proof.
  intros L H. unfold attr_encode. unfold header_len, len_octets, attr_flags in *. rewrite <- ext_bit in *. destruct (attr_params a) as [tc f]. cbn [snd] in *.
  apply calm_at_bind; [apply calm_at_set; lia|intros _]. apply calm_at_bind; [apply calm_at_set; lia|intros _]. cbv zeta. destruct (0 <? N.land f 16).
  - apply calm_at_bind; [apply calm_at_from; assumption|intros k]. apply calm_at_bind; [|intros _; apply calm_at_ret].
    destruct (65535 <? _); [right; eexists; apply at_err|]. apply calm_at_u16. lia.
  - apply calm_at_bind; [apply calm_at_from; assumption|intros k]. apply calm_at_bind; [|intros _; apply calm_at_ret].
    destruct (255 <? _); [right; eexists; apply at_err|]. apply calm_at_set. lia.
Qed.
Lemma careful_exact oc p a buf : careful a -> (attr_encode oc p a buf = Panic <-> (length buf < header_len a)%nat).
Proof.
  intros H. split; [|apply header_short]. intros E. destruct (Nat.lt_ge_cases (length buf) (header_len a)) as [L|L]; [exact L|].
  elim (calm_no_panic _ _ buf (calm_attr oc p a (length buf) L (careful_put oc p a _ H)) eq_refl E).
Qed.
Lemma careful_errs oc p a buf n b : careful a -> attr_tidy a -> attr_encode oc p a buf = Ok (n, b) ->
  forall buf2, (header_len a <= length buf2 < n)%nat -> exists er, attr_encode oc p a buf2 = Err er.
Proof.
  intros H T E buf2 [L1 L2]. destruct (C104_attr_l oc p a T buf n b E) as (bs & _ & F). specialize (proj2 (F buf2) L2).
  destruct (calm_attr oc p a (length buf2) L1 (careful_put oc p a _ H)) as [(x & G)|(er & G)]; specialize (G buf2 eq_refl); cbn [shape] in G.
  - destruct G as (b' & _ & G). rewrite G. discriminate.
  - intros _. eauto.
Qed.
Lemma at_pseq {A B} n (m : Enc A) (f : A -> Enc B) : at_len n m Panic -> at_len n (ebind m f) Panic.
Proof. intros H. apply (at_bind n m f Panic (fun _ => Panic) H). discriminate. Qed.
Lemma at_set_short n i v : (n <= i)%nat -> at_len n (set_idx i v) Panic.
Proof. intros H buf Hb. unfold set_idx. destruct (Nat.ltb_spec i (length buf)) as [L|L]; [lia|reflexivity]. Qed.
Lemma at_write_short n a bs : (n < a + length bs)%nat -> at_len n (write_at a bs) Panic.
Proof. intros H buf Hb. unfold write_at. destruct (Nat.leb_spec (a + length bs) (length buf)) as [L|L]; [lia|reflexivity]. Qed.
Lemma at_from_short {A} n a (e : Enc A) : (n < a)%nat -> at_len n (on_from a e) Panic.
Proof. intros H buf Hb. unfold on_from. destruct (Nat.leb_spec a (length buf)) as [L|L]; [lia|reflexivity]. Qed.
Lemma at_slice_short {A} n a b (e : Enc A) : (n < b)%nat -> at_len n (on_slice a b e) Panic.
Proof. intros H buf Hb. unfold on_slice. destruct (Nat.leb_spec b (length buf)) as [L|L]; [lia|]. now rewrite Bool.andb_false_r. Qed.
Lemma attr_at_panic oc p a n : (header_len a <= n)%nat -> at_len (n - header_len a) (attr_put oc p a) Panic -> at_len n (attr_encode oc p a) Panic.
Proof.
  intros L H. unfold attr_encode. unfold header_len, len_octets, attr_flags in *. rewrite <- ext_bit in *. destruct (attr_params a) as [tc f]. cbn [snd] in *.
  eapply at_seq; [apply at_set; lia|]. eapply at_seq; [apply at_set; lia|]. cbv zeta.
  replace (if (0 <? N.land f 16)%N then 4%nat else 3%nat) with (2 + (if (0 <? N.land f 16)%N then 2 else 1))%nat by (now destruct (0 <? N.land f 16)%N).
  apply at_pseq. now apply at_from.
Qed.
Lemma attr_short oc p a k : (forall n, (n < k)%nat -> at_len n (attr_put oc p a) Panic) -> forall buf, (length buf < header_len a + k)%nat -> attr_encode oc p a buf = Panic.
Proof.
  intros H buf L. destruct (Nat.lt_ge_cases (length buf) (header_len a)) as [L1|L1]; [now apply header_short|].
  refine (attr_at_panic oc p a (length buf) L1 _ buf eq_refl). apply H. lia.
Qed.
Lemma unknown_short oc p tc f v buf : (length buf < header_len (AUnknown tc f v) + length v)%nat -> attr_encode oc p (AUnknown tc f v) buf = Panic.
Proof. apply attr_short. intros n L. cbn [attr_put]. apply at_pseq. now apply at_write_short. Qed.
Lemma at_routes oc a k : (forall buf, (length buf < k)%nat -> addrs_encode oc a buf = Panic) -> forall n, (n < k)%nat -> at_len n (addrs_encode oc a) Panic.
Proof. intros H n L buf <-. now apply H. Qed.
(** what an attribute's result says of its parts *)
Lemma attr_Ok oc p a buf n b : attr_encode oc p a buf = Ok (n, b) -> exists buf' k b', attr_put oc p a buf' = Ok (k, b') /\ n = (header_len a + k)%nat.
Proof.
  unfold attr_encode, header_len, len_octets, attr_flags. rewrite <- ext_bit. destruct (attr_params a) as [tc f]. cbn [snd]. intros E.
  apply ebind_Ok_inv in E as (? & b1 & _ & E). apply ebind_Ok_inv in E as (? & b2 & _ & E). cbv zeta in E. apply ebind_Ok_inv in E as (k & b3 & E1 & E).
  apply ebind_Ok_inv in E as (? & b4 & _ & E). injection E as <- _. unfold on_from in E1. destruct (Nat.leb _ _); [|discriminate].
  destruct (attr_put oc p a _) as [[k' b']| | |] eqn:E2; try discriminate. injection E1 as -> _. eexists _, k, b'. split; [exact E2|]. now destruct (0 <? N.land f 16)%N.
Qed.
Lemma on_from_Ok {A} i (e : Enc A) buf x b : on_from i e buf = Ok (x, b) -> exists buf' b', e buf' = Ok (x, b').
Proof. unfold on_from. destruct (Nat.leb _ _); [|discriminate]. destruct (e (skipn i buf)) as [[y b']| | |] eqn:E; try discriminate. intros F. injection F as -> _. eauto. Qed.
Lemma withdraws_short oc p a buf n b : prefix_routes a -> attr_encode oc p (AMPWithdraws a) buf = Ok (n, b) ->
  forall buf2, (length buf2 < n)%nat -> attr_encode oc p (AMPWithdraws a) buf2 = Panic.
Proof.
  intros H E buf2 L. apply attr_Ok in E as (buf' & k & b' & E & ->). cbn [attr_put] in E. unfold mpwithdraws_encode in E.
  apply ebind_Ok_inv in E as (? & b1 & _ & E). apply ebind_Ok_inv in E as (? & b2 & _ & E). apply ebind_Ok_inv in E as (ps & b3 & E1 & E). injection E as <- _.
  apply on_from_Ok in E1 as (b4 & b5 & E1). pose proof (at_routes oc a ps (routes_short oc a _ _ _ H E1)) as R.
  revert L. apply attr_short. intros m Lm. cbn [attr_put]. unfold mpwithdraws_encode.
  destruct (Nat.lt_ge_cases m 2) as [M|M]; [apply at_pseq; now apply at_slice_short|]. eapply at_seq; [apply at_slice; [lia|]; apply at_u16; lia|].
  destruct (Nat.lt_ge_cases m 3) as [M3|M3]; [apply at_pseq; apply at_set_short; lia|]. eapply at_seq; [apply at_set; lia|].
  apply at_pseq. apply at_from; [exact M3|]. apply R. lia.
Qed.
Lemma at_rd n r : (8 <= n)%nat -> at_len n (encode_rd_to r) (Ok 8%nat).
Proof. intros H. unfold encode_rd_to. eapply at_seq; [apply at_u32; lia|]. eapply at_seq; [apply at_slice; [lia|]; apply at_u32; lia|apply at_ret]. Qed.
Lemma at_hop n nh : hop_sendable nh -> (4 + hop_octets nh <= n)%nat -> at_len n (mp_put_nexthop nh) (Ok (hop_octets nh)).
Proof.
  intros H L. destruct nh; try destruct H; cbn [mp_put_nexthop hop_octets] in *.
  - apply at_ret.
  - apply at_from; [lia|]. apply at_addr4. lia.
  - apply at_from; [lia|]. apply at_addr6. lia.
  - apply at_from; [lia|]. eapply at_seq; [apply at_rd; lia|]. eapply at_seq; [apply at_from; [lia|]; apply at_addr4; lia|apply (at_ret _ 12%nat)].
  - apply at_from; [lia|]. eapply at_seq; [apply at_rd; lia|]. eapply at_seq; [apply at_from; [lia|]; apply at_addr6; lia|apply (at_ret _ 24%nat)].
Qed.
Lemma hop_Ok nh buf n b : mp_put_nexthop nh buf = Ok (n, b) -> hop_sendable nh /\ n = hop_octets nh.
Proof.
  intros E. assert (K4 : forall a buf n b, encode_addrv4_to a buf = Ok (n, b) -> n = 4%nat).
  { intros a buf' n' b' E'. unfold encode_addrv4_to in E'. apply ebind_Ok_inv in E' as (l & ? & _ & E'). destruct (Nat.ltb l 4); [discriminate|]. apply ebind_Ok_inv in E' as (? & ? & _ & E'). unfold eret in E'. congruence. }
  assert (K6 : forall a buf n b, encode_addrv6_to a buf = Ok (n, b) -> n = 16%nat).
  { intros a buf' n' b' E'. unfold encode_addrv6_to in E'. apply ebind_Ok_inv in E' as (l & ? & _ & E'). destruct (Nat.ltb l 16); [discriminate|]. apply ebind_Ok_inv in E' as (? & ? & _ & E'). unfold eret in E'. congruence. }
  assert (KR : forall r buf n b, encode_rd_to r buf = Ok (n, b) -> n = 8%nat).
  { intros r buf' n' b' E'. unfold encode_rd_to in E'. apply ebind_Ok_inv in E' as (? & ? & _ & E'). apply ebind_Ok_inv in E' as (? & ? & _ & E'). unfold eret in E'. congruence. }
  destruct nh; cbn [mp_put_nexthop hop_octets hop_sendable] in *; try discriminate; split; try exact I.
  - unfold eret in E. congruence.
  - apply on_from_Ok in E as (? & ? & E). eauto.
  - apply on_from_Ok in E as (? & ? & E). eauto.
  - apply on_from_Ok in E as (? & ? & E). unfold v4rd_encode in E. apply ebind_Ok_inv in E as (p1 & ? & E1 & E). apply ebind_Ok_inv in E as (p2 & ? & E2 & E).
    apply on_from_Ok in E2 as (? & ? & E2). apply KR in E1. apply K4 in E2. subst. now injection E as <- _.
  - apply on_from_Ok in E as (? & ? & E). unfold v6rd_encode in E. apply ebind_Ok_inv in E as (p1 & ? & E1 & E). apply ebind_Ok_inv in E as (p2 & ? & E2 & E).
    apply on_from_Ok in E2 as (? & ? & E2). apply KR in E1. apply K6 in E2. subst. now injection E as <- _.
Qed.
Lemma updates_short oc p nh a buf n b : prefix_routes a -> attr_encode oc p (AMPUpdates nh a) buf = Ok (n, b) ->
  forall buf2, (8 + hop_octets nh <= length buf2 < n)%nat -> attr_encode oc p (AMPUpdates nh a) buf2 = Panic.
Proof.
  intros H E buf2 [L1 L]. apply attr_Ok in E as (buf' & k & b' & E & ->). cbn [attr_put] in E. unfold mpupdates_encode in E.
  apply ebind_Ok_inv in E as (? & b1 & _ & E). apply ebind_Ok_inv in E as (? & b2 & _ & E). apply ebind_Ok_inv in E as (nhl & b3 & E1 & E).
  apply hop_Ok in E1 as [HS ->]. apply ebind_Ok_inv in E as (? & b4 & _ & E). apply ebind_Ok_inv in E as (? & b5 & _ & E).
  apply ebind_Ok_inv in E as (ps & b6 & E1 & E). assert (K : k = (4 + hop_octets nh + 1 + ps)%nat) by (unfold eret in E; congruence). subst k.
  apply on_from_Ok in E1 as (b7 & b8 & E1). pose proof (at_routes oc a ps (routes_short oc a _ _ _ H E1)) as R. clear E E1.
  assert (HL : header_len (AMPUpdates nh a) = 4%nat) by reflexivity. rewrite HL in L.
  refine (attr_at_panic oc p (AMPUpdates nh a) (length buf2) _ _ buf2 eq_refl); rewrite HL; [lia|]. set (m := (length buf2 - 4)%nat). assert (Lm : (4 + hop_octets nh <= m < 5 + hop_octets nh + ps)%nat) by (unfold m; lia).
  cbn [attr_put]. unfold mpupdates_encode. eapply at_seq; [apply at_slice; [lia|]; apply at_u16; lia|]. eapply at_seq; [apply at_set; lia|].
  eapply at_seq; [apply at_hop; [exact HS|lia]|]. eapply at_seq; [apply at_set; lia|].
  destruct (Nat.eq_dec m (4 + hop_octets nh)) as [M|M]; [apply at_pseq; apply at_set_short; lia|]. eapply at_seq; [apply at_set; lia|].
  apply at_pseq. apply at_from; [lia|]. apply R. lia.
Qed.

(** ** NOTIFICATION and OPEN *)
Lemma notif_short m buf : notif_encode m buf <> Panic /\ ((length buf < 4)%nat -> exists er, notif_encode m buf = Err er).
Proof.
  unfold notif_encode. destruct (Nat.ltb_spec (length buf) 4) as [L|L].
  - assert (E : (len <~ elen ;; if Nat.ltb len 4 then eerr EOther else set_idx 0 (nt_code m) ;;; set_idx 1 (nt_sub m) ;;; set_idx 2 (cast 8 (N.shiftr (nt_data m) 8)) ;;; set_idx 3 (N.land (nt_data m) 255) ;;; eret 4%nat) buf = Err EOther).
    { unfold ebind at 1, elen. apply Nat.ltb_lt in L. now rewrite L. }
    split; [rewrite E; discriminate|eauto].
  - split; [|lia]. apply (calm_no_panic (length buf)); [|reflexivity]. apply calm_at_guard; [exact L|]. do 4 (apply calm_at_bind; [apply calm_at_set; lia|intros _]). apply calm_at_ret.
Qed.
Lemma at_eslice_short {A} n a b (e : Enc A) : (n < b)%nat -> at_len n (on_eslice a b e) (Err EInsufficient).
Proof. intros H buf Hb. unfold on_eslice. destruct (Nat.leb_spec b (length buf)) as [L|L]; [lia|]. now rewrite Bool.andb_false_r. Qed.
Lemma caps_octets_cons c v : caps_octets (c :: v) = (2 + bytes_len c + caps_octets v)%nat.
Proof. reflexivity. Qed.
Lemma caps_at v : forall p n, (p <= n)%nat ->
  (at_len n (open_fill_caps v p) Panic /\ exists v1 c v2, v = v1 ++ c :: v2 /\ (n = p + caps_octets v1 \/ n = p + 1 + caps_octets v1)%nat) \/ calm_at n (open_fill_caps v p).
Proof.
  induction v as [|c v IH]; intros p n L; cbn [open_fill_caps]; [right; apply calm_at_ret|]. cbv zeta.
  destruct (Nat.eq_dec n p) as [E|E]; [left; split; [apply at_pseq; apply at_set_short; lia|exists [], c, v; split; [reflexivity|cbn; lia]]|].
  destruct (Nat.eq_dec n (p + 1)) as [E1|E1].
  { left. split; [eapply at_seq; [apply at_set; lia|]; apply at_pseq; apply at_set_short; lia|exists [], c, v; split; [reflexivity|cbn; lia]]. }
  destruct (Nat.lt_ge_cases n (bytes_len c + p + 2)) as [L2|L2].
  - right. right. exists EInsufficient. eapply at_seq; [apply at_set; lia|]. eapply at_seq; [apply at_set; lia|].
    apply (at_bind n _ _ (Err EInsufficient) (fun _ => Err EInsufficient)); [now apply at_eslice_short|discriminate].
  - pose proof (fill_calm c) as [(x & F)|(er & F)].
    + destruct (IH (p + (2 + bytes_len c))%nat n ltac:(lia)) as [(A & v1 & d & v2 & -> & HN)|A].
      * left. split.
        -- eapply at_seq; [apply at_set; lia|]. eapply at_seq; [apply at_set; lia|]. eapply at_seq; [apply at_eslice; [lia|]; replace (bytes_len c + p + 2 - (p + 2))%nat with (bytes_len c) by lia; exact F|]. exact A.
        -- exists (c :: v1), d, v2. split; [reflexivity|]. rewrite caps_octets_cons. lia.
      * right. apply calm_at_bind; [apply calm_at_set; lia|intros _]. apply calm_at_bind; [apply calm_at_set; lia|intros _]. apply calm_at_bind; [|intros _; exact A].
        left. exists x. apply at_eslice; [lia|]. replace (bytes_len c + p + 2 - (p + 2))%nat with (bytes_len c) by lia. exact F.
    + right. right. exists er. eapply at_seq; [apply at_set; lia|]. eapply at_seq; [apply at_set; lia|].
      apply (at_bind n _ _ (Err er) (fun _ => Err er)); [|discriminate]. apply at_eslice; [lia|]. replace (bytes_len c + p + 2 - (p + 2))%nat with (bytes_len c) by lia. exact F.
Qed.
Lemma caps_cut v : forall p buf x b, open_fill_caps v p buf = Ok (x, b) -> forall v1 c v2, v = v1 ++ c :: v2 -> forall n, (n = p + caps_octets v1 \/ n = p + 1 + caps_octets v1)%nat ->
  at_len n (open_fill_caps v p) Panic.
Proof.
  induction v as [|d v IH]; intros p buf x b E v1 c v2 Hv n Hn; [now destruct v1|]. cbn [open_fill_caps] in *. cbv zeta in *.
  apply ebind_Ok_inv in E as (? & b1 & _ & E). apply ebind_Ok_inv in E as (? & b2 & _ & E). apply ebind_Ok_inv in E as (y & b3 & E1 & E).
  destruct v1 as [|d1 v1]; cbn [app] in Hv; injection Hv as <- Hv.
  - cbn in Hn. destruct Hn as [->| ->]; [apply at_pseq; apply at_set_short; lia|]. eapply at_seq; [apply at_set; lia|]. apply at_pseq. apply at_set_short. lia.
  - assert (Hn' : (n = p + (2 + bytes_len d) + caps_octets v1 \/ n = p + (2 + bytes_len d) + 1 + caps_octets v1)%nat) by (rewrite caps_octets_cons in Hn; lia). clear Hn.
    eapply at_seq; [apply at_set; lia|]. eapply at_seq; [apply at_set; lia|].
    assert (F : exists z, at_len (bytes_len d) (fill_buffer d) (Ok z)).
    { destruct (fill_calm d) as [F|(er & F)]; [exact F|exfalso]. unfold on_eslice in E1. destruct (_ && _)%bool eqn:EB; [|discriminate]. apply andb_prop in EB as [_ EB]. apply Nat.leb_le in EB.
      match type of E1 with context [fill_buffer d ?s] => specialize (F s); assert (L : length s = bytes_len d) by (unfold sub; rewrite firstn_length, skipn_length; lia); specialize (F L) end. rewrite F in E1. discriminate. }
    destruct F as (z & F). eapply at_seq; [apply at_eslice; [lia|]; replace (bytes_len d + p + 2 - (p + 2))%nat with (bytes_len d) by lia; exact F|].
    eapply IH; eauto.
Qed.
Lemma at_open m n r : (10 <= n)%nat -> at_len n (open_fill_caps (op_caps m) 10) r -> at_len n (open_encode m) r.
Proof.
  intros L H. unfold open_encode. apply at_elen. destruct (Nat.ltb_spec n 10); [lia|]. eapply at_seq with (x := tt); [apply at_eslice; [lia|apply at_ret]|].
  eapply at_seq; [apply at_set; lia|]. do 3 (eapply at_seq; [apply at_write; cbn; lia|]). eapply at_seq; [apply at_set; lia|]. exact H.
Qed.
Lemma at_cut n m : (n < 10)%nat -> at_len n (open_encode m) (Err EInsufficient).
Proof. intros L. unfold open_encode. apply at_elen. apply Nat.ltb_lt in L. rewrite L. apply at_err. Qed.
Lemma open_panic_only m buf : open_encode m buf = Panic -> cut_in_caps (op_caps m) (length buf).
Proof.
  intros E. destruct (Nat.lt_ge_cases (length buf) 10) as [L|L]; [rewrite (at_cut _ m L buf eq_refl) in E; discriminate|].
  destruct (caps_at (op_caps m) 10 (length buf) L) as [(_ & v1 & c & v2 & Hv & Hn)|C]; [exists v1, c, v2; split; [exact Hv|exact Hn]|exfalso].
  destruct C as [(x & C)|(er & C)]; apply (at_open m _ _ L) in C; specialize (C buf eq_refl); unfold shape in C; rewrite E in C; [destruct C as (b & _ & C); discriminate C|discriminate C].
Qed.
Lemma open_exact m buf n b : open_encode m buf = Ok (n, b) -> forall buf2, open_encode m buf2 = Panic <-> cut_in_caps (op_caps m) (length buf2).
Proof.
  intros E buf2. split; [apply open_panic_only|]. intros (v1 & c & v2 & Hv & Hn).
  unfold open_encode in E. unfold ebind at 1, elen in E. destruct (Nat.ltb (length buf) 10); [discriminate|].
  repeat (apply ebind_Ok_inv in E as (? & ? & _ & E)).
  refine (at_open m (length buf2) Panic ltac:(lia) _ buf2 eq_refl). eapply caps_cut; eauto.
Qed.

(** ** UPDATE *)
Lemma send_short oc p m buf : (length buf < 19)%nat -> send_message oc p m buf = Panic.
Proof. intros L. unfold send_message. apply (at_pseq (length buf)); [now apply at_from_short|reflexivity]. Qed.
Lemma at_panic {A} n (e : Enc A) buf : at_len n e Panic -> length buf = n -> e buf = Panic.
Proof. intros H L. now apply H. Qed.
Lemma at_tail {A} n k (e : Enc A) r : (k <= n)%nat -> at_len (n - k) e r -> at_len n (on_tail k e) r.
Proof. intros L H. unfold on_tail. apply at_elen. now apply at_eslice. Qed.
Lemma at_tail_short {A} n k (e : Enc A) : (n < k)%nat -> at_len n (on_tail k e) (Err EInsufficient).
Proof. intros L. unfold on_tail. apply at_elen. intros buf Hb. unfold on_eslice. destruct (Nat.leb_spec k n) as [L'|L']; [lia|]. reflexivity. Qed.
Lemma settled_at e buf n b : settled e -> e buf = Ok (n, b) -> forall m, (n <= m)%nat -> at_len m e (Ok n).
Proof.
  intros H E m L buf2 Hb. destruct (H _ _ _ E) as (bs & Lb & W). destruct (W buf2) as [W1 _]. exists (bs ++ skipn n buf2). split; [|apply W1; lia].
  rewrite app_length, skipn_length. lia.
Qed.
Lemma own_prefix p a : own_routes p a = true -> prefix_routes a.
Proof. unfold own_routes. destruct (sp_mode p), a; try discriminate; intros _; exact I. Qed.
Lemma own_at oc p a buf n b : own_routes p a = true -> addrs_encode oc a buf = Ok (n, b) -> forall m, (n <= m)%nat -> at_len m (addrs_encode oc a) (Ok n).
Proof. intros H. apply settled_at, C104_addrs_l. apply routes_tidy. now apply (own_prefix p). Qed.
Lemma on_tail_Ok {A} k (e : Enc A) buf x b : on_tail k e buf = Ok (x, b) -> exists buf' b', e buf' = Ok (x, b').
Proof.
  unfold on_tail, ebind, elen. unfold on_eslice. destruct (_ && _)%bool; [|discriminate].
  match goal with |- context [e ?s] => destruct (e s) as [[y b']| | |] eqn:E; try discriminate end. intros F. injection F as -> _. eauto.
Qed.
Lemma withdraws_at oc p a buf pos b : upd_withdraws oc p a buf = Ok (pos, b) -> forall m, (pos <= m)%nat -> at_len m (upd_withdraws oc p a) (Ok pos).
Proof.
  unfold upd_withdraws. rewrite own_encode. destruct (own_routes p a) eqn:HO; intros E m L.
  - apply ebind_Ok_inv in E as (k & b1 & E1 & E). destruct (65535 <? N.of_nat k) eqn:HK; [discriminate|].
    apply ebind_Ok_inv in E as (? & b2 & _ & E). assert (pos = (2 + k)%nat) as -> by (unfold eret in E; congruence). apply on_tail_Ok in E1 as (b3 & b4 & E1).
    eapply at_seq; [apply at_tail; [lia|]; apply (own_at oc p a _ _ _ HO E1); lia|]. rewrite HK.
    eapply at_seq; [apply at_tail; [lia|]; apply at_u16; lia|]. apply at_ret.
  - apply ebind_Ok_inv in E as (? & b1 & _ & E). assert (pos = 2%nat) as -> by (unfold eret in E; congruence). eapply at_seq; [apply at_u16; lia|]. apply at_ret.
Qed.
Lemma items_grow {T} oc (st : setter T) v : forall c buf n b, enc_items oc st v c buf = Ok (n, b) -> (c + length v <= n)%nat.
Proof.
  induction v as [|i v IH]; cbn [enc_items length]; intros c buf n b E; [unfold eret in E; assert (c = n) by congruence; lia|].
  apply ebind_Ok_inv in E as ([y k] & b1 & _ & E). apply ebind_Ok_inv in E as (? & b2 & _ & E). apply IH in E. lia.
Qed.
Lemma pitems_grow {T} oc (st : setter T) v : forall c buf n b, enc_pathid_items oc st v c buf = Ok (n, b) -> (c + length v <= n)%nat.
Proof.
  induction v as [|i v IH]; cbn [enc_pathid_items length]; intros c buf n b E; [unfold eret in E; assert (c = n) by congruence; lia|].
  apply ebind_Ok_inv in E as (? & b0 & _ & E). apply ebind_Ok_inv in E as ([y k] & b1 & _ & E). apply ebind_Ok_inv in E as (? & b2 & _ & E). apply IH in E. lia.
Qed.
Lemma own_pos oc p a buf n b : own_routes p a = true -> addrs_encode oc a buf = Ok (n, b) -> n = 0%nat -> empty_own p a.
Proof.
  unfold own_routes, empty_own. intros H E ->. destruct (sp_mode p), a; try discriminate H; cbn [addrs_encode] in E;
    (first [apply items_grow in E|apply pitems_grow in E]); match goal with |- context [match ?v with [] => _ | _ :: _ => _ end] => destruct v end; try exact I; cbn in E; lia.
Qed.
Lemma own_empty oc p a : empty_own p a -> own_routes p a = true /\ addrs_encode oc a = eret 0%nat.
Proof.
  unfold empty_own, own_routes. destruct (sp_mode p), a; try (intros []; fail); match goal with |- context [match ?v with [] => _ | _ :: _ => _ end] => destruct v end; try (intros []; fail); intros _; split; reflexivity.
Qed.
Lemma attrs_grow oc p v q : forall c buf n b, upd_attrs_encode oc p v q c buf = Ok (n, b) -> (c + length v <= n)%nat.
Proof.
  induction v as [|a v IH]; cbn [upd_attrs_encode length]; intros c buf n b E; [unfold eret in E; assert (c = n) by congruence; lia|].
  destruct (65535 <? _); [discriminate|]. apply ebind_Ok_inv in E as (k & b1 & E1 & E). apply on_tail_Ok in E1 as (? & ? & E1). apply attr_Ok in E1 as (? & k' & ? & _ & ->).
  apply IH in E. unfold header_len in E. lia.
Qed.
Lemma withdrawn_cut oc p m buf k b : own_routes p (u_withdraws m) = true -> addrs_encode oc (u_withdraws m) buf = Ok (k, b) ->
  forall buf2, (2 <= length buf2 < 2 + k)%nat -> update_encode oc p m buf2 = Panic.
Proof.
  intros H E buf2 L. unfold update_encode. refine (at_pseq (length buf2) _ _ _ buf2 eq_refl). unfold upd_withdraws. rewrite own_encode, H.
  apply at_pseq. apply at_tail; [lia|]. apply (at_routes oc _ k (routes_short oc _ _ _ _ (own_prefix _ _ H) E)). lia.
Qed.
Lemma update_parts oc p m buf n b : update_encode oc p m buf = Ok (n, b) ->
  exists pos cur b1 b2 b3, upd_withdraws oc p (u_withdraws m) buf = Ok (pos, b1) /\ upd_attrs_encode oc p (u_attrs m) pos (pos + 2) b1 = Ok (cur, b2) /\
    ((own_routes p (u_updates m) = false /\ n = cur) \/
     (own_routes p (u_updates m) = true /\ exists k b4, addrs_encode oc (u_updates m) b3 = Ok (k, b4) /\ n = (cur + k)%nat)).
Proof.
  unfold update_encode. intros E. apply ebind_Ok_inv in E as (pos & b1 & E1 & E). apply ebind_Ok_inv in E as (cur & b2 & E2 & E). apply ebind_Ok_inv in E as (? & b3 & _ & E).
  rewrite own_encode in E. destruct (own_routes p (u_updates m)).
  - apply ebind_Ok_inv in E as (k & b4 & E3 & E). apply on_tail_Ok in E3 as (b5 & b6 & E3). exists pos, cur, b1, b2, b5. split; [exact E1|]. split; [exact E2|]. right. split; [reflexivity|].
    exists k, b6. split; [exact E3|]. unfold eret in E. congruence.
  - exists pos, cur, b1, b2, b3. split; [exact E1|]. split; [exact E2|]. left. split; [reflexivity|]. unfold eret in E. congruence.
Qed.
Lemma empty_own_dec p a : empty_own p a \/ ~ empty_own p a.
Proof. unfold empty_own. destruct (sp_mode p), a; try (right; intros []; fail); match goal with |- context [match ?v with [] => _ | _ :: _ => _ end] => destruct v end; (left; exact I) || (right; intros []). Qed.
Lemma update_short_exists oc p m buf n b : update_encode oc p m buf = Ok (n, b) -> ~ bare p m -> exists buf2, (length buf2 < n)%nat /\ update_encode oc p m buf2 = Panic.
Proof.
  intros E HB. destruct (update_parts _ _ _ _ _ _ E) as (pos & cur & b1 & b2 & b3 & E1 & E2 & E3). pose proof (attrs_grow _ _ _ _ _ _ _ _ E2) as G.
  pose proof (withdraws_at _ _ _ _ _ _ E1) as WA.
  assert (Ln : (cur <= n)%nat) by (destruct E3 as [(_ & ->)|(_ & k & b4 & _ & ->)]; lia).
  destruct (u_attrs m) as [|a v] eqn:HA; cbn [length] in G.
  2:{ exists (repeat 0 (pos + 2)). rewrite repeat_length. split; [lia|]. unfold update_encode. rewrite HA. apply (at_panic (pos + 2)); [|apply repeat_length].
      eapply at_seq; [apply WA; lia|]. apply at_pseq. cbn [upd_attrs_encode]. replace (65535 <? N.of_nat (pos + 2 - pos)) with false by (symmetry; apply N.ltb_ge; lia).
      apply at_pseq. apply at_tail; [lia|]. intros bb Hb. apply header_short. unfold header_len. lia. }
  destruct (own_routes p (u_withdraws m)) eqn:HW.
  2:{ exists []. cbn [length]. split; [lia|]. unfold update_encode, upd_withdraws. rewrite own_encode, HW. reflexivity. }
  destruct (empty_own_dec p (u_withdraws m)) as [HE|HE].
  2:{ unfold upd_withdraws in E1. rewrite own_encode, HW in E1. apply ebind_Ok_inv in E1 as (k & b5 & E1 & E4). apply on_tail_Ok in E1 as (b6 & b7 & E1).
      assert (K : k <> 0%nat) by (intros ->; apply HE; eapply own_pos; eauto).
      destruct (65535 <? N.of_nat k); [discriminate|]. apply ebind_Ok_inv in E4 as (? & ? & _ & E4). assert (pos = (2 + k)%nat) by (unfold eret in E4; congruence).
      exists (repeat 0 2). cbn [repeat length]. split; [lia|]. eapply withdrawn_cut; [exact HW|exact E1|]. cbn [repeat length]. lia. }
  destruct E3 as [(HU & ->)|(HU & k & b4 & E3 & ->)].
  - exfalso. apply HB. split; [exact HE|]. split; [exact HA|]. now left.
  - assert (K : k <> 0%nat) by (intros ->; apply HB; split; [exact HE|]; split; [exact HA|]; right; eapply own_pos; eauto).
    cbn [upd_attrs_encode] in E2. assert (cur = (pos + 2)%nat) as -> by (unfold eret in E2; congruence).
    exists (repeat 0 (pos + 2)). rewrite repeat_length. split; [lia|]. unfold update_encode. rewrite HA. apply (at_panic (pos + 2)); [|apply repeat_length].
    eapply at_seq; [apply WA; lia|]. eapply at_seq; [apply at_ret|]. eapply at_seq; [apply at_eslice; [lia|]; apply at_u16; lia|]. rewrite own_encode, HU.
    apply at_pseq. apply at_tail; [lia|]. apply (at_routes oc _ k (routes_short oc _ _ _ _ (own_prefix _ _ HU) E3)). lia.
Qed.
Lemma bare_calm oc p m buf : bare p m -> update_encode oc p m buf <> Panic.
Proof.
  intros (HW & HA & HU). unfold update_encode, upd_withdraws. destruct (own_empty oc p _ HW) as [HO HE]. rewrite own_encode, HO, HE, HA. apply (calm_no_panic (length buf)); [|reflexivity].
  destruct (Nat.lt_ge_cases (length buf) 2) as [L|L].
  { right. exists EInsufficient. apply (at_bind _ _ _ (Err EInsufficient) (fun _ => Err EInsufficient)); [|discriminate]. apply (at_bind _ _ _ (Err EInsufficient) (fun _ => Err EInsufficient)); [|discriminate]. now apply at_tail_short. }
  assert (W : at_len (length buf) (wlen <~ on_tail 2 (eret 0%nat) ;; (if 65535 <? N.of_nat wlen then eerr ETooMany else on_tail 0 (setn_u16 (cast 16 (N.of_nat wlen))) ;;; eret (2 + wlen)%nat)) (Ok 2%nat)).
  { eapply at_seq; [apply at_tail; [exact L|apply at_ret]|]. cbn [N.of_nat N.ltb N.compare]. eapply at_seq; [apply at_tail; [lia|]; apply at_u16; lia|]. apply (at_ret _ 2%nat). }
  destruct (Nat.lt_ge_cases (length buf) 4) as [L4|L4].
  { right. exists EInsufficient. eapply at_seq; [exact W|]. cbn [upd_attrs_encode]. eapply at_seq; [apply at_ret|]. apply (at_bind _ _ _ (Err EInsufficient) (fun _ => Err EInsufficient)); [|discriminate]. now apply at_eslice_short. }
  left. destruct HU as [HU|HU]; [|destruct (own_empty oc p _ HU) as [HU' HV]].
  - exists 4%nat. eapply at_seq; [exact W|]. cbn [upd_attrs_encode]. eapply at_seq; [apply at_ret|]. eapply at_seq; [apply at_eslice; [lia|]; apply at_u16; cbn; lia|]. rewrite own_encode, HU. apply (at_ret _ 4%nat).
  - exists 4%nat. eapply at_seq; [exact W|]. cbn [upd_attrs_encode]. eapply at_seq; [apply at_ret|]. eapply at_seq; [apply at_eslice; [lia|]; apply at_u16; cbn; lia|]. rewrite own_encode, HU', HV.
    eapply at_seq; [apply at_tail; [exact L4|apply at_ret]|]. apply (at_ret _ 4%nat).
Qed.
Lemma update_short_iff oc p m buf n b : update_encode oc p m buf = Ok (n, b) ->
  ((exists buf2, (length buf2 < n)%nat /\ update_encode oc p m buf2 = Panic) <-> ~ bare p m).
Proof. intros E. split; [intros (buf2 & _ & E2) HB; now apply (bare_calm oc p m buf2) in HB|]. eapply update_short_exists; eauto. Qed.
Lemma front_parts oc p m buf n b : own_routes p (u_updates m) = true -> update_encode oc p m buf = Ok (n, b) ->
  exists b1 cur k b2 b3, update_encode oc p (mkUpd ANone (u_withdraws m) (u_attrs m)) buf = Ok (cur, b1) /\ addrs_encode oc (u_updates m) b2 = Ok (k, b3) /\ n = (cur + k)%nat.
Proof.
  intros HU. unfold update_encode. cbn [u_withdraws u_attrs u_updates]. intros E. apply ebind_Ok_inv in E as (pos & b1 & E1 & E). apply ebind_Ok_inv in E as (cur & b2 & E2 & E). apply ebind_Ok_inv in E as (u & b3 & E3 & E).
  rewrite own_encode, HU in E. apply ebind_Ok_inv in E as (k & b4 & E4 & E). apply on_tail_Ok in E4 as (b5 & b6 & E4).
  exists b3, cur, k, b5, b6. split; [|split; [exact E4|unfold eret in E; congruence]].
  unfold ebind at 1. rewrite E1. unfold ebind at 1. rewrite E2. unfold ebind at 1. rewrite E3. rewrite own_encode. unfold own_routes. destruct (sp_mode p); reflexivity.
Qed.
Lemma nlri_cut oc p m buf n b cur b1 : update_tidy m -> own_routes p (u_updates m) = true -> update_encode oc p m buf = Ok (n, b) ->
  update_encode oc p (mkUpd ANone (u_withdraws m) (u_attrs m)) buf = Ok (cur, b1) ->
  forall buf2, (cur <= length buf2 < n)%nat -> update_encode oc p m buf2 = Panic.
Proof.
  intros HT HU E EF buf2 L. destruct (front_parts _ _ _ _ _ _ HU E) as (b1' & cur' & k & b2 & b3 & EF' & EA & ->). assert (cur' = cur) as -> by congruence. clear EF' b1'.
  destruct (C104_message_l oc p (MsgUpdate (mkUpd ANone (u_withdraws m) (u_attrs m))) HT _ _ _ EF) as (bs & Lb & W). destruct (W buf2) as [W1 _]. cbn [message_encode] in W1. specialize (W1 ltac:(lia)).
  unfold update_encode in *. cbn [u_withdraws u_attrs u_updates] in *.
  apply ebind_Ok_inv in W1 as (pos & c1 & E1 & W1). apply ebind_Ok_inv in W1 as (cur' & c2 & E2 & W1). apply ebind_Ok_inv in W1 as (u & c3 & E3 & W1).
  assert (upd_nlri_encode oc p ANone = None) as HN by (unfold upd_nlri_encode; destruct (sp_mode p); reflexivity). rewrite HN in W1. unfold eret in W1. assert (cur' = cur) as -> by congruence.
  assert (Hc : length c3 = length buf2). { assert (c3 = bs ++ skipn cur buf2) as -> by congruence. rewrite app_length, skipn_length. lia. }
  unfold ebind at 1. rewrite E1. unfold ebind at 1. rewrite E2. unfold ebind at 1. rewrite E3. rewrite own_encode, HU.
  refine (at_pseq (length c3) _ _ _ c3 eq_refl). apply at_tail; [lia|]. apply (at_routes oc _ k (routes_short oc _ _ _ _ (own_prefix _ _ HU) EA)). lia.
Qed.
