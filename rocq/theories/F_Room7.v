(** The values which the library does not encode by themselves. *)
From Verif Require Import Base BaseFacts M_Util S_Wire F_Util M_Nlri S_Nlri F_Nlri M_Vpls F_Lay M_Prefix M_Mvpn M_Evpn M_Flowspec M_Addrs M_Attr M_Update M_Cap M_Open M_Session M_Peer M_Bmp
  S_Room F_Room F_Room2 F_Room3 F_Room4 F_Room5 F_Room6.
Ltac Zify.zify_post_hook ::= idtac.

Lemma fit_room {A} a (e : Enc A) (Q : A -> nat -> Prop) k buf x b : fit a e Q -> (forall q, Q x q -> (a < q)%nat /\ (k <= q)%nat) -> e buf = Ok (x, b) -> (k <= length buf)%nat.
Proof.
  intros F H E. destruct (F _ _ _ E) as (L & bs & C & HQ & W). destruct (H _ HQ) as [H1 H2]. destruct bs as [|c bs]; [cbn [length] in H1; lia|].
  specialize (C ltac:(congruence)). lia.
Qed.
(** whatever needs more room than it reports *)
Lemma not_settled_room (e : Enc nat) : (exists buf r, e buf = Ok r) -> (forall buf n b, e buf = Ok (n, b) -> (n < length buf)%nat) -> ~ settled e.
Proof.
  intros (buf & [n b] & E) H S. destruct (S _ _ _ E) as (bs & L & W). destruct (W (repeat 0 n)) as [W1 _].
  specialize (W1 ltac:(rewrite repeat_length; lia)). apply H in W1. rewrite repeat_length in W1. lia.
Qed.
(** whatever leaves an octet as it was *)
Definition keeps {A} (j : nat) (e : Enc A) : Prop := forall buf x b, e buf = Ok (x, b) -> nth_error b j = nth_error buf j.
Lemma not_settled_keeps (e : Enc nat) j : keeps j e -> (exists buf n b, e buf = Ok (n, b) /\ (j < n)%nat) -> ~ settled e.
Proof.
  intros K (buf & n & b & E & Hj) S. destruct (S _ _ _ E) as (bs & L & W).
  destruct (W (repeat 0 n)) as [W0 _]. specialize (W0 ltac:(rewrite repeat_length; lia)).
  destruct (W (repeat 1 n)) as [W1 _]. specialize (W1 ltac:(rewrite repeat_length; lia)).
  apply K in W0, W1. rewrite nth_error_app1 in W0, W1 by lia. rewrite W0 in W1.
  assert (R : forall c : N, nth_error (repeat c n) j = Some c).
  { intros c. destruct (nth_error (repeat c n) j) as [d|] eqn:En; [|apply nth_error_None in En; rewrite repeat_length in En; lia].
    apply nth_error_In, repeat_spec in En. now subst. }
  rewrite !R in W1. discriminate.
Qed.

(** ** AGGREGATOR *)
Lemma C104_aggregator_l oc p asn a buf n b : attr_encode oc p (AAggregatorAS asn a) buf = Ok (n, b) ->
  n = (3 + (if sp_as32 p then 4 else 2))%nat /\ skipn 3 b = skipn 3 buf.
Proof.
  unfold attr_encode. cbn [attr_params]. change (0 <? N.land 64 16) with false. cbn [attr_put]. unfold aggregator_encode. cbv beta zeta iota.
  intros H. apply ebind_Ok_inv in H as (u1 & b1 & H1 & H). apply ebind_Ok_inv in H as (u2 & b2 & H2 & H).
  apply ebind_Ok_inv in H as (k & b3 & H3 & H). apply ebind_Ok_inv in H as (u4 & b4 & H4 & H). unfold eret in H.
  assert (Hs : forall i v (x : unit) b0 b5, (i < 3)%nat -> set_idx i v b0 = Ok (x, b5) -> skipn 3 b5 = skipn 3 b0).
  { intros i v x b0 b5 Hi E. unfold set_idx in E. destruct (Nat.ltb i (length b0)) eqn:Hl; [apply Nat.ltb_lt in Hl|discriminate]. assert (b5 = splice i [v] b0) as -> by congruence.
    unfold splice. cbn [length]. rewrite app_assoc, skipn_app. rewrite skipn_all2 by (rewrite app_length, firstn_length; cbn [length]; lia). cbn [app].
    rewrite app_length, firstn_length. cbn [length]. rewrite skipn_skipn'. f_equal. lia. }
  unfold on_from, eret in H3. destruct (Nat.leb 3 (length b2)) eqn:Hl; [|discriminate].
  assert (k = (if sp_as32 p then 4 else 2)%nat) as -> by congruence. assert (b3 = firstn 3 b2 ++ skipn 3 b2) as E3 by congruence. rewrite firstn_skipn in E3. subst b3.
  split; [congruence|]. assert (b4 = b) as <- by congruence.
  destruct (255 <? _); [discriminate|]. rewrite (Hs 2%nat _ _ _ _ ltac:(lia) H4), (Hs 1%nat _ _ _ _ ltac:(lia) H2). apply (Hs 0%nat _ _ _ _ ltac:(lia) H1).
Qed.
Lemma C104_aggregator_refuted_l oc p asn a : ~ settled (attr_encode oc p (AAggregatorAS asn a)).
Proof.
  apply (not_settled_keeps _ 3).
  - intros buf n b E. apply C104_aggregator_l in E as [_ E]. replace 3%nat with (3 + 0)%nat at 1 2 by lia. now rewrite <- !nth_error_skipn, E.
  - exists (repeat 0 8), (3 + (if sp_as32 p then 4 else 2))%nat, [64; 7; if sp_as32 p then 4 else 2; 0; 0; 0; 0; 0]. split; [|destruct (sp_as32 p); lia].
    unfold attr_encode. cbn [attr_params attr_put]. unfold aggregator_encode. destruct (sp_as32 p); vm_compute; reflexivity.
Qed.

(** ** VPLS *)
Lemma l2a_room x buf n b : l2a_pack x buf = Ok (n, b) -> (n <= length buf)%nat /\ length b = length buf.
Proof.
  intros E. unfold l2a_pack in E. apply ebind_Ok_inv in E as (len & b0 & E0 & E). unfold elen in E0.
  assert (b0 = buf) as -> by congruence. destruct (Nat.ltb len 15); [discriminate|]. clear E0 len.
  match type of E with ?e buf = _ => assert (F : fit 0 e (fun n q => n = q /\ (0 < q)%nat)) end.
  { fb (fun (_ : nat) q => q = 8%nat); [now apply fit_rd|]. intros _ q ->. fb (fun (_ : unit) q => q = 10%nat); [now apply fit_s16|]. intros _ q ->.
    fb (fun (_ : unit) q => q = 12%nat); [now apply fit_s16|]. intros _ q ->. fb (fun (_ : unit) q => q = 14%nat); [now apply fit_s16|]. intros _ q ->.
    fb (fun (bn : N * nat) q => q = (14 + snd bn)%nat); [eapply fit_on_from; [apply fit_labels|]; intros bn q [H _]; lia|].
    intros [c k] q ->. apply fit_ret. cbn [snd]. lia. }
  split; [|now destruct (F _ _ _ E)]. eapply fit_room; [exact F| |exact E]. intros q [-> H]. lia.
Qed.
Lemma long_items_room v : forall p buf n b, enc_long_items l2a_pack v p buf = Ok (n, b) -> v <> [] -> (n + 2 <= length buf)%nat.
Proof.
  induction v as [|x v IH]; intros p buf n b E Hv; [congruence|]. cbn [enc_long_items] in E.
  apply ebind_Ok_inv in E as (sz & b1 & E1 & E). apply ebind_Ok_inv in E as (u & b2 & E2 & E).
  unfold on_from in E1. destruct (Nat.leb (p + 2) (length buf)) eqn:Hl; [apply Nat.leb_le in Hl|discriminate].
  destruct (l2a_pack x (skipn (p + 2) buf)) as [[k c]| | |] eqn:El; try discriminate. assert (k = sz) as -> by congruence.
  assert (Eb1 : b1 = firstn (p + 2) buf ++ c) by congruence. apply l2a_room in El as [Hr Lc]. rewrite skipn_length in Hr, Lc.
  assert (L1 : length b1 = length buf) by (rewrite Eb1, app_length, firstn_length; lia).
  assert (L2 : length b2 = length b1).
  { assert (F : fit p (on_slice p (p + 2) (setn_u16 (cast 16 (N.of_nat sz)))) (fun _ _ => True)) by now apply fit_s16. now destruct (F _ _ _ E2). }
  destruct v as [|y v].
  - cbn [enc_long_items] in E. unfold eret in E. assert (n = (p + sz)%nat) by congruence. lia.
  - apply IH in E; [|congruence]. lia.
Qed.
Lemma C104_vpls_l oc v : v <> [] -> (exists buf r, addrs_encode oc (L2VPLS v) buf = Ok r) -> ~ settled (addrs_encode oc (L2VPLS v)).
Proof.
  intros Hv He. apply not_settled_room; [exact He|]. intros buf n b E. apply long_items_room in E; [lia|exact Hv].
Qed.

(** ** EVPN *)
Lemma C104_evpn_l r : match r with Ev2 r => length (ev2_mac r) = 6%nat | _ => True end -> ~ ev_tidy r -> (exists buf x, evpn_encode r buf = Ok x) -> ~ settled (evpn_encode r).
Proof.
  intros Hm Ht He. apply not_settled_room; [exact He|]. destruct r as [r|r|r|r|r]; cbn [ev_tidy] in Ht; try tauto.
  destruct (ev5_prefix r) as [a|a] eqn:Ea, (ev5_gw r) as [g|g] eqn:Eg; try tauto. intros buf n b E.
  unfold evpn_encode in E. apply ebind_Ok_inv in E as (sz & b2 & E & E2). apply ebind_Ok_inv in E as (u & b1 & E0 & E1).
  apply ebind_Ok_inv in E2 as (u2 & b3 & _ & E2). unfold eret in E2. assert (n = (sz + 2)%nat) as -> by congruence. clear E2.
  assert (L1 : length b1 = length buf).
  { assert (F : fit 0 (set_idx 0 5) (fun _ _ => True)) by now apply fit_set_idx. now destruct (F _ _ _ E0). }
  rewrite <- L1. unfold on_from in E1. destruct (Nat.leb 2 (length b1)) eqn:Hl; [apply Nat.leb_le in Hl|discriminate].
  destruct (evpn5_encode r (skipn 2 b1)) as [[k c]| | |] eqn:E5; try discriminate. assert (k = sz) as -> by congruence. clear E1.
  assert (Hsz : (sz < length (skipn 2 b1))%nat); [|rewrite skipn_length in Hsz; lia]. generalize dependent (skipn 2 b1). clear - Ea Eg Ht. intros l E.
  unfold evpn5_encode in E. rewrite Ea, Eg in E.
  assert (G : exists pos b1 b2, (encode_rd_to (ev5_rd r) ;;; esi_write 8 (ev5_esi_type r) (ev5_esi r) ;;; on_slice 18 22 (setn_u32 (ev5_tag r)) ;;;
     set_idx 22 (ev5_len r) ;;; on_from 23 (encode_addrv6_to a) ;;; on_from 39 (encode_addrv6_to g)) l = Ok (pos, b1) /\
     ('(_, n) <~ on_from 39 (labels_set (ev5_labels r)) ;; eret (39 + n)%nat) b1 = Ok (sz, b2)).
  { apply ebind_Ok_inv in E as (p & b1 & E1 & E).
    assert (p = 8%nat) as ->.
    { assert (F : fit 0 (encode_rd_to (ev5_rd r)) (fun n _ => n = 8%nat)) by now apply fit_rd. now destruct (F _ _ _ E1) as (_ & _ & _ & Hp & _). }
    apply ebind_Ok_inv in E as (u2 & b2 & E2 & E). apply ebind_Ok_inv in E as (u3 & b3 & E3 & E). apply ebind_Ok_inv in E as (u4 & b4 & E4 & E).
    apply ebind_Ok_inv in E as (q & b5 & E5 & E). apply ebind_Ok_inv in E5 as (u6 & b6 & E6 & E5). apply ebind_Ok_inv in E5 as (u7 & b7 & E7 & E5).
    unfold eret in E5. assert (q = 39%nat) as -> by (cbn [Nat.add] in E5; congruence). assert (b7 = b5) as -> by congruence.
    exists u7, b5, c. split; [|exact E]. unfold ebind. rewrite E1. cbn [Nat.add] in *. rewrite E2, E3, E4, E6. exact E7. }
  clear E. destruct G as (pos & b1 & b2 & G1 & G2).
  match type of G1 with ?e l = _ => assert (F : fit 0 e (fun _ q => q = 55%nat)) end.
  { fb (fun (_ : nat) q => q = 8%nat); [now apply fit_rd|]. intros _ q ->. fb (fun (_ : unit) q => q = 18%nat); [now apply fit_esi|]. intros _ q ->.
    fb (fun (_ : unit) q => q = 22%nat); [now apply fit_s32|]. intros _ q ->. fb (fun (_ : unit) q => q = 23%nat); [now apply fit_set_idx|]. intros _ q ->.
    fb (fun (_ : nat) q => q = 39%nat); [now apply fit_f6|]. intros _ q ->. now apply fit_f6. }
  assert (L55 : (55 <= length l)%nat) by (eapply fit_room; [exact F| |exact G1]; intros q ->; lia).
  assert (F2 : fit 39 ('(_, n) <~ on_from 39 (labels_set (ev5_labels r)) ;; eret (39 + n)%nat) (fun n _ => n = (39 + 3 * length (ev5_labels r))%nat)) by now apply fit_labels_end.
  destruct (F2 _ _ _ G2) as (_ & _ & _ & -> & _). lia.
Qed.

(** ** Flow specifications *)
Definition fs_vec {T} (r : flowspec T) : Prop := match r with FsDst _ | FsSrc _ => False | _ => True end.

Lemma fold_sum' {T} (f : T -> nat) v : forall a, fold_left (fun a c => (a + f c)%nat) v a = (a + list_sum (map f v))%nat.
Proof. induction v as [|x v IH]; intros a; cbn [fold_left map]; [cbn; lia|]. rewrite IH. change (list_sum (f x :: map f v)) with (f x + list_sum (map f v))%nat. lia. Qed.
Lemma vec_same {T} (o : fsoper T) (val : T -> N) v : (forall x, In x v -> op_byteslen o x = op_size (val x)) ->
  vec_byteslen o v = list_sum (map (fun x => op_size (val x)) v).
Proof.
  intros H. unfold vec_byteslen. rewrite fold_sum'. cbn [Nat.add]. f_equal. now apply map_ext_in.
Qed.
Lemma vals_untidy v : ~ vals_tidy v -> vec_byteslen fsvalop v = list_sum (map (fun x => op_size (fv_value x)) v).
Proof.
  intros H. apply vec_same. intros x Hx. cbn [op_byteslen fsvalop]. unfold fsval_byteslen, op_size.
  destruct (N.ltb_spec 65535 (fv_value x)); [reflexivity|]. destruct (N.ltb_spec 255 (fv_value x)); [reflexivity|].
  exfalso. apply H. exists x. split; assumption.
Qed.
Lemma masks_untidy v : ~ masks_tidy v -> vec_byteslen fsmaskop v = list_sum (map (fun x => op_size (fm_value x)) v).
Proof.
  intros H. apply vec_same. intros x Hx. cbn [op_byteslen fsmaskop]. unfold fsmask_byteslen, op_size.
  destruct (N.ltb_spec 16777215 (fm_value x)) as [Hl|Hl].
  - destruct (N.ltb_spec 65535 (fm_value x)); [reflexivity|lia].
  - exfalso. apply H. exists x. split; assumption.
Qed.
Lemma put_vec_room {U} (o : fsoper U) (val : U -> N) code v pos buf n b : (forall x, fit 0 (op_enc o x) (fun n q => n = q /\ q = op_size (val x))) ->
  vec_byteslen o v = list_sum (map (fun x => op_size (val x)) v) -> fs_put_vec o code v pos buf = Ok (n, b) -> n = (pos + 1 + vec_byteslen o v)%nat.
Proof.
  intros F Hs E. assert (G : fit pos (fs_put_vec o code v pos) (fun n _ => n = (pos + 1 + vec_byteslen o v)%nat)).
  { unfold fs_put_vec. fb (fun (_ : unit) q => q = (pos + 1)%nat); [now apply fit_set_idx|]. intros _ q ->.
    fb (fun n (q : nat) => n = vec_byteslen o v).
    { eapply fit_on_from; [apply (fit_vec o val F)|]. intros k q [-> ->]. now rewrite Hs. }
    intros k q ->. now apply fit_ret. }
  now destruct (G _ _ _ E) as (_ & _ & _ & H & _).
Qed.
Lemma C104_flowspec_l {T} (it : fsitem T) bits r : fs_vec r -> ~ fs_tidy bits r -> (exists buf x, fs_encode it r buf = Ok x) -> ~ settled (fs_encode it r).
Proof.
  intros Hv Ht He. apply not_settled_room; [exact He|]. intros buf n b E. unfold fs_encode in E. destruct (Nat.ltb 4094 (fs_nlen it r)); [discriminate|].
  apply ebind_Ok_inv in E as (pos & b1 & E1 & E).
  assert (Hl : (pos + fs_nlen it r <= length buf)%nat).
  { clear E. destruct (Nat.ltb (fs_nlen it r) 240).
    - apply ebind_Ok_inv in E1 as (len & b2 & E0 & E1). unfold elen in E0. assert (len = length buf) as -> by congruence.
      destruct (Nat.ltb_spec (length buf) (fs_nlen it r + 1)) as [Hc|Hc]; [discriminate|].
      apply ebind_Ok_inv in E1 as (u & b3 & _ & E1). unfold eret in E1. assert (pos = 1%nat) by congruence. lia.
    - apply ebind_Ok_inv in E1 as (len & b2 & E0 & E1). unfold elen in E0. assert (len = length buf) as -> by congruence.
      destruct (Nat.ltb_spec (length buf) (fs_nlen it r + 2)) as [Hc|Hc]; [discriminate|].
      apply ebind_Ok_inv in E1 as (u & b3 & _ & E1). apply ebind_Ok_inv in E1 as (u2 & b4 & _ & E1). unfold eret in E1. assert (pos = 2%nat) by congruence. lia. }
  assert (Hn : n = (pos + fs_nlen it r - 1)%nat); [|].
  { destruct r; cbn [fs_vec fs_tidy fs_nlen] in *; try tauto;
      first [apply (put_vec_room fsvalop fv_value _ _ _ _ _ _ fit_val (vals_untidy _ Ht)) in E | apply (put_vec_room fsmaskop fm_value _ _ _ _ _ _ fit_mask (masks_untidy _ Ht)) in E]; lia. }
  assert (fs_nlen it r > 0)%nat by (destruct r; cbn [fs_nlen]; lia). lia.
Qed.

(** ** FQDN *)
Lemma set_idx_other i v j buf (x : unit) b : set_idx i v buf = Ok (x, b) -> (i < j \/ j < i)%nat -> nth_error b j = nth_error buf j.
Proof.
  unfold set_idx. destruct (Nat.ltb i (length buf)) eqn:Hl; [apply Nat.ltb_lt in Hl|discriminate]. intros E Hj.
  assert (b = splice i [v] buf) as -> by congruence. unfold splice. cbn [length]. destruct Hj as [Hj|Hj].
  - rewrite app_assoc, nth_error_app2 by (rewrite app_length, firstn_length; cbn [length]; lia).
    rewrite nth_error_skipn, app_length, firstn_length. cbn [length]. f_equal. lia.
  - rewrite nth_error_app1 by (rewrite firstn_length; lia). rewrite <- (firstn_skipn i buf) at 2. rewrite nth_error_app1 by (rewrite firstn_length; lia). reflexivity.
Qed.
Lemma write_at_other i v j buf (x : unit) b : write_at i v buf = Ok (x, b) -> (i + length v <= j \/ j < i)%nat -> nth_error b j = nth_error buf j.
Proof.
  unfold write_at. destruct (Nat.leb (i + length v) (length buf)) eqn:Hl; [apply Nat.leb_le in Hl|discriminate]. intros E Hj.
  assert (b = splice i v buf) as -> by congruence. unfold splice. destruct Hj as [Hj|Hj].
  - rewrite app_assoc, nth_error_app2 by (rewrite app_length, firstn_length; lia).
    rewrite nth_error_skipn, app_length, firstn_length. f_equal. lia.
  - rewrite nth_error_app1 by (rewrite firstn_length; lia). rewrite <- (firstn_skipn i buf) at 2. rewrite nth_error_app1 by (rewrite firstn_length; lia). reflexivity.
Qed.
Lemma eslice_below {A} n m (e : Enc A) j buf x b : on_eslice n m e buf = Ok (x, b) -> (j < n)%nat -> nth_error b j = nth_error buf j.
Proof.
  unfold on_eslice. intros E Hj. destruct (Nat.leb n m && Nat.leb m (length buf))%bool eqn:Hc; [|discriminate].
  apply andb_prop in Hc as [H1 H2]. apply Nat.leb_le in H1, H2.
  destruct (e _) as [[y c]| | |]; try discriminate. assert (b = firstn n buf ++ c ++ skipn m buf) as -> by congruence.
  rewrite nth_error_app1 by (rewrite firstn_length; lia). rewrite <- (firstn_skipn n buf) at 2. rewrite nth_error_app1 by (rewrite firstn_length; lia). reflexivity.
Qed.
Lemma eslice_above {A} n m (e : Enc A) (P : A -> Prop) j buf x b : fitx (m - n) e P -> on_eslice n m e buf = Ok (x, b) -> (m <= j)%nat -> nth_error b j = nth_error buf j.
Proof.
  intros F E Hj. assert (G : fit n (on_eslice n m e) (fun _ q => q = Nat.max n m)).
  { destruct (Nat.leb_spec n m) as [H|H].
    - eapply fit_on_eslice with (P := P); [exact H|exact F|]. intros y _. lia.
    - intros b0 y b1 E0. unfold on_eslice in E0. apply Nat.leb_gt in H. rewrite H in E0. discriminate. }
  destruct (G _ _ _ E) as (L & bs & C & Hq & W). clear - E L Hj.
  unfold on_eslice in E. destruct (Nat.leb n m && Nat.leb m (length buf))%bool eqn:Hc; [|discriminate].
  apply andb_prop in Hc as [H1 H2]. apply Nat.leb_le in H1, H2.
  destruct (e _) as [[y c]| | |]; try discriminate. assert (Eb : b = firstn n buf ++ c ++ skipn m buf) by congruence. subst b.
  rewrite !app_length, firstn_length, skipn_length in L.
  rewrite app_assoc, nth_error_app2 by (rewrite app_length, firstn_length; lia).
  rewrite nth_error_skipn, app_length, firstn_length. f_equal. lia.
Qed.
Lemma eslice_in {A} n m (e : Enc A) j buf x b : keeps j e -> on_eslice n m e buf = Ok (x, b) -> length b = length buf -> (n + j < m)%nat -> nth_error b (n + j) = nth_error buf (n + j).
Proof.
  intros K E L Hj. unfold on_eslice in E. destruct (Nat.leb n m && Nat.leb m (length buf))%bool eqn:Hc; [|discriminate].
  apply andb_prop in Hc as [H1 H2]. apply Nat.leb_le in H1, H2.
  destruct (e _) as [[y c]| | |] eqn:Ee; try discriminate. assert (Eb : b = firstn n buf ++ c ++ skipn m buf) by congruence. subst b. apply K in Ee.
  rewrite !app_length, firstn_length, skipn_length in L.
  rewrite nth_error_app2 by (rewrite firstn_length; lia). rewrite firstn_length. replace (n + j - Nat.min n (length buf))%nat with j by lia.
  rewrite nth_error_app1 by lia. rewrite Ee. unfold sub. rewrite <- nth_error_skipn. rewrite <- (firstn_skipn (m - n) (skipn n buf)) at 2.
  rewrite nth_error_app1 by (rewrite firstn_length, skipn_length; lia). reflexivity.
Qed.
Lemma fill_fqdn h d : keeps (2 + length h + length d) (fill_buffer (CapFQDN h d)).
Proof.
  intros buf x b E. unfold fill_buffer in E. apply ebind_Ok_inv in E as (len & b0 & E0 & E). unfold elen in E0. assert (b0 = buf) as -> by congruence. clear E0.
  destruct (Nat.ltb len _); [discriminate|]. cbv zeta in E.
  apply ebind_Ok_inv in E as (u1 & b1 & E1 & E). apply ebind_Ok_inv in E as (u2 & b2 & E2 & E). apply ebind_Ok_inv in E as (u3 & b3 & E3 & E).
  apply ebind_Ok_inv in E as (u4 & b4 & E4 & E).
  rewrite (write_at_other _ _ _ _ _ _ E) by lia. rewrite (set_idx_other _ _ _ _ _ _ E4) by lia. rewrite (write_at_other _ _ _ _ _ _ E3) by lia.
  rewrite (set_idx_other _ _ _ _ _ _ E2) by lia. apply (set_idx_other _ _ _ _ _ _ E1). lia.
Qed.
Lemma fill_fqdn_len h d buf x b : fill_buffer (CapFQDN h d) buf = Ok (x, b) -> length b = length buf.
Proof.
  intros E. unfold fill_buffer in E. apply ebind_Ok_inv in E as (len & b0 & E0 & E). unfold elen in E0. assert (b0 = buf) as -> by congruence. clear E0.
  destruct (Nat.ltb len _); [discriminate|]. cbv zeta in E.
  apply ebind_Ok_inv in E as (u1 & b1 & E1 & E). apply ebind_Ok_inv in E as (u2 & b2 & E2 & E). apply ebind_Ok_inv in E as (u3 & b3 & E3 & E).
  apply ebind_Ok_inv in E as (u4 & b4 & E4 & E).
  assert (Hs : forall i v (y : unit) b0 c, set_idx i v b0 = Ok (y, c) -> length c = length b0).
  { intros i v y b0 c H. assert (F : fit i (set_idx i v) (fun _ _ => True)) by now apply fit_set_idx. now destruct (F _ _ _ H). }
  assert (Hw : forall i v (y : unit) b0 c, write_at i v b0 = Ok (y, c) -> length c = length b0).
  { intros i v y b0 c H. assert (F : fit i (write_at i v) (fun _ _ => True)) by now apply fit_write_at. now destruct (F _ _ _ H). }
  apply Hs in E1, E2, E4. apply Hw in E3, E. congruence.
Qed.
Lemma caps_below v : forall pos j buf n b, open_fill_caps v pos buf = Ok (n, b) -> (pos <= n)%nat /\ ((j < pos)%nat -> nth_error b j = nth_error buf j).
Proof.
  induction v as [|c v IH]; intros pos j buf n b E; cbn [open_fill_caps] in E.
  - unfold eret in E. assert (n = pos) as -> by congruence. assert (b = buf) as -> by congruence. split; [lia|reflexivity].
  - cbv zeta in E. apply ebind_Ok_inv in E as (u1 & b1 & E1 & E). apply ebind_Ok_inv in E as (u2 & b2 & E2 & E). apply ebind_Ok_inv in E as (u3 & b3 & E3 & E).
    apply IH with (j := j) in E as [H1 H2]. split; [lia|]. intros Hj. rewrite H2 by lia.
    rewrite (eslice_below _ _ _ _ _ _ _ E3) by lia. rewrite (set_idx_other _ _ _ _ _ _ E2) by lia. apply (set_idx_other _ _ _ _ _ _ E1). lia.
Qed.
Lemma caps_keeps v : ~ Forall cap_tidy v -> forall pos, exists j, (pos <= j)%nat /\ keeps j (open_fill_caps v pos) /\ forall buf n b, open_fill_caps v pos buf = Ok (n, b) -> (j < n)%nat.
Proof.
  induction v as [|c v IH]; intros Hv pos; [exfalso; now apply Hv|].
  assert (D : cap_tidy c \/ exists h d, c = CapFQDN h d) by (destruct c; cbn [cap_tidy]; eauto).
  destruct D as [Hc|(h & d & ->)].
  - destruct (IH ltac:(intros H; apply Hv; now constructor) (pos + (2 + bytes_len c))%nat) as (j & Hj & K & Hn). exists j. split; [lia|]. split.
    + intros buf n b E. cbn [open_fill_caps] in E. cbv zeta in E. apply ebind_Ok_inv in E as (u1 & b1 & E1 & E). apply ebind_Ok_inv in E as (u2 & b2 & E2 & E). apply ebind_Ok_inv in E as (u3 & b3 & E3 & E).
      rewrite (K _ _ _ E). erewrite (eslice_above _ _ _ (fun _ => True) _ _ _ _ _ E3) by lia.
      rewrite (set_idx_other _ _ _ _ _ _ E2) by lia. apply (set_idx_other _ _ _ _ _ _ E1). lia.
      Unshelve. replace (bytes_len c + pos + 2 - (pos + 2))%nat with (bytes_len c) by lia. now apply fitx_fill.
    + intros buf n b E. cbn [open_fill_caps] in E. cbv zeta in E. apply ebind_Ok_inv in E as (u1 & b1 & E1 & E). apply ebind_Ok_inv in E as (u2 & b2 & E2 & E). apply ebind_Ok_inv in E as (u3 & b3 & E3 & E).
      now apply Hn in E.
  - exists (pos + 2 + (2 + length h + length d))%nat. split; [lia|]. split.
    + intros buf n b E. cbn [open_fill_caps bytes_len] in E. cbv zeta in E. apply ebind_Ok_inv in E as (u1 & b1 & E1 & E). apply ebind_Ok_inv in E as (u2 & b2 & E2 & E). apply ebind_Ok_inv in E as (u3 & b3 & E3 & E).
      apply caps_below with (j := (pos + 2 + (2 + length h + length d))%nat) in E as [_ H]. rewrite H by lia.
      assert (L : length b3 = length b2).
      { clear - E3. unfold on_eslice in E3. destruct (Nat.leb _ _ && Nat.leb _ _)%bool eqn:Hc; [|discriminate].
        apply andb_prop in Hc as [H1 H2]. apply Nat.leb_le in H1, H2. destruct (fill_buffer _ _) as [[y c]| | |] eqn:Ee; try discriminate.
        apply fill_fqdn_len in Ee. assert (Eb : b3 = firstn (pos + 2) b2 ++ c ++ skipn (4 + length h + length d + pos + 2) b2) by congruence. subst b3.
        rewrite !app_length, firstn_length, skipn_length, Ee. unfold sub. rewrite firstn_length, skipn_length. lia. }
      rewrite (eslice_in _ _ _ _ _ _ _ (fill_fqdn h d) E3 L) by lia.
      rewrite (set_idx_other _ _ _ _ _ _ E2) by lia. apply (set_idx_other _ _ _ _ _ _ E1). lia.
    + intros buf n b E. cbn [open_fill_caps bytes_len] in E. cbv zeta in E. apply ebind_Ok_inv in E as (u1 & b1 & E1 & E). apply ebind_Ok_inv in E as (u2 & b2 & E2 & E). apply ebind_Ok_inv in E as (u3 & b3 & E3 & E).
      apply caps_below with (j := 0%nat) in E as [H _]. lia.
Qed.
Lemma C104_fqdn_l m : ~ open_tidy m -> (exists buf x, open_encode m buf = Ok x) -> ~ settled (open_encode m).
Proof.
  intros Ht (buf & [n b] & E). destruct (caps_keeps _ Ht 10) as (j & Hj & K & Hn).
  assert (G : forall buf n b, open_encode m buf = Ok (n, b) -> nth_error b j = nth_error buf j /\ (j < n)%nat).
  { clear - Hj K Hn. intros buf n b E. unfold open_encode in E. apply ebind_Ok_inv in E as (len & b0 & E0 & E). unfold elen in E0. assert (b0 = buf) as -> by congruence.
    destruct (Nat.ltb len 10); [discriminate|].
    apply ebind_Ok_inv in E as (u0 & b1 & E1 & E). apply ebind_Ok_inv in E as (u2 & b2 & E2 & E). apply ebind_Ok_inv in E as (u3 & b3 & E3 & E).
    apply ebind_Ok_inv in E as (u4 & b4 & E4 & E). apply ebind_Ok_inv in E as (u5 & b5 & E5 & E). apply ebind_Ok_inv in E as (u6 & b6 & E6 & E).
    split; [|now apply Hn in E]. rewrite (K _ _ _ E). rewrite (set_idx_other _ _ _ _ _ _ E6) by lia.
    rewrite (write_at_other _ _ _ _ _ _ E5) by (unfold octets4; rewrite length_be_bytes; lia). rewrite (write_at_other _ _ _ _ _ _ E4) by (cbn [le16_bytes length]; lia).
    rewrite (write_at_other _ _ _ _ _ _ E3) by (cbn [le16_bytes length]; lia). rewrite (set_idx_other _ _ _ _ _ _ E2) by lia.
    unfold on_eslice, eret in E1. destruct (_ && _)%bool eqn:Hc in E1; [|discriminate]. apply andb_prop in Hc as [H1 H2]. apply Nat.leb_le in H1, H2.
    assert (b1 = firstn 1 buf ++ sub buf 1 len ++ skipn len buf) as -> by congruence. f_equal. unfold sub.
    replace (skipn len buf) with (skipn (len - 1) (skipn 1 buf)) by (rewrite skipn_skipn'; f_equal; lia). now rewrite firstn_skipn, firstn_skipn. }
  apply (not_settled_keeps _ j).
  - intros b0 k b1 H. now apply G in H.
  - exists buf, n, b. split; [exact E|now apply G in E].
Qed.
