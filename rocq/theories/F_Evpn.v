(** Proofs about EVPN routes. *)
From Verif Require Import Base BaseFacts M_Util S_Wire F_Util M_Prefix S_Prefix M_Nlri S_Nlri F_Nlri M_Session M_Vpls M_Cap F_Cap F_Lay
  M_Mvpn S_Mvpn F_Mvpn F_Vpls M_Evpn S_Evpn.
Ltac Zify.zify_post_hook ::= idtac.

Lemma u32_at_seg ss i a b x : nth_error ss i = Some (be_bytes 4 x) -> x < 2 ^ 32 ->
  length (concat (firstn i ss)) = a -> (a + 4)%nat = b -> u32_at (concat ss) a b = Ok x.
Proof.
  intros H Hx Ha Hb. unfold u32_at. rewrite (rslice_seg ss i a b (be_bytes 4 x)) by (auto; now rewrite length_be_bytes).
  rewrite bind_ok. now apply getn_u32_exact.
Qed.
Lemma from_seg {A} (ss : list (list A)) i a s : nth_error ss i = Some s ->
  length (concat (firstn i ss)) = a -> exists r, rfrom (concat ss) a = Ok (s ++ r).
Proof.
  intros H Ha. rewrite (rfrom_seg ss i a Ha). clear Ha. revert i H. induction ss as [|x ss IH]; intros [|i] H; try discriminate.
  - injection H as ->. cbn [skipn concat]. eauto.
  - cbn [skipn]. apply (IH i H).
Qed.
Lemma v4_at_seg ss i a x : nth_error ss i = Some (be_bytes 4 x) -> x < 2 ^ 32 ->
  length (concat (firstn i ss)) = a -> v4_at (concat ss) a = Ok (IPv4 x).
Proof.
  intros H Hx Ha. destruct (from_seg ss i a _ H Ha) as (r & E). unfold v4_at. rewrite E, bind_ok.
  now rewrite decode_addrv4_be.
Qed.
Lemma v6_at_seg ss i a x : nth_error ss i = Some (be_bytes 16 x) -> x < 2 ^ 128 ->
  length (concat (firstn i ss)) = a -> v6_at (concat ss) a = Ok (IPv6 x).
Proof.
  intros H Hx Ha. destruct (from_seg ss i a _ H Ha) as (r & E). unfold v6_at. rewrite E, bind_ok.
  now rewrite decode_addrv6_be.
Qed.
Lemma esi_read_app t e r : length e = 9%nat -> esi_read ([t] ++ e ++ r) = Ok (t, e).
Proof.
  intros H. unfold esi_read. cbn [app]. rewrite idx_0, bind_ok.
  rewrite rslice_ok by (cbn [length]; rewrite ?app_length; lia).
  rewrite bind_ok. do 2 f_equal. unfold sub. cbn [skipn Nat.sub]. rewrite <- H. rewrite firstn_app, Nat.sub_diag, firstn_all, firstn_O. apply app_nil_r.
Qed.
Lemma labels_at_seg oc ss i p ls : ev_stack_wf ls -> concat (skipn i ss) = stack_wire ls ->
  length (concat (firstn i ss)) = p -> labels_at oc (concat ss) p = Ok (ls, (3 * length ls)%nat).
Proof.
  intros (H & Hl) E Hp. unfold labels_at.
  assert (EC : concat ss = concat (firstn i ss) ++ stack_wire ls) by (rewrite <- E, <- concat_app; now rewrite firstn_skipn).
  assert (L : length (concat ss) = (p + 3 * length ls)%nat) by (rewrite EC, app_length, length_stack; lia).
  destruct (Nat.ltb_spec (length (concat ss)) p); [lia|].
  rewrite (rfrom_seg' ss i p _ Hp E), bind_ok. rewrite L.
  replace (p + 3 * length ls - p)%nat with (3 * length ls)%nat by lia.
  replace (cast 8 _) with (24 * N.of_nat (length ls)) by (unfold cast; rewrite N.mod_small; change (2 ^ 8) with 256; lia).
  destruct H as [-> |H].
  - reflexivity.
  - rewrite <- (app_nil_r (stack_wire ls)). apply labels_extract_wire; auto; lia.
Qed.

Ltac laid2 := cbn [skipn]; laid.
Ltac layout dec ss := match goal with |- dec ?w = _ => replace w with (concat ss) by laid end.

Lemma evpn1_dec oc r : ev_wf (Ev1 r) -> evpn1_decode oc (ev_body (Ev1 r)) = Ok (r, length (ev_body (Ev1 r))).
Proof.
  destruct r as [rd et e tag ls]. cbn [ev_wf ev_body ev1_rd ev1_esi_type ev1_esi ev1_tag ev1_labels].
  intros (Hr & (Ht & He & _) & Htag & Hs).
  layout (evpn1_decode oc) [rd_wire rd; [et] ++ e; be_bytes 4 tag; stack_wire ls].
  unfold evpn1_decode. rewrite decode_rd_seg, bind_ok by auto.
  rewrite (rfrom_seg' _ 1 8 ([et] ++ e ++ be_bytes 4 tag ++ stack_wire ls)); [|lens|laid2].
  rewrite bind_ok, esi_read_app, bind_ok by auto.
  rewrite (u32_at_seg _ 2 (8 + 10) (8 + 14) tag); [|reflexivity|auto|len_simpl; lia|lia]. rewrite bind_ok.
  rewrite (labels_at_seg oc _ 3 (8 + 14) ls); [|auto|cbn [skipn concat]; apply app_nil_r|len_simpl; lia]. rewrite bind_ok.
  do 2 f_equal. len_simpl. lia.
Qed.
Definition opt_ip (o : option ipaddr) : list N := match o with None => [0] | Some a => lip a end.
Lemma evpn2_dec oc r : ev_wf (Ev2 r) -> evpn2_decode oc (ev_body (Ev2 r)) = Ok (r, length (ev_body (Ev2 r))).
Proof.
  destruct r as [rd et e tag mc ip ls]. cbn [ev_wf ev_body ev2_rd ev2_esi_type ev2_esi ev2_tag ev2_labels ev2_mac ev2_ip].
  intros (Hr & (Ht & He & _) & Htag & (Hm & _) & Hi & Hs).
  do 7 (destruct mc as [|? mc]; try discriminate Hm). clear Hm. cbn [rev app].
  assert (M : forall a b c d e f, mac_from_network_bytes [f;e;d;c;b;a] = Ok [a;b;c;d;e;f]) by reflexivity.
  destruct ip as [[a|a]|].
  - cbn [ip_wf] in Hi.
    layout (evpn2_decode oc) [rd_wire rd; [et] ++ e; be_bytes 4 tag; [48]; [n4;n3;n2;n1;n0;n]; [32]; be_bytes 4 a; stack_wire ls].
    unfold evpn2_decode. rewrite decode_rd_seg, bind_ok by auto.
    rewrite (rfrom_seg' _ 1 8 ([et] ++ e ++ be_bytes 4 tag ++ [48] ++ [n4;n3;n2;n1;n0;n] ++ [32] ++ be_bytes 4 a ++ stack_wire ls)); [|lens|laid2].
    rewrite bind_ok, esi_read_app, bind_ok by auto.
    rewrite (u32_at_seg _ 2 (8 + 10) (8 + 14) tag); [|reflexivity|auto|len_simpl; lia|lia]. rewrite bind_ok.
    rewrite (idx_seg _ 3 (8 + 14) 48); [|reflexivity|len_simpl; lia]. rewrite bind_ok. change (negb (48 =? 48)) with false. cbn iota.
    rewrite (rslice_seg _ 4 (8 + 15) (8 + 21) [n4;n3;n2;n1;n0;n]); [|reflexivity|len_simpl; lia|reflexivity]. rewrite bind_ok.
    rewrite M, bind_ok. rewrite (idx_seg _ 5 (8 + 21) 32); [|reflexivity|len_simpl; lia]. rewrite bind_ok.
    change (32 =? 0) with false. change (32 =? 32) with true. cbn iota.
    rewrite (v4_at_seg _ 6 (8 + 22) a); [|reflexivity|auto|len_simpl; lia]. rewrite !bind_ok. cbn beta iota.
    rewrite (labels_at_seg oc _ 7 (8 + 26) ls); [|auto|cbn [skipn concat]; apply app_nil_r|len_simpl; lia]. rewrite bind_ok.
    do 2 f_equal. len_simpl. lia.
  - cbn [ip_wf] in Hi.
    layout (evpn2_decode oc) [rd_wire rd; [et] ++ e; be_bytes 4 tag; [48]; [n4;n3;n2;n1;n0;n]; [128]; be_bytes 16 a; stack_wire ls].
    unfold evpn2_decode. rewrite decode_rd_seg, bind_ok by auto.
    rewrite (rfrom_seg' _ 1 8 ([et] ++ e ++ be_bytes 4 tag ++ [48] ++ [n4;n3;n2;n1;n0;n] ++ [128] ++ be_bytes 16 a ++ stack_wire ls)); [|lens|laid2].
    rewrite bind_ok, esi_read_app, bind_ok by auto.
    rewrite (u32_at_seg _ 2 (8 + 10) (8 + 14) tag); [|reflexivity|auto|len_simpl; lia|lia]. rewrite bind_ok.
    rewrite (idx_seg _ 3 (8 + 14) 48); [|reflexivity|len_simpl; lia]. rewrite bind_ok. change (negb (48 =? 48)) with false. cbn iota.
    rewrite (rslice_seg _ 4 (8 + 15) (8 + 21) [n4;n3;n2;n1;n0;n]); [|reflexivity|len_simpl; lia|reflexivity]. rewrite bind_ok.
    rewrite M, bind_ok. rewrite (idx_seg _ 5 (8 + 21) 128); [|reflexivity|len_simpl; lia]. rewrite bind_ok.
    change (128 =? 0) with false. change (128 =? 32) with false. change (128 =? 128) with true. cbn iota.
    rewrite (v6_at_seg _ 6 (8 + 22) a); [|reflexivity|auto|len_simpl; lia]. rewrite !bind_ok. cbn beta iota.
    rewrite (labels_at_seg oc _ 7 (8 + 38) ls); [|auto|cbn [skipn concat]; apply app_nil_r|len_simpl; lia]. rewrite bind_ok.
    do 2 f_equal. len_simpl. lia.
  - layout (evpn2_decode oc) [rd_wire rd; [et] ++ e; be_bytes 4 tag; [48]; [n4;n3;n2;n1;n0;n]; [0]; stack_wire ls].
    unfold evpn2_decode. rewrite decode_rd_seg, bind_ok by auto.
    rewrite (rfrom_seg' _ 1 8 ([et] ++ e ++ be_bytes 4 tag ++ [48] ++ [n4;n3;n2;n1;n0;n] ++ [0] ++ stack_wire ls)); [|lens|laid2].
    rewrite bind_ok, esi_read_app, bind_ok by auto.
    rewrite (u32_at_seg _ 2 (8 + 10) (8 + 14) tag); [|reflexivity|auto|len_simpl; lia|lia]. rewrite bind_ok.
    rewrite (idx_seg _ 3 (8 + 14) 48); [|reflexivity|len_simpl; lia]. rewrite bind_ok. change (negb (48 =? 48)) with false. cbn iota.
    rewrite (rslice_seg _ 4 (8 + 15) (8 + 21) [n4;n3;n2;n1;n0;n]); [|reflexivity|len_simpl; lia|reflexivity]. rewrite bind_ok.
    rewrite M, bind_ok. rewrite (idx_seg _ 5 (8 + 21) 0); [|reflexivity|len_simpl; lia]. rewrite bind_ok.
    change (0 =? 0) with true. cbn iota. rewrite !bind_ok. cbn beta iota.
    rewrite (labels_at_seg oc _ 6 (8 + 22) ls); [|auto|cbn [skipn concat]; apply app_nil_r|len_simpl; lia]. rewrite bind_ok.
    do 2 f_equal. len_simpl. lia.
Qed.
Lemma evpn3_dec r : ev_wf (Ev3 r) -> evpn3_decode (ev_body (Ev3 r)) = Ok (r, length (ev_body (Ev3 r))).
Proof.
  destruct r as [rd tag ip]. cbn [ev_wf ev_body ev3_rd ev3_tag ev3_ip].
  intros (Hr & Htag & Hi). destruct ip as [a|a]; cbn [ip_wf] in Hi.
  - layout evpn3_decode [rd_wire rd; be_bytes 4 tag; [32]; be_bytes 4 a].
    unfold evpn3_decode. rewrite decode_rd_seg, bind_ok by auto.
    rewrite (u32_at_seg _ 1 8 (8 + 4) tag); [|reflexivity|auto|len_simpl; lia|lia]. rewrite bind_ok.
    rewrite (idx_seg _ 2 (8 + 4) 32); [|reflexivity|len_simpl; lia]. rewrite bind_ok. change (32 =? 32) with true. cbn iota.
    rewrite (v4_at_seg _ 3 (8 + 5) a); [|reflexivity|auto|len_simpl; lia]. rewrite bind_ok. do 2 f_equal; len_simpl; try lia; reflexivity.
  - layout evpn3_decode [rd_wire rd; be_bytes 4 tag; [128]; be_bytes 16 a].
    unfold evpn3_decode. rewrite decode_rd_seg, bind_ok by auto.
    rewrite (u32_at_seg _ 1 8 (8 + 4) tag); [|reflexivity|auto|len_simpl; lia|lia]. rewrite bind_ok.
    rewrite (idx_seg _ 2 (8 + 4) 128); [|reflexivity|len_simpl; lia]. rewrite bind_ok. change (128 =? 32) with false. change (128 =? 128) with true. cbn iota.
    rewrite (v6_at_seg _ 3 (8 + 5) a); [|reflexivity|auto|len_simpl; lia]. rewrite bind_ok. do 2 f_equal; len_simpl; try lia; reflexivity.
Qed.
Lemma evpn4_dec r : ev_wf (Ev4 r) -> evpn4_decode (ev_body (Ev4 r)) = Ok (r, length (ev_body (Ev4 r))).
Proof.
  destruct r as [rd et e ip]. cbn [ev_wf ev_body ev4_rd ev4_esi_type ev4_esi ev4_ip].
  intros (Hr & (Ht & He & _) & Hi). destruct ip as [a|a]; cbn [ip_wf] in Hi.
  - layout evpn4_decode [rd_wire rd; [et] ++ e; [32]; be_bytes 4 a].
    unfold evpn4_decode. rewrite decode_rd_seg, bind_ok by auto.
    rewrite (rfrom_seg' _ 1 8 ([et] ++ e ++ [32] ++ be_bytes 4 a)); [|lens|laid2].
    rewrite bind_ok, esi_read_app, bind_ok by auto.
    rewrite (idx_seg _ 2 (8 + 10) 32); [|reflexivity|len_simpl; lia]. rewrite bind_ok. change (32 =? 32) with true. cbn iota.
    rewrite (v4_at_seg _ 3 (8 + 11) a); [|reflexivity|auto|len_simpl; lia]. rewrite bind_ok. do 2 f_equal; len_simpl; try lia; reflexivity.
  - layout evpn4_decode [rd_wire rd; [et] ++ e; [128]; be_bytes 16 a].
    unfold evpn4_decode. rewrite decode_rd_seg, bind_ok by auto.
    rewrite (rfrom_seg' _ 1 8 ([et] ++ e ++ [128] ++ be_bytes 16 a)); [|lens|laid2].
    rewrite bind_ok, esi_read_app, bind_ok by auto.
    rewrite (idx_seg _ 2 (8 + 10) 128); [|reflexivity|len_simpl; lia]. rewrite bind_ok. change (128 =? 32) with false. change (128 =? 128) with true. cbn iota.
    rewrite (v6_at_seg _ 3 (8 + 11) a); [|reflexivity|auto|len_simpl; lia]. rewrite bind_ok. do 2 f_equal; len_simpl; try lia; reflexivity.
Qed.
Lemma evpn5_dec oc r : ev_wf (Ev5 r) -> ev5_ok (Ev5 r) -> evpn5_decode oc (ev_body (Ev5 r)) = Ok (r, length (ev_body (Ev5 r))).
Proof.
  destruct r as [rd et e tag len pf gw ls]. cbn [ev_wf ev_body ev5_rd ev5_esi_type ev5_esi ev5_tag ev5_labels ev5_len ev5_prefix ev5_gw ev5_ok].
  intros (Hr & (Ht & He & _) & Htag & Hlen & Hp & Hg & Hs) Hok.
  destruct pf as [a|]; [|contradiction]. destruct gw as [g|]; [|contradiction]. destruct ls as [|l [|]]; try contradiction.
  cbn [ip_wf ip_bytes] in *.
  layout (evpn5_decode oc) [rd_wire rd; [et] ++ e; be_bytes 4 tag; [len]; be_bytes 4 a; be_bytes 4 g; stack_wire [l]].
  unfold evpn5_decode. rewrite decode_rd_seg, bind_ok by auto.
  rewrite (rfrom_seg' _ 1 8 ([et] ++ e ++ be_bytes 4 tag ++ [len] ++ be_bytes 4 a ++ be_bytes 4 g ++ stack_wire [l])); [|lens|laid2].
  rewrite bind_ok, esi_read_app, bind_ok by auto.
  rewrite (rfrom_seg' _ 2 (8 + 10) (be_bytes 4 tag ++ [len] ++ be_bytes 4 a ++ be_bytes 4 g ++ stack_wire [l])); [|len_simpl; lia|laid2]. rewrite bind_ok.
  rewrite getn_u32_be, bind_ok by auto.
  rewrite (idx_seg _ 3 (8 + 14) len); [|reflexivity|len_simpl; lia]. rewrite bind_ok.
  replace (Nat.eqb _ 34) with true by (symmetry; apply Nat.eqb_eq; len_simpl; lia).
  rewrite (v4_at_seg _ 4 (8 + 15) a); [|reflexivity|auto|len_simpl; lia]. rewrite bind_ok.
  rewrite (v4_at_seg _ 5 (8 + 19) g); [|reflexivity|auto|len_simpl; lia]. rewrite !bind_ok. cbn beta iota.
  rewrite (labels_at_seg oc _ 6 (8 + 23) [l]); [|auto|cbn [skipn concat]; apply app_nil_r|len_simpl; lia]. rewrite bind_ok.
  do 2 f_equal. len_simpl. lia.
Qed.

(** ** encoding *)
Lemma writes_esi pos t e : length e = 9%nat -> writes_at pos (esi_write pos t e) ([t] ++ e) tt.
Proof.
  intros H. unfold esi_write. rewrite H. cbn [Nat.eqb].
  eapply writes_next; [apply writes_at_set_idx|reflexivity|]. apply writes_at_write_at.
Qed.
Lemma writes_ip lim pos a : writes_at pos (ip_write lim pos a) (lip a) (pos + length (lip a))%nat.
Proof.
  destruct a as [a|a]; unfold ip_write, lip; cbn [ip_bits ip_bytes length]; rewrite length_be_bytes.
  - change (32 :: be_bytes 4 a) with ([32] ++ be_bytes 4 a). rewrite <- (app_nil_r (be_bytes 4 a)).
    eapply writes_next; [apply writes_at_set_idx|reflexivity|].
    eapply writes_next; [|reflexivity|apply writes_ret_nil; lia]. cbn [length].
    destruct lim; [apply writes_on_slice; [rewrite length_be_bytes; lia|lia|apply writes_encode_addrv4]|apply writes_on_from, writes_encode_addrv4].
  - change (128 :: be_bytes 16 a) with ([128] ++ be_bytes 16 a). rewrite <- (app_nil_r (be_bytes 16 a)).
    eapply writes_next; [apply writes_at_set_idx|reflexivity|].
    eapply writes_next; [|reflexivity|apply writes_ret_nil; lia]. cbn [length].
    destruct lim; [apply writes_on_slice; [rewrite length_be_bytes; lia|lia|apply writes_encode_addrv6]|apply writes_on_from, writes_encode_addrv6].
Qed.
Lemma writes_tag pos x : writes_at pos (on_slice pos (pos + 4) (setn_u32 x)) (be_bytes 4 x) tt.
Proof. apply writes_on_slice; [rewrite length_be_bytes; lia|lia|apply writes_setn_u32]. Qed.
Lemma writes_labels_end pos ls :
  writes_at pos ('(_, n) <~ on_from pos (labels_set ls) ;; eret (pos + n)%nat) (stack_wire ls) (pos + length (stack_wire ls))%nat.
Proof.
  rewrite <- (app_nil_r (stack_wire ls)) at 1. eapply writes_next; [apply writes_on_from, writes_labels_set|reflexivity|].
  apply writes_ret_nil. now rewrite length_stack.
Qed.
Lemma writes_mac pos m : length m = 6%nat ->
  writes_at pos (on_slice pos (pos + 6) (mac_write_to_network_bytes m)) (rev m) tt.
Proof.
  intros H buf Hb. rewrite rev_length, H in Hb. unfold on_slice.
  replace (Nat.leb pos (pos + 6)) with true by (symmetry; apply Nat.leb_le; lia).
  replace (Nat.leb (pos + 6) (length buf)) with true by (symmetry; apply Nat.leb_le; lia). cbn [andb].
  unfold mac_write_to_network_bytes, ebind, elen.
  assert (L : length (sub buf pos (pos + 6)) = 6%nat) by (unfold sub; rewrite firstn_length, skipn_length; lia).
  rewrite L. cbn [Nat.eqb]. rewrite writes_at_write_at by (rewrite rev_length, H, L; lia).
  rewrite splice_full by (rewrite rev_length, L, H; reflexivity).
  unfold splice. rewrite rev_length, H. reflexivity.
Qed.
Lemma writes_arm c (e : Enc nat) bs : writes e bs (length bs) -> (length bs < 256)%nat ->
  writes (pos <~ (set_idx 0 c ;;; on_from 2 e) ;; (if Nat.leb pos 255 then set_idx 1 (N.of_nat pos) else eerr ETooMany) ;;; eret (pos + 2)%nat)
    (c :: N.of_nat (length bs) :: bs) (2 + length bs)%nat.
Proof.
  intros H Hl buf Hb. cbn [length] in Hb. destruct buf as [|b0 [|b1 t]]; cbn [length] in Hb; try lia.
  unfold ebind. rewrite set_idx_0. unfold on_from. cbn [length Nat.leb skipn firstn].
  rewrite H by lia. cbn [app]. destruct (Nat.leb_spec (length bs) 255); [|lia].
  rewrite set_idx_1. unfold eret. unfold splice. cbn [length firstn app plus skipn].
  do 2 f_equal. lia.
Qed.
Lemma writes_add {A} p p' (e : Enc A) bs a : writes_at p' e bs a -> p = p' -> writes_at p e bs a.
Proof. now intros H ->. Qed.
Ltac ln := len_simpl; rewrite ?rev_length; lia.
Lemma writes_ev1 r : length (ev1_esi r) = 9%nat -> writes (evpn1_encode r) (ev_body (Ev1 r)) (length (ev_body (Ev1 r))).
Proof.
  destruct r as [rd et e tag ls]. cbn [ev_body ev1_rd ev1_esi_type ev1_esi ev1_tag ev1_labels]. intros He.
  unfold evpn1_encode. cbn [ev1_rd ev1_esi_type ev1_esi ev1_tag ev1_labels].
  eapply writes_next; [apply writes_encode_rd|rewrite length_rd_wire; reflexivity|].
  rewrite app_assoc. eapply writes_next; [now apply writes_esi|reflexivity|].
  eapply writes_next; [eapply writes_add; [apply (writes_tag (8 + 10))|ln]|reflexivity|].
  eapply writes_at_eq; [apply (writes_labels_end (8 + 14))| |reflexivity|]; ln.
Qed.
Lemma writes_ev2 r : length (ev2_esi r) = 9%nat -> length (ev2_mac r) = 6%nat -> writes (evpn2_encode r) (ev_body (Ev2 r)) (length (ev_body (Ev2 r))).
Proof.
  destruct r as [rd et e tag mc ip ls]. cbn [ev_body ev2_rd ev2_esi_type ev2_esi ev2_tag ev2_labels ev2_mac ev2_ip]. intros He Hm.
  unfold evpn2_encode. cbn [ev2_rd ev2_esi_type ev2_esi ev2_tag ev2_labels ev2_mac ev2_ip].
  assert (LI : (1 <= length (opt_ip ip))%nat) by (destruct ip as [[]|]; cbn; lia).
  eapply writes_next; [apply writes_encode_rd|rewrite length_rd_wire; reflexivity|].
  rewrite app_assoc. eapply writes_next; [now apply writes_esi|reflexivity|].
  eapply writes_next; [eapply writes_add; [apply (writes_tag (8 + 10))|ln]|reflexivity|].
  eapply writes_next; [eapply writes_add; [apply (writes_at_set_idx (8 + 14))|ln]|reflexivity|].
  eapply writes_next; [eapply writes_add; [apply (writes_mac (8 + 15)); auto|ln]|reflexivity|].
  eapply (writes_next _ _ _ (opt_ip ip) (stack_wire ls) (8 + 21 + length (opt_ip ip))%nat).
  - destruct ip as [a|].
    + eapply writes_add; [apply (writes_ip true (8 + 21))|ln].
    + unfold opt_ip. rewrite <- (app_nil_r [0]) at 1. eapply writes_next; [eapply writes_add; [apply (writes_at_set_idx (8 + 21))|ln]|reflexivity|apply writes_ret_nil; reflexivity].
  - reflexivity.
  - eapply writes_at_eq; [apply (writes_labels_end (8 + 21 + length (opt_ip ip)))| |reflexivity|];
    change (match ip with Some a => lip a | None => [0] end) with (opt_ip ip); ln.
Qed.
Lemma writes_ev3 r : writes (evpn3_encode r) (ev_body (Ev3 r)) (length (ev_body (Ev3 r))).
Proof.
  destruct r as [rd tag ip]. cbn [ev_body ev3_rd ev3_tag ev3_ip].
  unfold evpn3_encode. cbn [ev3_rd ev3_tag ev3_ip].
  eapply writes_next; [apply writes_encode_rd|rewrite length_rd_wire; reflexivity|].
  eapply writes_next; [eapply writes_add; [apply (writes_tag 8)|ln]|reflexivity|].
  eapply writes_at_eq; [apply (writes_ip false (8 + 4))| |reflexivity|]; ln.
Qed.
Lemma writes_ev4 r : length (ev4_esi r) = 9%nat -> writes (evpn4_encode r) (ev_body (Ev4 r)) (length (ev_body (Ev4 r))).
Proof.
  destruct r as [rd et e ip]. cbn [ev_body ev4_rd ev4_esi_type ev4_esi ev4_ip]. intros He.
  unfold evpn4_encode. cbn [ev4_rd ev4_esi_type ev4_esi ev4_ip].
  eapply writes_next; [apply writes_encode_rd|rewrite length_rd_wire; reflexivity|].
  rewrite app_assoc. eapply writes_next; [now apply writes_esi|reflexivity|].
  eapply writes_at_eq; [apply (writes_ip false (8 + 10))| |reflexivity|]; ln.
Qed.
Lemma writes_ev5 r a g : length (ev5_esi r) = 9%nat -> ev5_prefix r = IPv4 a -> ev5_gw r = IPv4 g ->
  writes (evpn5_encode r) (ev_body (Ev5 r)) (length (ev_body (Ev5 r))).
Proof.
  destruct r as [rd et e tag len pf gw ls]. cbn [ev_body ev5_rd ev5_esi_type ev5_esi ev5_tag ev5_labels ev5_len ev5_prefix ev5_gw].
  intros He -> ->. unfold evpn5_encode. cbn [ev5_rd ev5_esi_type ev5_esi ev5_tag ev5_labels ev5_len ev5_prefix ev5_gw ip_bytes].
  eapply writes_next; [apply writes_encode_rd|rewrite length_rd_wire; reflexivity|].
  rewrite app_assoc. eapply writes_next; [now apply writes_esi|reflexivity|].
  eapply writes_next; [eapply writes_add; [apply (writes_tag (8 + 10))|ln]|reflexivity|].
  eapply writes_next; [eapply writes_add; [apply (writes_at_set_idx (8 + 14))|ln]|reflexivity|].
  rewrite app_assoc.
  eapply (writes_next _ _ _ (be_bytes 4 a ++ be_bytes 4 g) (stack_wire ls) (8 + 23)%nat).
  - eapply writes_next; [eapply writes_add; [apply (writes_on_from (8 + 15)), writes_encode_addrv4|ln]|reflexivity|].
    rewrite <- (app_nil_r (be_bytes 4 g)).
    eapply writes_next; [eapply writes_add; [apply (writes_on_from (8 + 19)), writes_encode_addrv4|ln]|reflexivity|].
    apply writes_ret_nil. reflexivity.
  - reflexivity.
  - eapply writes_at_eq; [apply (writes_labels_end (8 + 23))| |reflexivity|]; ln.
Qed.

(** ** round trip *)
Lemma evpn_arm_wire {T} (dec : list N -> res (T * nat)) wrap c k body rest :
  evpn_arm dec wrap (c :: k :: body ++ rest) (length body) =
  ('(r, n) <- dec body ;; Ok (wrap r, (n + 2)%nat)).
Proof.
  unfold evpn_arm. rewrite rslice_ok by (cbn [length]; rewrite ?app_length; lia).
  unfold sub. cbn [skipn]. replace (2 + length body - 2)%nat with (length body) by lia.
  rewrite firstn_app, Nat.sub_diag, firstn_all. cbn [firstn]. rewrite app_nil_r. reflexivity.
Qed.
Lemma evpn_decode_wire oc r rest body :
  evpn_decode oc (ev_code r :: N.of_nat (length body) :: body ++ rest) =
  match r with
  | Ev1 _ => '(r, n) <- evpn1_decode oc body ;; Ok (Ev1 r, (n + 2)%nat)
  | Ev2 _ => '(r, n) <- evpn2_decode oc body ;; Ok (Ev2 r, (n + 2)%nat)
  | Ev3 _ => '(r, n) <- evpn3_decode body ;; Ok (Ev3 r, (n + 2)%nat)
  | Ev4 _ => '(r, n) <- evpn4_decode body ;; Ok (Ev4 r, (n + 2)%nat)
  | Ev5 _ => '(r, n) <- evpn5_decode oc body ;; Ok (Ev5 r, (n + 2)%nat)
  end.
Proof.
  unfold evpn_decode. rewrite idx_0, bind_ok, idx_1, bind_ok, Nnat.Nat2N.id.
  destruct (Nat.ltb_spec (length (ev_code r :: N.of_nat (length body) :: body ++ rest)) (length body + 2)) as [H|H];
    [cbn [length] in H; rewrite app_length in H; lia|].
  destruct r; cbn [ev_code N.eqb Pos.eqb]; now rewrite evpn_arm_wire.
Qed.
Lemma lip_len a : (length (lip a) <= 17)%nat.
Proof. unfold lip. cbn [length]. destruct (ip_bytes_len a); lia. Qed.
Lemma ev_body_len r : ev_wf r -> (length (ev_body r) < 256)%nat.
Proof.
  intros H. destruct r as [r|r|r|r|r]; cbn [ev_wf ev_body] in *.
  - destruct H as (_ & (_ & He & _) & _ & _ & Hl). len_simpl. lia.
  - destruct H as (_ & (_ & He & _) & _ & (Hm & _) & _ & _ & Hl).
    assert (length match ev2_ip r with Some a => lip a | None => [0%N] end <= 17)%nat by (destruct (ev2_ip r); [apply lip_len|cbn; lia]).
    len_simpl. rewrite rev_length. lia.
  - pose proof (lip_len (ev3_ip r)). len_simpl. lia.
  - destruct H as (_ & (_ & He & _) & _). pose proof (lip_len (ev4_ip r)). len_simpl. lia.
  - destruct H as (_ & (_ & He & _) & _ & _ & _ & _ & _ & Hl).
    pose proof (ip_bytes_len (ev5_prefix r)). pose proof (ip_bytes_len (ev5_gw r)). len_simpl. lia.
Qed.
Lemma evpn_encode_wire r : ev_wf r -> ev5_ok r -> writes (evpn_encode r) (ev_wire r) (length (ev_wire r)).
Proof.
  intros H H5. pose proof (ev_body_len r H) as L. unfold ev_wire.
  destruct r as [r|r|r|r|r]; unfold evpn_encode; apply writes_arm; auto; cbn [ev_wf] in H.
  - apply writes_ev1. apply H.
  - apply writes_ev2; apply H.
  - apply writes_ev3.
  - apply writes_ev4. apply H.
  - destruct r as [rd et e tag len pf gw ls]. cbn [ev5_ok] in H5. destruct pf as [a|]; [|contradiction]. destruct gw as [g|]; [|contradiction].
    apply (writes_ev5 _ a g); [apply H|reflexivity|reflexivity].
Qed.
Lemma evpn_decode_ok oc r rest : ev_wf r -> ev5_ok r -> evpn_decode oc (ev_wire r ++ rest) = Ok (r, length (ev_wire r)).
Proof.
  intros H H5. unfold ev_wire. cbn [app]. rewrite evpn_decode_wire.
  destruct r as [r|r|r|r|r].
  - rewrite evpn1_dec, bind_ok by auto. do 2 f_equal; cbn [length]; lia.
  - rewrite evpn2_dec, bind_ok by auto. do 2 f_equal; cbn [length]; lia.
  - rewrite evpn3_dec, bind_ok by auto. do 2 f_equal; cbn [length]; lia.
  - rewrite evpn4_dec, bind_ok by auto. do 2 f_equal; cbn [length]; lia.
  - rewrite evpn5_dec, bind_ok by auto. do 2 f_equal; cbn [length]; lia.
Qed.
Lemma evpn_roundtrip oc r : ev_wf r -> ev5_ok r ->
  writes (evpn_encode r) (ev_wire r) (length (ev_wire r)) /\
  forall rest, evpn_decode oc (ev_wire r ++ rest) = Ok (r, length (ev_wire r)).
Proof. intros H H5. split; [now apply evpn_encode_wire|intros; now apply evpn_decode_ok]. Qed.
Lemma evpn_list oc v : Forall (fun r => ev_wf r /\ ev5_ok r) v ->
  writes (encode_bgpaddritems_to evpn_encode v) (flat_map ev_wire v) (length (flat_map ev_wire v)) /\
  decode_bgpaddritems_from (evpn_decode oc) (flat_map ev_wire v) = Ok (v, length (flat_map ev_wire v)).
Proof.
  intros H. rewrite Forall_forall in H. split.
  - apply writes_addritems. intros x Hx. now apply evpn_encode_wire; apply H.
  - rewrite (decode_addritems _ ev_wire (fun x => x)); [now rewrite map_id|..].
    + intros x rest Hx. now apply evpn_decode_ok; apply H.
    + intros. unfold ev_wire. cbn [length]. lia.
Qed.

(** ** refutations *)
Lemma labels_at_inv oc buf p ls n : bytes_ok buf -> labels_at oc buf p = Ok (ls, n) ->
  (p + 3 * length ls <= length buf)%nat /\ (oc = true -> (length ls <= 10)%nat).
Proof.
  unfold labels_at. intros Hb H. destruct (Nat.ltb_spec (length buf) p); [discriminate|].
  apply bind_Ok_inv in H as (s & E & H). apply rfrom_Ok_inv in E as (_ & ->).
  unfold labels_extract in H. apply labels_loop_inv in H as (-> & L & _ & H); [|now apply Forall_skipn|lia].
  rewrite skipn_length in L. split; [lia|]. intros Ho. destruct (H Ho) as (H1 & _).
  unfold cast in H1. pose proof (N.mod_lt (8 * N.of_nat (length buf - p)) (2 ^ 8) ltac:(discriminate)) as H2.
  change (2 ^ 8) with 256 in *. clear - H1 H2. lia.
Qed.
Definition ev_labels (r : evpn) : list N :=
  match r with Ev1 r => ev1_labels r | Ev2 r => ev2_labels r | Ev5 r => ev5_labels r | _ => [] end.
Lemma v4_at_inv buf p x : v4_at buf p = Ok x -> exists a, x = IPv4 a.
Proof. unfold v4_at. intros H. repeat binv H. injection H as <-. eauto. Qed.
Lemma evpn5_kind oc buf r n : evpn5_decode oc buf = Ok (r, n) -> exists a g, ev5_prefix r = IPv4 a /\ ev5_gw r = IPv4 g.
Proof.
  intros H. unfold evpn5_decode in H. apply bind_Ok_inv in H as ([rd p] & _ & H).
  binv H. apply bind_Ok_inv in H as ([et e] & _ & H). do 3 binv H. apply bind_Ok_inv in H as ([[pf gw] pos] & EA & H).
  apply bind_Ok_inv in H as ([ls k] & _ & H). injection H as <- _. cbn [ev5_prefix ev5_gw].
  destruct (Nat.eqb (length buf) 34); [|destruct (Nat.eqb (length buf) 58); [|discriminate]];
  apply bind_Ok_inv in EA as (? & EX & EA); apply bind_Ok_inv in EA as (? & EY & EA); injection EA as <- <- <-;
  apply v4_at_inv in EX as (a & ->); apply v4_at_inv in EY as (g & ->); eauto.
Qed.
Lemma evpn_kind oc buf r n : evpn_decode oc buf = Ok (Ev5 r, n) -> exists a g, ev5_prefix r = IPv4 a /\ ev5_gw r = IPv4 g.
Proof.
  intros H. unfold evpn_decode in H. do 2 binv H. destruct (Nat.ltb _ _); [discriminate|].
  destruct (x =? 1); [|destruct (x =? 2); [|destruct (x =? 3); [|destruct (x =? 4); [|destruct (x =? 5); [|discriminate]]]]];
  unfold evpn_arm in H; binv H; apply bind_Ok_inv in H as ([r' k] & D & H); try discriminate.
  injection H as -> _. now apply evpn5_kind in D.
Qed.
Lemma evpn5_inv oc buf r n : bytes_ok buf -> evpn5_decode oc buf = Ok (r, n) ->
  (exists a g, ev5_prefix r = IPv4 a /\ ev5_gw r = IPv4 g) /\
  (length buf = 34 \/ length buf = 58)%nat /\ (length (ev5_labels r) <= 1)%nat.
Proof.
  intros Hb H. unfold evpn5_decode in H. apply bind_Ok_inv in H as ([rd p] & E & H).
  assert (p = 8%nat).
  { unfold decode_rd_from in E. destruct (Nat.leb 8 (length buf)); [|discriminate]. repeat binv E. injection E as _ <-. reflexivity. }
  subst p. binv H. apply bind_Ok_inv in H as ([et e] & _ & H). do 3 binv H. apply bind_Ok_inv in H as ([[pf gw] pos] & EA & H).
  apply bind_Ok_inv in H as ([ls k] & EL & H). apply labels_at_inv in EL as (EL & _); auto.
  injection H as <- _. cbn [ev5_prefix ev5_gw ev5_labels].
  destruct (Nat.eqb_spec (length buf) 34) as [L|_].
  - apply bind_Ok_inv in EA as (? & EX & EA). apply bind_Ok_inv in EA as (? & EY & EA). injection EA as <- <- <-. apply v4_at_inv in EX as (a & ->). apply v4_at_inv in EY as (g & ->).
    split; [eauto|]. split; [now left|lia].
  - destruct (Nat.eqb_spec (length buf) 58) as [L|_]; [|discriminate].
    apply bind_Ok_inv in EA as (? & EX & EA). apply bind_Ok_inv in EA as (? & EY & EA). injection EA as <- <- <-. apply v4_at_inv in EX as (a & ->). apply v4_at_inv in EY as (g & ->).
    split; [eauto|]. split; [now right|lia].
Qed.
(** overflow checks on: no bytes decode to a route with more than ten labels *)
Lemma evpn_max_labels buf r n : bytes_ok buf -> evpn_decode true buf = Ok (r, n) -> (length (ev_labels r) <= 10)%nat.
Proof.
  intros Hb H. unfold evpn_decode in H. do 2 binv H. destruct (Nat.ltb _ _); [discriminate|].
  assert (HS : forall a b s, rslice buf a b = Ok s -> bytes_ok s).
  { intros a b s Hs. apply rslice_Ok_inv in Hs as (_ & _ & ->). apply Forall_firstn, Forall_skipn, Hb. }
  destruct (x =? 1); [|destruct (x =? 2); [|destruct (x =? 3); [|destruct (x =? 4); [|destruct (x =? 5); [|discriminate]]]]];
  unfold evpn_arm in H; binv H; apply HS in E1; apply bind_Ok_inv in H as ([r' k] & D & H); injection H as <- _; cbn [ev_labels length]; try lia.
  - unfold evpn1_decode in D. apply bind_Ok_inv in D as ([rd p] & _ & D). binv D. apply bind_Ok_inv in D as ([et e] & _ & D).
    binv D. apply bind_Ok_inv in D as ([ls q] & EL & D). injection D as <- _. apply labels_at_inv in EL as (_ & EL); [exact (EL eq_refl)|exact E1].
  - unfold evpn2_decode in D. apply bind_Ok_inv in D as ([rd p] & _ & D). binv D. apply bind_Ok_inv in D as ([et e] & _ & D).
    do 2 binv D. destruct (negb _); [discriminate|]. do 3 binv D. apply bind_Ok_inv in D as ([ip sz] & _ & D).
    apply bind_Ok_inv in D as ([ls q] & EL & D). injection D as <- _. apply labels_at_inv in EL as (_ & EL); [exact (EL eq_refl)|exact E1].
  - apply evpn5_inv in D as (_ & _ & D); auto. lia.
Qed.
Lemma bytes_ok_rd rd : bytes_ok (rd_wire rd).
Proof. apply bytes_ok_app; apply be_bytes_ok. Qed.
Lemma bytes_ok_ip a : bytes_ok (ip_bytes a).
Proof. destruct a; apply be_bytes_ok. Qed.
Lemma bytes_ok_ev5 r : ev_wf (Ev5 r) -> bytes_ok (ev_body (Ev5 r)).
Proof.
  cbn [ev_wf ev_body]. intros (Hr & (Ht & He & Heb) & Htag & Hlen & Hp & Hg & Hs).
  repeat apply bytes_ok_app; auto using bytes_ok_rd, be_bytes_ok, bytes_ok_ip, bytes_ok_stack; repeat constructor; auto.
Qed.
Lemma evpn5_refuted oc r buf n out rest k : ev_wf r -> ~ ev5_ok r -> (258 <= length buf)%nat ->
  evpn_encode r buf = Ok (n, out) -> evpn_decode oc (firstn n out ++ rest) <> Ok (r, k).
Proof.
  intros H H5 Hbuf HE HD. destruct r as [r|r|r|r|r]; try (now apply H5).
  destruct (evpn_kind _ _ _ _ HD) as (a & g & Ea & Eg).
  pose proof (ev_body_len _ H) as L. pose proof (bytes_ok_ev5 r H) as HB.
  assert (W : writes (evpn_encode (Ev5 r)) (ev_wire (Ev5 r)) (2 + length (ev_body (Ev5 r)))%nat).
  { unfold evpn_encode, ev_wire. apply writes_arm; auto. apply (writes_ev5 r a g); auto. apply H. }
  rewrite W in HE by (unfold ev_wire; cbn [length]; lia).
  assert (HI : forall (A : Type) (x y : A), Ok x = Ok y -> x = y) by congruence. apply HI, pair_equal_spec in HE as [<- <-].
  assert (EF : firstn (2 + length (ev_body (Ev5 r))) (splice 0 (ev_wire (Ev5 r)) buf) = ev_wire (Ev5 r)).
  { unfold splice. cbn [firstn app]. change (2 + length (ev_body (Ev5 r)))%nat with (length (ev_wire (Ev5 r))).
    now rewrite firstn_app, Nat.sub_diag, firstn_all, firstn_O, app_nil_r. }
  rewrite EF in HD. unfold ev_wire in HD. cbn [app] in HD. rewrite evpn_decode_wire in HD.
  apply bind_Ok_inv in HD as ([r' j] & D & HD). injection HD as -> _. apply evpn5_inv in D as (_ & DL & D1); auto.
  destruct H as (_ & (_ & He & _) & _).
  destruct r as [rd et e tag len pf gw ls]. cbn [ev5_prefix ev5_gw ev5_labels ev5_ok ev5_esi] in *. subst pf gw.
  cbn [ev_body ev5_rd ev5_esi_type ev5_esi ev5_tag ev5_labels ev5_len ev5_prefix ev5_gw ip_bytes] in DL.
  revert DL. len_simpl. intros DL. destruct ls as [|? [|? ?]]; cbn [length] in *; try lia; now apply H5.
Qed.
