(** Proofs about the [Debug] texts of capabilities, OPEN messages, session parameters and BMP messages. *)
From Coq Require Import Ascii String.
From Verif Require Import Base BaseFacts S_Text S_Text2 F_Text F_Text2 M_Util M_Nlri M_Cap M_Open M_Session M_Update M_Bmp M_Text M_Text2
  F_Text3 M_Serde S_Serde S_Serde2 M_Debug F_Debug F_Debug2 F_Debug3 S_Debug S_Exact3 F_Utf8 M_Debug2 S_Debug2.
Ltac Zify.zify_post_hook ::= idtac.

(** ** Characters *)
Lemma mod_sub a k m : k < m -> m <> 0 -> (m * a + k) mod m = k.
Proof. intros H Z. symmetry. apply (N.mod_unique _ m a k); [exact H|reflexivity]. Qed.
Lemma char_utf8_of c : char_utf8 c = utf8_of c.
Proof.
  unfold char_utf8, utf8_of. rewrite !N.div_div by discriminate. reflexivity.
Qed.
Lemma low6 x : x < 64 -> (128 + x) mod 64 = x.
Proof. intros H. change 128 with (64 * 2). now apply mod_sub. Qed.
Lemma chars_cons c l : scalar c -> chars (utf8_of c ++ l) = c :: chars l.
Proof.
  unfold scalar, utf8_of. intros Hc.
  destruct (dm64 c) as [E0 L0]. destruct (dm64 (c / 64)) as [E1 L1]. destruct (dm64 (c / 64 / 64)) as [E2 L2].
  set (r0 := c mod 64) in *. set (q := c / 64) in *. set (r1 := q mod 64) in *.
  set (q1 := q / 64) in *. set (r2 := q1 mod 64) in *. set (q2 := q1 / 64) in *.
  clearbody r0 q r1 q1 r2 q2.
  destruct (N.ltb_spec c 128).
  { cbn [app chars]. cmps. reflexivity. }
  destruct (N.ltb_spec c 2048).
  { cbn [app chars]. cmps. rewrite low6 by exact L0. replace ((192 + q) mod 32) with q; [now rewrite E0|].
    change 192 with (32 * 6). symmetry. apply mod_sub; [clear - E0 H0; lia|discriminate]. }
  destruct (N.ltb_spec c 65536).
  { cbn [app chars]. cmps. rewrite !low6 by assumption. replace ((224 + q1) mod 16) with q1; [rewrite E0, E1; reflexivity|].
    change 224 with (16 * 14). symmetry. apply mod_sub; [clear - E0 E1 H1; lia|discriminate]. }
  cbn [app chars]. cmps. rewrite !low6 by assumption. replace ((240 + q2) mod 8) with q2; [rewrite E0, E1, E2; reflexivity|].
  change 240 with (8 * 30). symmetry. apply mod_sub; [clear - E0 E1 E2 Hc; lia|discriminate].
Qed.
Lemma chars_all cs : Forall scalar cs -> chars (concat (map utf8_of cs)) = cs.
Proof.
  induction cs as [|c cs IH]; intros F; [reflexivity|]. cbn [map concat]. rewrite chars_cons by exact (Forall_inv F). f_equal. apply IH. exact (Forall_inv_tail F).
Qed.
Lemma chars_scalar s : utf8 s -> Forall scalar (chars s) /\ s = concat (map utf8_of (chars s)).
Proof. intros (cs & F & ->). rewrite chars_all by exact F. now split. Qed.
Lemma utf8_of_prefix c c' x x' : scalar c -> scalar c' -> utf8_of c ++ x = utf8_of c' ++ x' -> c = c' /\ x = x'.
Proof.
  intros Hc Hc' E.
  assert (Len : length (utf8_of c) = length (utf8_of c')).
  { apply (f_equal (hd 0)) in E. revert E. unfold utf8_of. unfold scalar in Hc, Hc'.
    destruct (dm64 c) as [E0 L0]. destruct (dm64 (c / 64)) as [E1 L1]. destruct (dm64 (c / 64 / 64)) as [E2 L2].
    destruct (dm64 c') as [E0' L0']. destruct (dm64 (c' / 64)) as [E1' L1']. destruct (dm64 (c' / 64 / 64)) as [E2' L2'].
    set (r0 := c mod 64) in *. set (q := c / 64) in *. set (r1 := q mod 64) in *. set (q1 := q / 64) in *. set (r2 := q1 mod 64) in *. set (q2 := q1 / 64) in *.
    set (r0' := c' mod 64) in *. set (q' := c' / 64) in *. set (r1' := q' mod 64) in *. set (q1' := q' / 64) in *. set (r2' := q1' mod 64) in *. set (q2' := q1' / 64) in *.
    clearbody r0 q r1 q1 r2 q2 r0' q' r1' q1' r2' q2'.
    destruct (N.ltb_spec c 128), (N.ltb_spec c' 128); try destruct (N.ltb_spec c 2048); try destruct (N.ltb_spec c' 2048);
      try destruct (N.ltb_spec c 65536); try destruct (N.ltb_spec c' 65536); cbn [app hd length]; intros E; try reflexivity; exfalso; clear L0 L0' x x'; lia. }
  pose proof (chars_cons c x Hc) as Q. pose proof (chars_cons c' x' Hc') as Q'. rewrite E, Q' in Q. split; [congruence|].
  apply (f_equal (skipn (length (utf8_of c)))) in E. rewrite skipn_app, Nat.sub_diag, skipn_all in E. rewrite Len, skipn_app, Nat.sub_diag, skipn_all in E. exact E.
Qed.
Lemma utf8_head_ge c : 128 <= c -> exists d l, utf8_of c = d :: l /\ 192 <= d.
Proof.
  intros H. unfold utf8_of. replace (c <? 128) with false by (symmetry; now apply N.ltb_ge).
  destruct (c <? 2048); [|destruct (c <? 65536)]; eexists; eexists; (split; [reflexivity|]); lia.
Qed.

(** the hexadecimal digits *)
Lemma hex_no_brace n : ~ In 125 (fmt_hex n).
Proof.
  intros I. destruct (fmt_hex_ok n) as ((ds & F & _) & _). induction F as [|c d s ds Hd F IH]; [contradiction|]. destruct I as [->|I]; [|now apply IH].
  destruct Hd as [L Hd]. clear - L Hd. lia.
Qed.

(** ** Strings *)
Definition unesc (e : N) : N :=
  if e =? 48 then 0 else if e =? 116 then 9 else if e =? 110 then 10 else if e =? 114 then 13 else e.
Lemma char_shape pr c : scalar c ->
  (exists e, char_debug pr c = [92; e] /\ e <> 117 /\ unesc e = c) \/
  (char_debug pr c = utf8_of c /\ exists d l, utf8_of c = d :: l /\ d <> 92 /\ d <> 34 /\ 32 <= d /\ d <> 127) \/
  char_debug pr c = 92 :: 117 :: 123 :: fmt_hex c ++ [125].
Proof.
  intros Hc. unfold char_debug.
  destruct (N.eqb_spec c 0) as [->|N0]; [left; exists 48; repeat split; discriminate|].
  destruct (N.eqb_spec c 9) as [->|N9]; [left; exists 116; repeat split; discriminate|].
  destruct (N.eqb_spec c 10) as [->|N10]; [left; exists 110; repeat split; discriminate|].
  destruct (N.eqb_spec c 13) as [->|N13]; [left; exists 114; repeat split; discriminate|].
  destruct (N.eqb_spec c 34) as [->|N34]; [left; exists 34; repeat split; discriminate|].
  destruct (N.eqb_spec c 92) as [->|N92]; [left; exists 92; repeat split; discriminate|]. right.
  destruct (if c <? 128 then (32 <=? c) && (c <? 127) else pr c) eqn:P; [left|right; reflexivity].
  split; [apply char_utf8_of|]. destruct (N.ltb_spec c 128) as [L|L].
  - apply andb_prop in P as [P1 P2]. apply N.leb_le in P1. apply N.ltb_lt in P2. exists c, []. unfold utf8_of.
    replace (c <? 128) with true by (symmetry; now apply N.ltb_lt). repeat split; try assumption. clear - P2. lia.
  - apply utf8_head_ge in L as (d & l & E & Hd). exists d, l. repeat split; try exact E; clear - Hd; lia.
Qed.
Lemma char_prefix pr c c' x x' : scalar c -> scalar c' -> char_debug pr c ++ x = char_debug pr c' ++ x' -> c = c' /\ x = x'.
Proof.
  intros Hc Hc' E.
  destruct (char_shape pr c Hc) as [(e & D & Ne & U)|[(D & d & l & Q & N1 & _)|D]], (char_shape pr c' Hc') as [(e' & D' & Ne' & U')|[(D' & d' & l' & Q' & N1' & _)|D']];
    rewrite D, D' in E.
  - cbn [app] in E. split; [rewrite <- U, <- U'|]; congruence.
  - rewrite Q' in E. cbn [app] in E. congruence.
  - cbn [app] in E. congruence.
  - rewrite Q in E. cbn [app] in E. congruence.
  - now apply utf8_of_prefix.
  - rewrite Q in E. cbn [app] in E. congruence.
  - cbn [app] in E. congruence.
  - rewrite Q' in E. cbn [app] in E. congruence.
  - cbn [app] in E. assert (E' : (fmt_hex c ++ [125]) ++ x = (fmt_hex c' ++ [125]) ++ x') by congruence. rewrite <- !app_assoc in E'. cbn [app] in E'.
    apply cut in E' as [E' ->]; try apply hex_no_brace. apply hex_inj in E'. now split.
Qed.
Lemma char_head pr c x y : scalar c -> char_debug pr c ++ x <> 34 :: y.
Proof.
  intros Hc E. destruct (char_shape pr c Hc) as [(e & D & _)|[(D & d & l & Q & _ & N2 & _)|D]]; rewrite D in E; [|rewrite Q in E|]; cbn [app] in E; congruence.
Qed.
Lemma chars_told pr : forall cs cs' r r', Forall scalar cs -> Forall scalar cs' ->
  concat (map (char_debug pr) cs) ++ 34 :: r = concat (map (char_debug pr) cs') ++ 34 :: r' -> cs = cs' /\ r = r'.
Proof.
  induction cs as [|c cs IH]; intros [|c' cs'] r r' F F' E; cbn [map concat app] in E.
  - split; [reflexivity|congruence].
  - rewrite <- app_assoc in E. symmetry in E. now apply char_head in E; [|exact (Forall_inv F')].
  - rewrite <- app_assoc in E. now apply char_head in E; [|exact (Forall_inv F)].
  - rewrite <- !app_assoc in E. apply char_prefix in E as [-> E]; [|exact (Forall_inv F)|exact (Forall_inv F')].
    apply IH in E as [-> ->]; [now split|exact (Forall_inv_tail F)|exact (Forall_inv_tail F')].
Qed.
Lemma str_told pr : told (str_debug pr) utf8.
Proof.
  intros s s' r r' U U' _ _ E. apply chars_scalar in U as [F Q], U' as [F' Q']. unfold str_debug in E. rewrite <- !app_assoc in E. apply app_inv_head in E.
  cbn [txt app] in E. apply chars_told in E as [E ->]; try assumption. split; [|reflexivity]. rewrite Q, Q', E. reflexivity.
Qed.
Lemma str_begins pr : begins (str_debug pr) utf8.
Proof. intros s _. reflexivity. Qed.
Lemma opt_told {A} (f : A -> text) P : told f P -> told (opt_debug f) (opt_any P).
Proof.
  intros T [x|] [y|] r r' Px Py Er Er' E; cbn [opt_debug d_variant] in E.
  - strip E. apply T in E as [-> E]; try assumption; try reflexivity. apply app_inv_head in E. now split.
  - cbn in E. discriminate E.
  - cbn in E. discriminate E.
  - apply app_inv_head in E. now split.
Qed.

(** ** Structs *)
Ltac open_struct E := unfold d_struct in E; cbn [map fst snd] in E; rewrite ?commas_cons in E; cbn [commas] in E.
Ltac field E T := strip E; apply T in E as [? E]; try assumption; try exact I; try reflexivity.
Ltac close_struct E := rewrite <- ?app_assoc in E; repeat apply app_inv_head in E; split; [match goal with |- ?a = ?b => destruct a, b; cbn in *; congruence end|exact E].
Lemma gr_told : told gr_debug (fun _ => True).
Proof.
  intros x y r r' _ _ _ _ E. unfold gr_debug in E. open_struct E. field E dec_told. field E dec_told. field E bool_told. close_struct E.
Qed.
Lemma ll_told : told ll_debug (fun _ => True).
Proof.
  intros x y r r' _ _ _ _ E. unfold ll_debug in E. open_struct E.
  field E dec_told. field E dec_told. field E dec_told. field E dec_told. close_struct E.
Qed.
Lemma ap_told : told ap_debug (fun _ => True).
Proof.
  intros x y r r' _ _ _ _ E. unfold ap_debug in E. open_struct E.
  field E dec_told. field E dec_told. field E bool_told. field E bool_told. close_struct E.
Qed.
Lemma all_true {A} (l : list A) : Forall (fun _ => True) l. Proof. now apply Forall_forall. Qed.

(** ** Capabilities *)
Definition cap_name (c : bgpcap) : text :=
  match c with
  | CapMP s => safi_debug s | CapGR _ _ _ => txt "CapGR" | CapASN32 _ => txt "CapASN32" | CapRR => txt "CapRR" | CapAddPath _ => txt "CapAddPath"
  | CapEnhancedRR => txt "CapEnhancedRR" | CapLLGR _ => txt "CapLLGR" | CapFQDN _ _ => txt "CapFQDN" | CapBFD => txt "CapBFD"
  end.
Definition cap_rest (pr : N -> bool) (c : bgpcap) : text :=
  match c with
  | CapMP _ | CapRR | CapEnhancedRR | CapBFD => []
  | CapGR state time afis => txt " { " ++ commas [txt "restart_time: " ++ fmt_dec time; txt "restart_state: " ++ d_bool state; txt "afis: " ++ d_list (map gr_debug afis)] ++ txt " }"
  | CapASN32 n => txt "(" ++ fmt_dec n ++ txt ")"
  | CapAddPath v => txt "(" ++ d_list (map ap_debug v) ++ txt ")"
  | CapLLGR v => txt "(" ++ d_list (map ll_debug v) ++ txt ")"
  | CapFQDN h d => txt "(" ++ commas [str_debug pr h; str_debug pr d] ++ txt ")"
  end.
Lemma cap_split pr c : cap_debug pr c = cap_name c ++ cap_rest pr c.
Proof. destruct c; try (cbn [cap_debug cap_name cap_rest d_variant]; now rewrite ?app_nil_r); reflexivity. Qed.
Lemma name_ok_word s : name_ok s = true -> word s. Proof. intros H. now apply name_word in H. Qed.
Lemma cap_name_ok c : name_ok (cap_name c) = true.
Proof. destruct c as [[]| | | | | | | |]; reflexivity. Qed.
Lemma cap_rest_stops pr c r : ends r -> stops (cap_rest pr c ++ r).
Proof. intros H. destruct c; try reflexivity; now apply ends_stops. Qed.
Lemma cap_told pr : told (cap_debug pr) cap_any.
Proof.
  intros c c' r r' A A' Er Er' E. rewrite !cap_split, <- !app_assoc in E.
  apply tok in E as [En E]; try (apply name_ok_word, cap_name_ok); try (now apply cap_rest_stops).
  destruct c as [s|st t l|n| |l| |l|h d|], c' as [s'|st' t' l'|n'| |l'| |l'|h' d'|]; cbn [cap_name cap_rest] in En, E;
    try (exfalso; repeat match goal with x : safi |- _ => destruct x end; discriminate En).
  - split; [|exact E]. f_equal. destruct s, s'; reflexivity || discriminate En.
  - rewrite !commas_cons in E. cbn [commas] in E. field E dec_told. field E bool_told. strip E.
    apply (vec_told _ _ gr_told (fun v _ => eq_refl)) in E as [-> E]; try apply all_true; try reflexivity. apply app_inv_head in E. split; [congruence|exact E].
  - field E dec_told. apply app_inv_head in E. split; [congruence|exact E].
  - now split.
  - strip E. apply (vec_told _ _ ap_told (fun v _ => eq_refl)) in E as [-> E]; try apply all_true; try reflexivity. apply app_inv_head in E. now split.
  - now split.
  - strip E. apply (vec_told _ _ ll_told (fun v _ => eq_refl)) in E as [-> E]; try apply all_true; try reflexivity. apply app_inv_head in E. now split.
  - destruct A as [A1 A2], A' as [B1 B2]. rewrite !commas_cons in E. cbn [commas] in E. field E (str_told pr). field E (str_told pr). apply app_inv_head in E. split; [congruence|exact E].
  - now split.
Qed.
Lemma cap_begins pr : begins (cap_debug pr) cap_any.
Proof. intros c _. rewrite cap_split. apply name_begins, cap_name_ok. Qed.
Lemma caps_told pr : told (fun l => d_list (map (cap_debug pr) l)) (Forall cap_any).
Proof. exact (vec_told _ _ (cap_told pr) (cap_begins pr)). Qed.
Lemma open_told pr : told (open_debug pr) open_any.
Proof.
  intros x y r r' [A1 A2] [B1 B2] _ _ E. unfold open_debug in E. open_struct E.
  field E dec_told. field E dec_told. field E ip4_told. field E (caps_told pr). close_struct E.
Qed.
Lemma mode_told : told mode_debug (fun _ => True).
Proof. intros [] [] r r' _ _ _ _ E; cbn in E; try discriminate; (split; [reflexivity|congruence]). Qed.
Lemma params_told pr : told (params_debug pr) params_any.
Proof.
  intros x y r r' [A1 A2] [B1 B2] _ _ E. unfold params_debug in E. open_struct E.

  field E dec_told. field E dec_told. field E mode_told. field E bool_told. field E ip4_told. field E (caps_told pr). field E bool_told. close_struct E.
Qed.
Lemma msgtype_told : told msgtype_debug (fun _ => True).
Proof. intros [] [] r r' _ _ _ _ E; cbn in E; try discriminate; (split; [reflexivity|congruence]). Qed.

(** ** BMP *)
Lemma brd_told : told brd_debug (fun _ => True).
Proof. intros x y r r' _ _ _ _ E. unfold brd_debug in E. open_struct E. field E dec_told. field E dec_told. close_struct E. Qed.
Lemma peer_told : told peer_debug peer_any.
Proof.
  intros x y r r' [A1 A2] [B1 B2] _ _ E. unfold peer_debug in E. open_struct E.
  field E dec_told. field E dec_told. field E brd_told. field E ip_told. field E dec_told. field E ip4_told. field E dec_told. close_struct E.
Qed.
Lemma term_told pr : told (term_debug pr) term_any.
Proof.
  intros x y r r' A B _ _ E. unfold term_any in A, B. unfold term_debug in E. open_struct E.
  field E (opt_told _ _ (str_told pr)). strip E. apply (opt_told _ _ dec_told) in E as [? E]; try reflexivity.
  - close_struct E.
  - now destruct (tm_reason x).
  - now destruct (tm_reason y).
Qed.
Lemma init_told pr : told (init_debug pr) init_any.
Proof.
  intros x y r r' (A1 & A2 & A3) (B1 & B2 & B3) _ _ E. unfold init_debug in E. open_struct E.
  field E (opt_told _ _ (str_told pr)). field E (opt_told _ _ (str_told pr)). field E (opt_told _ _ (str_told pr)). close_struct E.
Qed.
Lemma up_told pr : told (up_debug pr) up_any.
Proof.
  intros x y r r' (A1 & A2 & A3 & A4) (B1 & B2 & B3 & B4) _ _ E. unfold up_debug in E. open_struct E.

  field E peer_told. field E ip_told. field E dec_told. field E dec_told. field E (open_told pr). field E (open_told pr). close_struct E.
Qed.
Lemma notif_told : told notif_debug (fun _ => True).
Proof.
  intros x y r r' _ _ _ _ E. unfold notif_debug, notification_debug in E. open_struct E.
  field E dec_told. field E dec_told. field E dec_told. close_struct E.
Qed.
Lemma reason_told : told reason_debug (fun _ => True).
Proof.
  intros [m|s|m| |] [m'|s'|m'| |] r r' _ _ Er Er' E; cbn [reason_debug d_variant] in E.
  all: try (field E notif_told; apply app_inv_head in E; split; [congruence|exact E]).
  all: try (field E dec_told; apply app_inv_head in E; split; [congruence|exact E]).
  all: try (apply app_inv_head in E; now split).
  all: try (cbn in E; discriminate E).
  - exfalso. rewrite <- app_assoc in E. change (txt "RemoteNotification") with (txt "Remote" ++ txt "Notification") in E. rewrite <- app_assoc in E. apply app_inv_head in E. rewrite <- E in Er'. discriminate Er'.
  - exfalso. rewrite <- app_assoc in E. change (txt "RemoteNotification") with (txt "Remote" ++ txt "Notification") in E. rewrite <- app_assoc in E. apply app_inv_head in E. rewrite E in Er. discriminate Er.
Qed.
Lemma down_told : told down_debug (fun m => peer_any (pd_peer m)).
Proof.
  intros x y r r' A B _ _ E. unfold down_debug in E. open_struct E. field E peer_told. field E reason_told. close_struct E.
Qed.
Lemma update_told : told update_debug update_any.
Proof.
  intros x y r r' (A1 & A2 & A3) (B1 & B2 & B3) _ _ E. unfold update_debug in E. open_struct E.
  field E addrs_told. field E addrs_told. field E attrs_told. close_struct E.
Qed.
Lemma rmon_told : told rmon_debug (fun m => peer_any (rm_peer m) /\ update_any (rm_update m)).
Proof.
  intros x y r r' [A1 A2] [B1 B2] _ _ E. unfold rmon_debug in E. open_struct E. field E peer_told. field E update_told. close_struct E.
Qed.
Lemma bmphdr_told : told bmphdr_debug (fun _ => True).
Proof. intros x y r r' _ _ _ _ E. unfold bmphdr_debug in E. open_struct E. field E dec_told. field E dec_told. close_struct E. Qed.
Lemma skey_told : told skey_debug skey_any.
Proof.
  intros x y r r' A B _ _ E. unfold skey_any in A, B. unfold skey_debug in E. open_struct E. field E brd_told. field E ip_told. close_struct E.
Qed.
Lemma bmp_told pr : told (bmp_debug pr) bmp_any.
Proof.
  intros [m| |m|m|m|m|] [m'| |m'|m'|m'|m'|] r r' A B Er Er' E; cbn [bmp_debug d_variant bmp_any] in E, A, B.
  all: try (cbn in E; discriminate E).
  all: try (apply app_inv_head in E; now split).
  - field E rmon_told. apply app_inv_head in E. split; [congruence|exact E].
  - field E down_told. apply app_inv_head in E. split; [congruence|exact E].
  - field E (up_told pr). apply app_inv_head in E. split; [congruence|exact E].
  - field E (init_told pr). apply app_inv_head in E. split; [congruence|exact E].
  - field E (term_told pr). apply app_inv_head in E. split; [congruence|exact E].
Qed.
Lemma str_end pr s t x y : utf8 s -> utf8 t -> str_debug pr s ++ x = str_debug pr t ++ y -> s = t /\ x = y.
Proof.
  intros U U' E. apply chars_scalar in U as [F Q], U' as [F' Q']. unfold str_debug in E. rewrite <- !app_assoc in E. apply app_inv_head in E.
  cbn [txt app] in E. apply chars_told in E as [E ->]; try assumption. split; [|reflexivity]. rewrite Q, Q', E. reflexivity.
Qed.
