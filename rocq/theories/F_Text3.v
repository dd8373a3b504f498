(** Proofs about text forms: what a text determines. *)
From Coq Require Import Ascii String ZArith.
From Verif Require Import Base BaseFacts M_Util S_Wire F_Util M_Prefix S_Prefix F_Prefix M_Nlri S_Nlri M_Vpls S_Vpls M_Session M_Evpn S_Evpn M_Mvpn S_Mvpn
  M_Attr S_Attr M_Flowspec M_Text S_Text F_Text F_Text2 M_Text2 S_Text2.
Ltac Zify.zify_post_hook ::= idtac.

(** ** Cutting texts *)
Lemma app_inj_len {A} : forall s t x y : list A, length s = length t -> s ++ x = t ++ y -> s = t /\ x = y.
Proof.
  induction s as [|a s IH]; intros [|b t] x y L E; try discriminate L; cbn [app] in E; [now split|].
  assert (a = b) as -> by congruence. assert (E' : s ++ x = t ++ y) by congruence. apply IH in E' as [-> ->]; [now split|now injection L].
Qed.
Lemma cut (c : N) : forall s t x y : list N, ~ In c s -> ~ In c t -> s ++ c :: x = t ++ c :: y -> s = t /\ x = y.
Proof.
  induction s as [|a s IH]; intros [|b t] x y Hs Ht E; cbn [app] in E.
  - injection E as E. now split.
  - exfalso. apply Ht. left. congruence.
  - exfalso. apply Hs. left. congruence.
  - assert (a = b) as -> by congruence. assert (E' : s ++ c :: x = t ++ c :: y) by congruence.
    apply IH in E' as [-> ->]; [now split| |]; intros I; [apply Hs|apply Ht]; now right.
Qed.
Lemma rcut (c : N) (s t x y : list N) : ~ In c x -> ~ In c y -> s ++ c :: x = t ++ c :: y -> s = t /\ x = y.
Proof.
  intros Hx Hy E. apply (f_equal (@rev N)) in E. rewrite !rev_app_distr in E. cbn [rev] in E. rewrite <- !app_assoc in E. cbn [app] in E.
  apply cut in E as [E1 E2]; [|rewrite <- in_rev; assumption|rewrite <- in_rev; assumption].
  apply (f_equal (@rev N)) in E1, E2. rewrite !rev_involutive in E1, E2. now split.
Qed.
Lemma dec_inj m n : fmt_dec m = fmt_dec n -> m = n.
Proof.
  intros H. pose proof (proj1 (fmt_dec_ok m)) as P. pose proof (proj1 (fmt_dec_ok n)) as Q. rewrite H in P. exact (numeral_fun 10 _ _ _ ltac:(discriminate) P Q).
Qed.
Lemma hex_inj m n : fmt_hex m = fmt_hex n -> m = n.
Proof.
  intros H. pose proof (proj1 (fmt_hex_ok m)) as P. pose proof (proj1 (fmt_hex_ok n)) as Q. rewrite H in P. exact (numeral_fun 16 _ _ _ ltac:(discriminate) P Q).
Qed.
Lemma addr_not c (s : text) : Forall addr_char s -> c < 46 \/ c = 47 \/ 58 < c < 65 \/ 70 < c < 97 \/ 102 < c -> ~ In c s.
Proof. intros F H I. rewrite Forall_forall in F. apply F in I. unfold addr_char, hexc in I. clear - H I. lia. Qed.
Lemma dec_not c n : c < 48 \/ 57 < c -> ~ In c (fmt_dec n).
Proof. apply fmt_dec_not. Qed.
Lemma hex_not c n : c < 48 \/ 57 < c < 65 \/ 70 < c < 97 \/ 102 < c -> ~ In c (fmt_hex n).
Proof.
  intros H I. pose proof (numeral_hexc _ _ (proj1 (fmt_hex_ok n))) as F. rewrite Forall_forall in F. apply F in I. unfold hexc in I. clear - H I. lia.
Qed.
Lemma in_repeat (c d : N) n : In c (repeat d n) -> c = d.
Proof. induction n; cbn; [tauto|]. intros [E|I]; [now symmetry|now apply IHn]. Qed.
Lemma numeral_pad k s v : numeral 16 s v -> numeral 16 (repeat 48 k ++ s) v.
Proof.
  intros (ds & F & Ne & V). exists (repeat 0 k ++ ds). split; [|split].
  - apply Forall2_app; [|exact F]. induction k; constructor; [|assumption]. split; [reflexivity|]. left. split; reflexivity.
  - destruct k; [exact Ne|discriminate].
  - rewrite V. unfold digits_value. rewrite fold_left_app. f_equal. clear. induction k; [reflexivity|cbn [repeat fold_left]; exact IHk].
Qed.
Lemma hex2_inj m n : fmt_hex2 m = fmt_hex2 n -> m = n.
Proof.
  intros H. pose proof (numeral_pad (2 - length (fmt_hex m)) _ _ (proj1 (fmt_hex_ok m))) as P.
  pose proof (numeral_pad (2 - length (fmt_hex n)) _ _ (proj1 (fmt_hex_ok n))) as Q. unfold fmt_hex2 in H. rewrite H in P.
  exact (numeral_fun 16 _ _ _ ltac:(discriminate) P Q).
Qed.
Lemma hex8_inj m n : fmt_hex8 m = fmt_hex8 n -> m = n.
Proof.
  intros H. pose proof (numeral_pad (8 - length (fmt_hex m)) _ _ (proj1 (fmt_hex_ok m))) as P.
  pose proof (numeral_pad (8 - length (fmt_hex n)) _ _ (proj1 (fmt_hex_ok n))) as Q. unfold fmt_hex8 in H. rewrite H in P.
  exact (numeral_fun 16 _ _ _ ltac:(discriminate) P Q).
Qed.
Lemma hex2_not c n : c < 48 \/ 57 < c < 65 \/ 70 < c < 97 \/ 102 < c -> ~ In c (fmt_hex2 n).
Proof. intros H I. unfold fmt_hex2 in I. apply in_app_or in I as [I|I]; [apply in_repeat in I; clear - I H; lia|revert I; now apply hex_not]. Qed.
Lemma hex8_not c n : c < 48 \/ 57 < c < 65 \/ 70 < c < 97 \/ 102 < c -> ~ In c (fmt_hex8 n).
Proof. intros H I. unfold fmt_hex8 in I. apply in_app_or in I as [I|I]; [apply in_repeat in I; clear - I H; lia|revert I; now apply hex_not]. Qed.
Lemma hex2_length n : n < 256 -> length (fmt_hex2 n) = 2%nat.
Proof. intros H. destruct (fmt_hex2_ok n H) as (c & d & E & _). now rewrite E. Qed.

(** ** Addresses *)
Lemma ipv4_inj a b : a < 2 ^ 32 -> b < 2 ^ 32 -> fmt_ipv4 a = fmt_ipv4 b -> a = b.
Proof. intros Ha Hb E. apply ipv4_rt in Ha, Hb. rewrite E, Hb in Ha. congruence. Qed.
Lemma ipv6_inj a b : a < 2 ^ 128 -> b < 2 ^ 128 -> fmt_ipv6 a = fmt_ipv6 b -> a = b.
Proof. intros Ha Hb E. apply ipv6_rt in Ha, Hb. rewrite E, Hb in Ha. congruence. Qed.
Lemma ipv4_not_ipv6 a b : a < 2 ^ 32 -> fmt_ipv4 a <> fmt_ipv6 b.
Proof.
  intros Ha E. destruct (fmt_ipv6_shape b) as (h & rest & E6 & Hh & Fr). pose proof (hex_not_v4 h rest Hh Fr) as P. rewrite <- E6, <- E, ipv4_rt in P by assumption. discriminate P.
Qed.
Lemma ip_inj a b : ip_wf a -> ip_wf b -> ip_fmt a = ip_fmt b -> a = b.
Proof.
  destruct a as [a|a], b as [b|b]; cbn [ip_wf ip_fmt]; intros Ha Hb E.
  - f_equal. now apply ipv4_inj. - now apply ipv4_not_ipv6 in E. - symmetry in E. now apply ipv4_not_ipv6 in E. - f_equal. now apply ipv6_inj.
Qed.
Lemma ip_chars a : Forall addr_char (ip_fmt a).
Proof. destruct a; [apply ipv4_chars|apply ipv6_chars]. Qed.
Lemma ipv4_no58 a : ~ In 58 (fmt_ipv4 a).
Proof.
  unfold fmt_ipv4. assert (F : Forall (fun c => c <> 58) (joined 46 (map fmt_dec (octets4 a)))).
  { apply joined_chars; [discriminate|]. apply Forall_forall. intros x I. apply in_map_iff in I as (n & <- & _). eapply Forall_impl; [|apply fmt_dec_chars].
    cbn beta. intros c H. clear - H. lia. }
  intros I. rewrite Forall_forall in F. now apply F in I.
Qed.
Lemma mac_inj a b : mac_wf a -> mac_wf b -> mac_fmt a = mac_fmt b -> a = b.
Proof. intros Ha Hb E. apply mac_rt in Ha, Hb. rewrite E, Hb in Ha. congruence. Qed.
Lemma mac_length m : mac_wf m -> length (mac_fmt m) = 17%nat.
Proof.
  intros [L B]. destruct m as [|a [|b [|c [|d [|e [|f [|? ?]]]]]]]; try discriminate L. unfold bytes_ok in B. rewrite !Forall_cons_iff in B. destruct B as (Ha & Hb & Hc & Hd & He & Hf & _).
  unfold mac_fmt. cbn [nth]. change (txt ":") with [58]. rewrite ?app_length, !hex2_length by assumption. reflexivity.
Qed.
Lemma mac_cut a b (x y : text) : mac_wf a -> mac_wf b -> mac_fmt a ++ x = mac_fmt b ++ y -> a = b /\ x = y.
Proof.
  intros Ha Hb E. assert (L : length (mac_fmt a) = length (mac_fmt b)) by now rewrite !mac_length.
  destruct (app_inj_len _ _ _ _ L E) as [E1 E2]. split; [now apply mac_inj|exact E2].
Qed.

(** ** Route distinguishers *)
Lemma dots_chars a b c d : Forall addr_char (fmt_dec a ++ 46 :: fmt_dec b ++ 46 :: fmt_dec c ++ 46 :: fmt_dec d).
Proof.
  assert (D : addr_char 46) by now left.
  apply Forall_app. split; [apply dec_addr_chars|]. apply Forall_cons; [exact D|]. apply Forall_app. split; [apply dec_addr_chars|]. apply Forall_cons; [exact D|].
  apply Forall_app. split; [apply dec_addr_chars|]. apply Forall_cons; [exact D|]. apply dec_addr_chars.
Qed.
Lemma rd_shape r : exists p q, rd_fmt r = p ++ 58 :: q /\ ~ In 58 p /\ ~ In 58 q /\ Forall addr_char p /\ Forall addr_char q.
Proof.
  assert (X : forall n, ~ In 58 (fmt_dec n)) by (intros; apply fmt_dec_not; lia).
  unfold rd_fmt. change (txt ":") with [58]. change (txt ".") with [46]. cbn [app]. destruct (_ =? 1).
  - set (a := N.land (N.shiftr (rdh r) 8) 255). set (b := N.land (rdh r) 255).
    set (c := N.land (N.shiftr (rdl r) 24) 255). set (d := N.land (N.shiftr (rdl r) 16) 255).
    exists (fmt_dec a ++ 46 :: fmt_dec b ++ 46 :: fmt_dec c ++ 46 :: fmt_dec d), (fmt_dec (N.land (rdl r) 65535)).
    split; [repeat (rewrite <- !app_assoc; cbn [app]); reflexivity|]. split; [|split; [apply X|split; [apply dots_chars|apply dec_addr_chars]]].
    intros I. repeat (apply in_app_or in I as [I|[I|I]]; [now apply X in I|discriminate|]). now apply X in I.
  - exists (fmt_dec (rdh r)), (fmt_dec (rdl r)). split; [reflexivity|]. split; [apply X|]. split; [apply X|]. split; apply dec_addr_chars.
Qed.
Lemma rd_chars r : Forall addr_char (rd_fmt r).
Proof.
  destruct (rd_shape r) as (p & q & -> & _ & _ & P & Q). apply Forall_app. split; [exact P|]. apply Forall_cons; [right; now left|exact Q].
Qed.
Lemma four_octets h l : h / 65536 = 1 -> h = 65536 + (N.land (N.shiftr h 8) 255) * 256 + N.land h 255 /\ (l < 2 ^ 32 ->
  l = N.land (N.shiftr l 24) 255 * 16777216 + N.land (N.shiftr l 16) 255 * 65536 + N.land l 65535).
Proof.
  intros H. rewrite !N.shiftr_div_pow2. change 255 with (N.ones 8). change 65535 with (N.ones 16). rewrite !N.land_ones.
  change (2 ^ 8) with 256. change (2 ^ 16) with 65536. change (2 ^ 24) with 16777216. change (2 ^ 32) with 4294967296.
  split.
  - assert (h / 256 / 256 = 1) by (rewrite N.div_div by discriminate; exact H).
    pose proof (N.div_mod h 256 ltac:(discriminate)). pose proof (N.div_mod (h / 256) 256 ltac:(discriminate)). lia.
  - intros L. assert (E : l / 65536 / 256 = l / 16777216) by (now rewrite N.div_div by discriminate).
    assert (l / 16777216 < 256) by (apply N.div_lt_upper_bound; [discriminate|exact L]). rewrite (N.mod_small (l / 16777216)) by assumption.
    pose proof (N.div_mod l 65536 ltac:(discriminate)). pose proof (N.div_mod (l / 65536) 256 ltac:(discriminate)). lia.
Qed.
Lemma rd_inj r r' : rd_wf r -> rd_wf r' -> rd_fmt r = rd_fmt r' -> r = r'.
Proof.
  intros H H' E. assert (D : forall x : bgpRD, rd_type1 x \/ ~ rd_type1 x) by (intros x; unfold rd_type1; destruct (N.eq_dec (rdh x / 65536) 1); [now left|now right]).
  destruct (D r) as [T|T], (D r') as [T'|T'].
  - destruct H as [_ Hl], H' as [_ Hl']. unfold rd_type1 in T, T'. pose proof (four_octets _ (rdl r) T) as [A B]. pose proof (four_octets _ (rdl r') T') as [A' B'].
    specialize (B Hl). specialize (B' Hl'). unfold rd_fmt in E. rewrite (N.shiftr_div_pow2 (rdh r) 16), (N.shiftr_div_pow2 (rdh r') 16) in E. change (2 ^ 16) with 65536 in E. rewrite T, T' in E.
    cbn [N.eqb Pos.eqb] in E. change (txt ":") with [58] in E. change (txt ".") with [46] in E. cbn [app] in E.
    apply cut in E as [E1 E]; [|apply dec_not; lia|apply dec_not; lia]. apply cut in E as [E2 E]; [|apply dec_not; lia|apply dec_not; lia].
    apply cut in E as [E3 E]; [|apply dec_not; lia|apply dec_not; lia]. apply cut in E as [E4 E]; [|apply dec_not; lia|apply dec_not; lia].
    apply dec_inj in E1, E2, E3, E4, E. destruct r as [h l], r' as [h' l']; cbn [rdh rdl] in *.
    rewrite E1, E2 in A. rewrite <- A' in A. rewrite E3, E4, E in B. rewrite <- B' in B. now subst.
  - pose proof (rd_type1_l _ T). pose proof (rd_rt _ H' T'). rewrite E in *. congruence.
  - pose proof (rd_type1_l _ T'). pose proof (rd_rt _ H T). rewrite E in *. congruence.
  - pose proof (rd_rt _ H T). pose proof (rd_rt _ H' T'). rewrite E in *. congruence.
Qed.
Lemma rd_cut r r' (x y : text) : rd_wf r -> rd_wf r' -> rd_fmt r ++ 58 :: x = rd_fmt r' ++ 58 :: y -> r = r' /\ x = y.
Proof.
  intros H H' E. destruct (rd_shape r) as (p & q & R & P & Q & _). destruct (rd_shape r') as (p' & q' & R' & P' & Q' & _).
  assert (X : rd_fmt r = rd_fmt r' /\ x = y).
  { rewrite R, R' in *. rewrite <- !app_assoc in E. cbn [app] in E. apply cut in E as [E1 E]; [|assumption|assumption]. apply cut in E as [E2 E]; [|assumption|assumption].
    now subst. }
  destruct X as [X ->]. split; [now apply rd_inj|reflexivity].
Qed.
Lemma rd_cut_by c r r' (x y : text) : c < 46 \/ c = 47 \/ 58 < c < 65 \/ 70 < c < 97 \/ 102 < c -> rd_wf r -> rd_wf r' ->
  rd_fmt r ++ c :: x = rd_fmt r' ++ c :: y -> r = r' /\ x = y.
Proof.
  intros C H H' E. apply cut in E as [E ->]; [|apply addr_not; [apply rd_chars|exact C]|apply addr_not; [apply rd_chars|exact C]]. split; [now apply rd_inj|reflexivity].
Qed.
Lemma rd_head r : exists c s, rd_fmt r = c :: s /\ 48 <= c <= 57.
Proof.
  assert (X : forall n t, exists c s, fmt_dec n ++ t = c :: s /\ 48 <= c <= 57).
  { intros n t. pose proof (fmt_dec_nonempty n). pose proof (fmt_dec_chars n) as F. destruct (fmt_dec n) as [|c s]; [contradiction|]. apply Forall_inv in F. now exists c, (s ++ t). }
  unfold rd_fmt. destruct (_ =? 1); apply X.
Qed.

(** ** Labels *)
Lemma joined_inj sep : forall l l' : list text, Forall (fun s => s <> [] /\ ~ In sep s) l -> Forall (fun s => s <> [] /\ ~ In sep s) l' ->
  joined sep l = joined sep l' -> l = l'.
Proof.
  induction l as [|a l IH]; intros [|b l'] F F' E.
  - reflexivity.
  - exfalso. apply Forall_inv in F' as [Ne _]. cbn [joined] in E. destruct l'; [now subst|]. destruct b; [now apply Ne|discriminate E].
  - exfalso. apply Forall_inv in F as [Ne _]. cbn [joined] in E. destruct l; [now subst|]. destruct a; [now apply Ne|discriminate E].
  - pose proof (Forall_inv F) as [_ Na]. pose proof (Forall_inv F') as [_ Nb]. apply Forall_inv_tail in F, F'. cbn [joined] in E.
    destruct l as [|a2 l], l' as [|b2 l'].
    + now subst.
    + exfalso. apply Na. rewrite E. apply in_or_app. right. now left.
    + exfalso. apply Nb. rewrite <- E. apply in_or_app. right. now left.
    + apply cut in E as [-> E]; [|assumption|assumption]. f_equal. now apply IH.
Qed.
Lemma labels_inj l l' : labels_fmt l = labels_fmt l' -> l = l'.
Proof.
  intros E. assert (X : forall l, Forall (fun s : text => s <> [] /\ ~ In 44 s) (map fmt_dec l)).
  { intros m. apply Forall_forall. intros s I. apply in_map_iff in I as (n & <- & _). split; [apply fmt_dec_nonempty|apply dec_not; lia]. }
  apply joined_inj in E; [|apply X|apply X]. clear X. revert l' E. induction l as [|a l IH]; intros [|b l'] E; try discriminate E; [reflexivity|].
  cbn [map] in E. assert (E1 : fmt_dec a = fmt_dec b) by congruence. assert (E2 : map fmt_dec l = map fmt_dec l') by congruence. apply dec_inj in E1. apply IH in E2. congruence.
Qed.
Lemma labels_not c l : c <> 44 -> c < 48 \/ 57 < c -> ~ In c (labels_fmt l).
Proof.
  intros N1 N2. assert (F : Forall (fun x => x <> c) (labels_fmt l)).
  { apply joined_chars; [congruence|]. apply Forall_forall. intros x I. apply in_map_iff in I as (n & <- & _). eapply Forall_impl; [|apply fmt_dec_chars].
    cbn beta. intros d H. clear - H N2. lia. }
  intros I. rewrite Forall_forall in F. now apply F in I.
Qed.

(** ** Segment identifiers *)
Lemma esi_zero e : forallb (fun b => b =? 0) e = true -> e = repeat 0 (length e).
Proof.
  induction e as [|b e IH]; cbn [forallb length repeat]; [reflexivity|]. intros H. apply andb_true_iff in H as [H1 H2]. apply N.eqb_eq in H1. rewrite <- IH by assumption. now subst.
Qed.
Lemma esi_length e : length e = 9%nat -> bytes_ok e -> length (esi_fmt e) = 0%nat \/ length (esi_fmt e) = 18%nat.
Proof.
  intros L B. unfold esi_fmt. destruct (forallb _ _); [now left|right].
  assert (X : forall e, bytes_ok e -> length (concat (map fmt_hex2 e)) = (2 * length e)%nat).
  { clear. induction e as [|b e IH]; intros B; [reflexivity|]. apply Forall_cons_iff in B as [Hb B]. cbn [map concat length]. rewrite app_length, hex2_length, IH by assumption. lia. }
  rewrite X, L by assumption. reflexivity.
Qed.
Lemma esi_inj e e' : length e = 9%nat -> length e' = 9%nat -> bytes_ok e -> bytes_ok e' -> esi_fmt e = esi_fmt e' -> e = e'.
Proof.
  intros L L' B B' E. unfold esi_fmt in E. destruct (forallb (fun b => b =? 0) e) eqn:Z, (forallb (fun b => b =? 0) e') eqn:Z'.
  - apply esi_zero in Z, Z'. rewrite Z, Z', L, L'. reflexivity.
  - exfalso. destruct e' as [|b e']; [discriminate L'|]. apply Forall_inv in B'. cbn [map concat] in E. pose proof (hex2_length b B') as X. destruct (fmt_hex2 b); discriminate.
  - exfalso. destruct e as [|b e]; [discriminate L|]. apply Forall_inv in B. cbn [map concat] in E. pose proof (hex2_length b B) as X. destruct (fmt_hex2 b); discriminate.
  - clear Z Z'. rewrite <- L' in L. clear L'. revert e' L B' E. induction e as [|a e IH]; intros [|b e'] L B' E; try discriminate L; [reflexivity|].
    apply Forall_cons_iff in B as [Ha B]. apply Forall_cons_iff in B' as [Hb B']. cbn [map concat] in E.
    apply app_inj_len in E as [E1 E2]; [|now rewrite !hex2_length]. apply hex2_inj in E1. apply IH in E2; [congruence|assumption|now injection L|assumption].
Qed.
Lemma esi_not c e : c < 48 \/ 57 < c < 65 \/ 70 < c < 97 \/ 102 < c -> ~ In c (esi_fmt e).
Proof.
  intros H I. unfold esi_fmt in I. destruct (forallb _ _); [destruct I|]. apply in_concat in I as (s & Is & I). apply in_map_iff in Is as (n & <- & _). revert I. now apply hex2_not.
Qed.
Lemma dec_length n : n < 256 -> (1 <= length (fmt_dec n) <= 3)%nat.
Proof.
  intros H. split; [eapply numeral_length; apply (proj1 (fmt_dec_ok n))|]. apply (canonical_length 10 _ n 3); [discriminate|discriminate|apply fmt_dec_ok| |lia]. clear - H. cbn. lia.
Qed.
Lemma esi_cut t e t' e' (x y : text) : esi_wf t e -> esi_wf t' e' ->
  esi_type_fmt t ++ esi_fmt e ++ 58 :: x = esi_type_fmt t' ++ esi_fmt e' ++ 58 :: y -> t = t' /\ e = e' /\ x = y.
Proof.
  intros (T & L & B) (T' & L' & B') E. pose proof (esi_length e L B) as LE. pose proof (esi_length e' L' B') as LE'.
  pose proof (dec_length t T) as DT. pose proof (dec_length t' T') as DT'. unfold esi_type_fmt in E. change (txt ":") with [58] in E.
  destruct (N.eqb_spec t 0) as [->|NT], (N.eqb_spec t' 0) as [->|NT']; cbn [negb] in E; cbn [app] in E; repeat (rewrite <- app_assoc in E); cbn [app] in E.
  - apply cut in E as [E1 ->]; [|apply esi_not; lia|apply esi_not; lia]. split; [reflexivity|]. split; [now apply esi_inj|reflexivity].
  - exfalso. apply cut in E as [E1 _]; [|apply esi_not; lia|apply dec_not; lia]. rewrite E1 in *. clear - LE DT'. lia.
  - exfalso. apply cut in E as [E1 _]; [|apply dec_not; lia|apply esi_not; lia]. rewrite E1 in *. clear - LE' DT. lia.
  - apply cut in E as [E1 E]; [|apply dec_not; lia|apply dec_not; lia]. apply cut in E as [E2 ->]; [|apply esi_not; lia|apply esi_not; lia].
    split; [now apply dec_inj|]. split; [now apply esi_inj|reflexivity].
Qed.
