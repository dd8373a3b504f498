(** A BMP station: proofs. *)
From Verif Require Import Base BaseFacts M_Util S_Wire F_Util M_Prefix S_Prefix M_Nlri S_Nlri F_Nlri M_Cap S_Cap M_Open S_Open M_Session F_Session M_Addrs S_Addrs M_Attr S_Attr S_Attr3 M_Update S_Update M_Order S_Order M_Bmp S_Bmp
  F_Attr F_Bmp F_Bmp2 S_Exact S_Exact2 F_Attr4 F_Exact6 S_Join F_Join F_Join3 S_Hear F_Hear F_Forward S_Station.
Ltac Zify.zify_post_hook ::= idtac.

(** ** Cutting the stream *)
Lemma hdr_more s s' : match bmphdr_decode s with
  | Ok (h, n) => n = 5%nat /\ bmphdr_decode (s ++ s') = Ok (h, n) /\ (5 <= length s)%nat
  | Err EInsufficient => (length s < 5)%nat
  | r => bmphdr_decode (s ++ s') = r end.
Proof.
  do 5 (destruct s as [|? s]; [cbn; lia|]). unfold bmphdr_decode. cbn [app length]. change (Nat.ltb (S (S (S (S (S (length s)))))) 5) with false.
  change (Nat.ltb (S (S (S (S (S (length (s ++ s'))))))) 5) with false. cbv iota.
  change (idx (n :: n0 :: n1 :: n2 :: n3 :: s) 0) with (Ok n). change (idx (n :: n0 :: n1 :: n2 :: n3 :: s ++ s') 0) with (Ok n). cbn [bind].
  destruct (negb (n =? 3)); [reflexivity|]. change (rslice (n :: n0 :: n1 :: n2 :: n3 :: s) 1 5) with (Ok [n0; n1; n2; n3]).
  change (rslice (n :: n0 :: n1 :: n2 :: n3 :: s ++ s') 1 5) with (Ok [n0; n1; n2; n3]). cbn [bind].
  unfold getn_u32. cbn [idx nth_error bind]. repeat split. lia.
Qed.
(** one step, or none *)
Definition stops (s : list N) : Prop := forall fuel oc t, station oc fuel t s = ([], s, t).
Lemma station_cases s : stops s \/ exists len, (6 <= len <= length s)%nat /\ forall s' oc t fuel,
  station oc (S fuel) t (s ++ s') =
  (let '(r, t') := session_decode oc t (sub s 5 len) in let '(rs, l, t'') := station oc fuel t' (skipn len s ++ s') in (r :: rs, l, t'')).
Proof.
  destruct (bmphdr_decode s) as [[h n]| | |] eqn:E; try (left; intros [|fuel] oc t; [reflexivity|cbn [station]; now rewrite E]).
  pose proof (hdr_more s []) as H. rewrite E in H. destruct H as (-> & _ & L5).
  destruct ((5 <? bh_length h) && (bh_length h <=? N.of_nat (length s))) eqn:G; [|left; intros [|fuel] oc t; [reflexivity|cbn [station]; now rewrite E, G]].
  right. apply andb_prop in G as [G1 G2]. apply N.ltb_lt in G1. apply N.leb_le in G2. exists (N.to_nat (bh_length h)). split; [clear - G1 G2; lia|].
  intros s' oc t fuel. pose proof (hdr_more s s') as H. rewrite E in H. destruct H as (_ & H & _). cbn [station]. rewrite H.
  rewrite (proj2 (N.ltb_lt _ _) G1), (proj2 (N.leb_le _ _)) by (rewrite app_length; clear - G2; lia). cbn [andb].
  assert (LE : (N.to_nat (bh_length h) <= length s)%nat) by (clear - G2; lia).
  assert (E1 : sub (s ++ s') 5 (N.to_nat (bh_length h)) = sub s 5 (N.to_nat (bh_length h))).
  { unfold sub. rewrite skipn_app, firstn_app. replace (_ - length (skipn 5 s))%nat with 0%nat by (rewrite skipn_length; clear - LE; lia). now rewrite firstn_O, app_nil_r. }
  assert (E2 : skipn (N.to_nat (bh_length h)) (s ++ s') = skipn (N.to_nat (bh_length h)) s ++ s').
  { rewrite skipn_app. replace (_ - _)%nat with 0%nat by (clear - LE; lia). reflexivity. }
  now rewrite E1, E2.
Qed.
Lemma station_fuel oc : forall n s t f f', (length s <= n)%nat -> (length s <= f)%nat -> (length s <= f')%nat -> station oc f t s = station oc f' t s.
Proof.
  induction n as [|n IH]; intros s t f f' Hn Hf Hf'.
  - destruct s; [|cbn in Hn; lia]. destruct f, f'; reflexivity.
  - destruct (station_cases s) as [St|(len & Hl & St)]; [now rewrite !St|]. destruct f as [|f]; [lia|]. destruct f' as [|f']; [lia|].
    specialize (St []). rewrite app_nil_r in St. rewrite !St. destruct (session_decode oc t (sub s 5 len)) as [r t']. rewrite app_nil_r.
    rewrite (IH (skipn len s) t' f f'); [reflexivity|rewrite skipn_length; lia..].
Qed.
Lemma station_parts oc : forall t s s' rs kept t' rs' kept' t'',
  station oc (length s) t s = (rs, kept, t') -> station oc (length (kept ++ s')) t' (kept ++ s') = (rs', kept', t'') ->
  station oc (length (s ++ s')) t (s ++ s') = (rs ++ rs', kept', t'').
Proof.
  intros t s s'. remember (length s) as n eqn:En. assert (Hn : (length s <= n)%nat) by lia. clear En. revert s t Hn.
  assert (G : forall n s t, (length s <= n)%nat -> forall rs kept t' rs' kept' t'', station oc (length s) t s = (rs, kept, t') ->
    station oc (length (kept ++ s')) t' (kept ++ s') = (rs', kept', t'') -> station oc (length (s ++ s')) t (s ++ s') = (rs ++ rs', kept', t'')).
  { clear n. induction n as [|n IH]; intros s t Hn rs kept t' rs' kept' t'' H1 H2.
    - destruct s; [|cbn in Hn; lia]. cbn in H1. injection H1 as <- <- <-. exact H2.
    - destruct (station_cases s) as [St|(len & Hl & St)]; [rewrite St in H1; injection H1 as <- <- <-; exact H2|].
      pose proof (St []) as S0. rewrite app_nil_r in S0. destruct (length s) as [|k] eqn:Ek; [lia|]. rewrite S0 in H1. rewrite app_nil_r in H1.
      rewrite app_length, Ek. cbn [Nat.add]. rewrite St. destruct (session_decode oc t (sub s 5 len)) as [r t1].
      assert (Lk : (length (skipn len s) <= k)%nat) by (rewrite skipn_length; lia).
      destruct (station oc k t1 (skipn len s)) as [[rs1 l1] t2] eqn:E1. injection H1 as <- <- <-.
      rewrite (station_fuel oc k _ _ _ (length (skipn len s))) in E1 by lia.
      assert (X := IH (skipn len s) t1 ltac:(rewrite skipn_length; lia) rs1 l1 t2 rs' kept' t'' E1 H2).
      rewrite (station_fuel oc (length (skipn len s ++ s')) _ _ _ (k + length s')) in X by (rewrite ?app_length, ?skipn_length; lia).
      now rewrite X. }
  intros s t Hn rs kept t' rs' kept' t'' H1 H2. eapply G; [exact (le_n _)| |exact H2].
  rewrite <- H1. apply (station_fuel oc n); lia.
Qed.
Lemma frame_step w s oc t fuel : N.of_nat (length w) + 5 < 2 ^ 32 -> w <> [] ->
  station oc (S fuel) t (bmp_frame w ++ s) =
  (let '(r, t') := session_decode oc t w in let '(rs, kept, t'') := station oc fuel t' s in (r :: rs, kept, t'')).
Proof.
  intros H W. cbn [station]. unfold bmp_frame, bmphdr_wire. cbn [bh_version bh_length]. rewrite <- app_assoc. cbn [app]. rewrite bmphdr_dec by (clear - H; lia).
  change (3 =? 3) with true. cbv iota. cbn [bh_length].
  assert (L : length (3 :: be_bytes 4 (5 + N.of_nat (length w)) ++ w ++ s) = (5 + length w + length s)%nat) by (cbn [length]; rewrite !app_length, length_be_bytes; lia).
  rewrite L. assert (Lw : (1 <= length w)%nat) by (destruct w; [congruence|cbn; lia]).
  rewrite (proj2 (N.ltb_lt _ _)) by (clear - Lw; lia). rewrite (proj2 (N.leb_le _ _)) by (clear; lia). cbn [andb].
  replace (N.to_nat (5 + N.of_nat (length w))) with (5 + length w)%nat by (clear; lia).
  assert (S5 : skipn 5 (3 :: be_bytes 4 (5 + N.of_nat (length w)) ++ w ++ s) = w ++ s).
  { change (skipn 4 (be_bytes 4 (5 + N.of_nat (length w)) ++ w ++ s) = w ++ s). rewrite skipn_app, length_be_bytes. rewrite skipn_all2 by (rewrite length_be_bytes; lia). reflexivity. }
  unfold sub. rewrite S5. replace (5 + length w - 5)%nat with (length w) by lia. rewrite firstn_app, firstn_all, Nat.sub_diag, firstn_O, app_nil_r.
  rewrite <- skipn_skipn', S5, skipn_app, skipn_all, Nat.sub_diag. reflexivity.
Qed.
Lemma station_step oc t w s : N.of_nat (length w) + 5 < 2 ^ 32 -> w <> [] ->
  station oc (length (bmp_frame w ++ s)) t (bmp_frame w ++ s) =
  (let '(r, t') := session_decode oc t w in let '(rs, kept, t'') := station oc (length s) t' s in (r :: rs, kept, t'')).
Proof.
  intros H W. destruct (length (bmp_frame w ++ s)) as [|k] eqn:E; [rewrite app_length in E; unfold bmp_frame, bmphdr_wire in E; cbn in E; lia|].
  assert (Lk : (length s <= k)%nat) by (unfold bmp_frame, bmphdr_wire in E; rewrite !app_length in E; cbn [length] in E; lia).
  rewrite frame_step by assumption. destruct (session_decode oc t w) as [r t']. now rewrite (station_fuel oc k s t' k (length s)) by lia.
Qed.

(** ** What is told *)
Lemma told_length ms ws rs : told ms ws rs -> length ws = length ms /\ length rs = length ms.
Proof. induction 1 as [|ms ws rs m w r _ [IH1 IH2] _]; [auto|]. rewrite !app_length. cbn [length]. lia. Qed.
Lemma length_opt t s : str_ok s -> N.of_nat (length (opt_tlv t s)) <= 65539.
Proof. destruct s as [s|]; cbn [opt_tlv str_ok length]; [|intros; clear; lia]. rewrite length_tlv. intros [_ H]. clear - H. lia. Qed.
Lemma sent_small ms m w r : sent_as ms m w r -> N.of_nat (length w) + 5 < 2 ^ 32 /\ w <> [].
Proof.
  intros [m' up _ (_ & _ & H) _|m' _ W]; [split; [|discriminate]|].
  - unfold rmon_wire. cbn [length]. rewrite app_length, length_peer, length_frame'. clear - H. lia.
  - split; [|destruct m'; discriminate]. destruct m' as [m'| |m'|m'|m'|m'|]; cbn [msg_wire msg_wf length] in *; try (clear; lia).
    + destruct W as ((_ & _ & H) & _). unfold rmon_wire. rewrite app_length, length_peer, length_frame'. clear - H. lia.
    + unfold down_wire. rewrite app_length, length_peer. destruct (pd_reason m'); cbn [reason_wire length]; rewrite ?length_frame'; cbn; clear; lia.
    + destruct W as ((_ & _ & _ & _ & _ & _ & H1 & H2) & _). unfold up_wire. rewrite !app_length, length_head, !length_frame', !length_open_sent. clear - H1 H2. lia.
    + destruct W as (H1 & H2 & H3). unfold init_wire. rewrite !app_length. apply (length_opt 0) in H1. apply (length_opt 1) in H2. apply (length_opt 2) in H3. clear - H1 H2 H3. lia.
    + destruct W as (H1 & H2). unfold term_wire. rewrite app_length. apply (length_opt 0) in H1. destruct (tm_reason m'); rewrite ?length_tlv, ?length_be_bytes; cbn [length]; clear - H1; lia.
Qed.
Lemma peer_session_params t h up : tab_get (peer_id h) t = up -> session_params t h = peer_session up h.
Proof.
  intros <-. unfold session_params, peer_session. change (key_of h) with (peer_id h). destruct (tab_get _ _) as [m|]; [|reflexivity].
  destruct (ph_rid (pu_peer m) =? op_rid (pu_msg1 m)); apply open_session_is.
Qed.
Lemma other_event oc m : msg_wf m -> (forall r, m <> RouteMonitoring r) -> event_of oc (msg_wire m) = said m.
Proof.
  intros W H. destruct m as [m| |m|m|m|m|]; cbn [msg_wire event_of said msg_wf] in *; try reflexivity.
  - destruct W as (W & V). pose proof (down_decode_wire oc m [] W V) as E. rewrite app_nil_r in E. now rewrite E.
  - destruct W as (W & V & V'). pose proof (up_decode_wire oc m [] W V V') as E. rewrite app_nil_r in E. now rewrite E.
Qed.
Lemma snoc_after oc k t ms m b : ascending t -> up_after k None (map said ms) (tab_get k t) -> event_of oc b = said m ->
  up_after k None (map said (ms ++ [m])) (tab_get k (snd (session_decode oc t b))).
Proof.
  intros A U E. rewrite session_event, E, map_app. cbn [map]. destruct (said m) as [|x|x]; cbn [apply_event].
  - now apply up_none.
  - rewrite tab_get_insert by exact A. destruct (key_dec k _) as [D|D]; [eapply up_up; [exact U|auto]|apply up_other; [exact U|auto]].
  - rewrite tab_get_remove by exact A. destruct (key_dec k _) as [D|D]; [eapply up_down; [exact U|auto]|apply up_other; [exact U|auto]].
Qed.
Lemma sent_received oc t ms m w r : ascending t -> (forall k, up_after k None (map said ms) (tab_get k t)) -> sent_as ms m w r ->
  exists t', session_decode oc t w = (Ok r, t') /\ ascending t' /\ forall k, up_after k None (map said (ms ++ [m])) (tab_get k t').
Proof.
  intros A U [m' up Up W V|m' No W].
  - pose proof (up_after_det _ _ _ _ _ Up (U (peer_id (rm_peer m')))) as E. symmetry in E. apply peer_session_params in E. rewrite <- E in *.
    exists t. split; [now apply session_rmon_rt|]. split; [exact A|]. intros k. rewrite map_app. cbn [map said]. now apply up_none.
  - exists (snd (session_decode oc t (msg_wire m'))). split; [|split].
    + destruct (session_decode oc t (msg_wire m')) as [x t'] eqn:E. cbn [snd]. f_equal. apply (f_equal fst) in E. cbn [fst] in E. rewrite <- E. rewrite <- (bmp_decode_wire oc m' W).
      destruct m' as [m0| | | | | |]; try (now apply session_result). now destruct (No m0).
    + rewrite session_event. destruct (event_of oc (msg_wire m')); cbn [apply_event]; [exact A|now apply tab_insert_asc|now apply tab_remove_asc].
    + intros k. apply snoc_after; auto. now apply other_event.
Qed.
Lemma told_run oc ms ws rs : told ms ws rs -> exists t, ascending t /\ (forall k, up_after k None (map said ms) (tab_get k t)) /\
  forall fuel s, station oc (length ms + fuel) [] (concat (map bmp_frame ws) ++ s) =
    (let '(rs', l, t'') := station oc fuel t s in (map Ok rs ++ rs', l, t'')).
Proof.
  induction 1 as [|ms ws rs m w r H (t & A & U & IH) Sn].
  - exists []. split; [exact I|]. split; [intros k; apply up_start|]. intros fuel s. cbn [length Nat.add map concat app]. now destruct (station oc fuel [] s) as [[? ?] ?].
  - destruct (sent_received oc t ms m w r A U Sn) as (t' & E & A' & U'). destruct (sent_small _ _ _ _ Sn) as [L W]. exists t'. split; [exact A'|]. split; [exact U'|].
    intros fuel s. rewrite map_app, concat_app. cbn [map concat]. rewrite app_nil_r, <- app_assoc, app_length. cbn [length].
    replace (length ms + 1 + fuel)%nat with (length ms + S fuel)%nat by lia. rewrite IH, frame_step, E by assumption.
    destruct (station oc fuel t' s) as [[rs' l] t'']. rewrite map_app, <- app_assoc. reflexivity.
Qed.
Lemma incomplete_stops part : incomplete part -> stops part.
Proof.
  intros (w & more & Hw & Hm & E). destruct (bmphdr_decode part) as [[h n]| | |] eqn:D; try (intros [|fuel] oc t; [reflexivity|cbn [station]; now rewrite D]).
  pose proof (hdr_more part more) as H. rewrite D, E in H. destruct H as (-> & H & _).
  unfold bmp_frame, bmphdr_wire in H. cbn [bh_version bh_length app] in H. rewrite bmphdr_dec in H by (clear - Hw; lia). change (3 =? 3) with true in H. cbv iota in H. assert (Eh : bh_length h = 5 + N.of_nat (length w)) by (now inversion H). clear H.
  intros [|fuel] oc t; [reflexivity|]. cbn [station]. rewrite D, Eh. apply (f_equal (@length N)) in E. rewrite app_length in E.
  unfold bmp_frame, bmphdr_wire in E. cbn [app length bh_length] in E. rewrite app_length, length_be_bytes in E. assert (1 <= length more)%nat by (destruct more; [congruence|cbn; lia]).
  rewrite (proj2 (N.leb_gt (5 + N.of_nat (length w)) (N.of_nat (length part)))) by lia. now rewrite Bool.andb_false_r.
Qed.
Lemma station_told oc ms ws rs part fuel : told ms ws rs -> incomplete part -> (length ms <= fuel)%nat ->
  exists t, station oc fuel [] (concat (map bmp_frame ws) ++ part) = (map Ok rs, part, t) /\
    ascending t /\ forall k, up_after k None (map said ms) (tab_get k t).
Proof.
  intros T I L. destruct (told_run oc ms ws rs T) as (t & A & U & R). exists t. split; [|auto].
  replace fuel with (length ms + (fuel - length ms))%nat by lia. rewrite R, (incomplete_stops part I). now rewrite app_nil_r.
Qed.

(** ** Which messages matter *)
Lemma key_eqb a b : same_peer a b = true <-> a = b.
Proof.
  destruct a as [[h l] a], b as [[h' l'] b]. unfold same_peer. cbn [fst snd rdh rdl]. rewrite !Bool.andb_true_iff, !N.eqb_eq.
  assert (S : same_ip a b = true <-> a = b) by (destruct a, b; cbn [same_ip]; rewrite ?N.eqb_eq; split; congruence). rewrite S.
  split; [intros [[-> ->] ->]; reflexivity|]. intros E. inversion E. auto.
Qed.
Lemma last_decides oc k t0 bufs : ascending t0 -> tab_get k (session_run oc t0 bufs) =
  match last_word oc k bufs with
  | Some b => match event_of oc b with EvUp m => Some m | _ => None end
  | None => tab_get k t0
  end.
Proof.
  intros A. unfold last_word. induction bufs as [|b bufs IH] using rev_ind; [reflexivity|]. rewrite rev_app_distr. cbn [rev app find]. rewrite session_run_snoc, session_event.
  pose proof (run_asc oc t0 bufs A) as A'. unfold concerns at 1. destruct (event_of oc b) as [|m|m] eqn:E; cbn [apply_event].
  - exact IH.
  - change (key_of (pu_peer m)) with (peer_id (pu_peer m)). rewrite tab_get_insert by exact A'. destruct (same_peer (peer_id (pu_peer m)) k) eqn:Q; destruct (key_dec k (peer_id (pu_peer m))) as [D|D]; try exact IH.
    + now rewrite E.
    + apply key_eqb in Q. congruence.
    + subst k. rewrite (proj2 (key_eqb _ _) eq_refl) in Q. discriminate.
  - change (key_of (pd_peer m)) with (peer_id (pd_peer m)). rewrite tab_get_remove by exact A'. destruct (same_peer (peer_id (pd_peer m)) k) eqn:Q; destruct (key_dec k (peer_id (pd_peer m))) as [D|D]; try exact IH.
    + now rewrite E.
    + apply key_eqb in Q. congruence.
    + subst k. rewrite (proj2 (key_eqb _ _) eq_refl) in Q. discriminate.
Qed.
Lemma rmon_params oc f g h b : peer_wf h -> ~ v4_like (ph_addr h) -> f h = g h -> rmon_decode_with oc f (peer_wire h ++ b) = rmon_decode_with oc g (peer_wire h ++ b).
Proof.
  intros W V E. unfold rmon_decode_with. destruct (Nat.ltb _ _); [reflexivity|]. rewrite peer_decode_wire by assumption. cbn [bind]. now rewrite E.
Qed.
Lemma peers_apart oc t0 bufs bufs' h b : ascending t0 -> peer_wf h -> ~ v4_like (ph_addr h) ->
  last_word oc (peer_id h) bufs = last_word oc (peer_id h) bufs' ->
  fst (session_decode oc (session_run oc t0 bufs) (0 :: peer_wire h ++ b)) = fst (session_decode oc (session_run oc t0 bufs') (0 :: peer_wire h ++ b)).
Proof.
  intros A W V E. rewrite !session_rmon. cbn [fst]. rewrite (rmon_params oc _ (session_params (session_run oc t0 bufs')) h b W V); [reflexivity|].
  unfold session_params. change (key_of h) with (peer_id h). now rewrite !last_decides, E by exact A.
Qed.
Lemma same_body (h h' : peerhdr) b : forall oc want, bgp_body oc want (peer_wire h ++ b) 42 = bgp_body oc want (peer_wire h' ++ b) 42.
Proof.
  intros oc want. assert (L : length (peer_wire h ++ b) = length (peer_wire h' ++ b)) by (rewrite !app_length, !length_peer; reflexivity).
  assert (K : forall n, skipn (42 + n) (peer_wire h ++ b) = skipn (42 + n) (peer_wire h' ++ b)).
  { intros n. rewrite !skipn_app, !length_peer. rewrite (skipn_all2 (peer_wire h)), (skipn_all2 (peer_wire h')) by (rewrite length_peer; lia). reflexivity. }
  unfold bgp_body, rfrom, rslice. rewrite L. pose proof (K 0%nat) as K0. cbn [Nat.add] in K0. rewrite K0.
  match goal with |- bind ?x _ = bind ?x _ => destruct x as [s| | |]; try reflexivity end. cbn [bind].
  destruct (decode_message_head oc s) as [[ty n]| | |]; try reflexivity. cbn [bind]. destruct (negb _); [reflexivity|]. unfold sub. now rewrite (K 19%nat).
Qed.
Lemma header_hear t h h' : peer_id h = peer_id h' -> hear_alike (session_params t h) (session_params t h').
Proof.
  intros K. unfold session_params. change (key_of h) with (peer_id h). change (key_of h') with (peer_id h'). rewrite <- K. assert (R : forall p, hear_alike p p) by (intros p; unfold hear_alike; auto).
  destruct (tab_get (peer_id h) t) as [m|]; [destruct (_ =? _); apply R|]. assert (E : ph_addr h = ph_addr h') by exact (f_equal snd K).
  unfold params_of_peer. rewrite E. repeat split.
Qed.
Lemma header_ignored oc t h h' b : peer_wf h -> peer_wf h' -> ~ v4_like (ph_addr h) -> peer_id h = peer_id h' ->
  routes_of (fst (session_decode oc t (0 :: peer_wire h ++ b))) = routes_of (fst (session_decode oc t (0 :: peer_wire h' ++ b))).
Proof.
  intros W W' V K. assert (E : ph_addr h = ph_addr h') by exact (f_equal snd K). rewrite !session_rmon. cbn [fst]. unfold rmon_decode_with.
  rewrite !app_length, !length_peer. destruct (Nat.ltb _ _); [reflexivity|]. rewrite !peer_decode_wire by (auto; rewrite <- E; auto). cbn [bind].
  rewrite (same_body h h' b). destruct (bgp_body oc MUpdate (peer_wire h' ++ b) 42) as [[s n]| | |]; try reflexivity. cbn [bind].
  rewrite (update_alike oc _ _ update_new s (header_hear t h h' K)). destruct (update_decode oc (session_params t h') update_new s); reflexivity.
Qed.
Lemma type_ignored oc t m h : down_wf m -> ~ v4_like (ph_addr (pd_peer m)) -> ascending t ->
  peer_id h = peer_id (pd_peer m) -> ph_type h <> ph_type (pd_peer m) ->
  session_params (snd (session_decode oc t (2 :: down_wire m))) h = params_of_peer h.
Proof.
  intros W V A K _. apply session_params_down. rewrite session_event. cbn [event_of]. pose proof (down_decode_wire oc m [] W V) as E. rewrite app_nil_r in E. rewrite E.
  cbn [apply_event]. rewrite tab_get_remove by exact A. destruct (key_dec _ _) as [_|D]; [reflexivity|contradiction].
Qed.

(** ** The A flag *)
Lemma plain_none oc p : exists a, plain_nlri oc p [] a.
Proof.
  assert (E : exists a n, addrs_decode oc p (own_afi p) 1 [] = Ok (a, n)).
  { unfold own_afi. destruct (sp_mode p); cbn -[check_addpath_receive]; unfold dec_fam; rewrite use_pid_nil; destruct (check_addpath_receive p _ _); cbn; eauto. }
  destruct E as (a & n & E). exists a. apply plain_decodes; [constructor|eauto].
Qed.
Lemma legacy_reads oc p v : sp_as32 p = true -> v <> [] -> (length v <= 255)%nat -> Forall (fun x => x < 65536) v ->
  exists u v', update_decode oc p update_new (legacy_update v) = Ok u /\ u_attrs u = [AASPath v'] /\ v' <> v.
Proof.
  intros P W L F. unfold legacy_update. set (path := [2; N.of_nat (length v)] ++ flat_map (be_bytes 2) v).
  assert (Lp : length path = (2 + 2 * length v)%nat).
  { unfold path. rewrite app_length, (length_flat_map_const (be_bytes 2) 2) by (intros; apply length_be_bytes). cbn [length]. lia. }
  assert (Bp : bytes_ok path).
  { unfold path. apply Forall_cons; [reflexivity|]. apply Forall_cons; [unfold is_byte; clear - L; lia|]. apply Forall_flat_map. apply Forall_forall. intros; apply be_bytes_ok. }
  destruct (aspath_meaning p path Bp) as [a Ha]. pose proof Ha as (h & v' & E & Lh & _ & ->). unfold as_octets in E, Lh. rewrite P in E, Lh.
  destruct (plain_none oc p) as [x Hx].
  set (s := [80; 2] ++ be_bytes 2 (N.of_nat (length path)) ++ path).
  assert (Ls : length s = (4 + length path)%nat) by (unfold s; rewrite !app_length, length_be_bytes; cbn [length]; lia).
  assert (Eb : [0; 0] ++ be_bytes 2 (4 + N.of_nat (length path)) ++ s = upd_body [] s []).
  { unfold upd_body. rewrite !app_nil_r. cbn [app length]. rewrite Ls. replace (N.of_nat (4 + length path)) with (4 + N.of_nat (length path)) by (clear; lia). reflexivity. }
  exists (mkUpd x x [AASPath v']), v'. split; [|split; [reflexivity|]].
  - fold s. rewrite Eb. apply upd_exact; [constructor| |constructor|reflexivity|rewrite Ls, Lp; clear - L; lia|].
    + unfold s. apply Forall_cons; [reflexivity|]. apply Forall_cons; [reflexivity|]. apply Forall_app. split; [apply be_bytes_ok|exact Bp].
    + cbn [u_withdraws u_attrs u_updates]. split; [exact Hx|]. split; [|exact Hx].
      assert (Es : s = frame 80 2 path ++ []) by (rewrite app_nil_r; reflexivity). rewrite Es.
      apply area_more; [rewrite Lp; change (len_max 80) with 65535; clear - L; lia| |apply area_end].
      apply ar_plain; [vm_compute; tauto|exact Ha].
  - intros ->. apply (f_equal (@length N)) in E as El. rewrite app_length, (length_flat_map_const (be_bytes 4) 4) in El by (intros; apply length_be_bytes).
    rewrite Lp in El. destruct v as [|y v]; [congruence|]. destruct v as [|z v]; [|cbn [length] in El; clear - El Lh; lia].
    cbn [length] in El. destruct h as [|c h]; [|cbn [length] in El; clear - El; lia]. unfold path in E. cbn [app flat_map] in E. rewrite app_nil_r in E.
    inversion F as [|? ? Hy _]; subst. assert (E0 : 2 = nth 0 (be_bytes 4 y) 0) by (rewrite app_nil_r in E; now rewrite <- E).
    cbn [be_bytes nth app] in E0. rewrite N.mod_small in E0; [|]; [rewrite N.div_small in E0|rewrite N.div_small]; try discriminate; clear - Hy; change (2 ^ (8 * N.of_nat 3)) with 16777216; lia.
Qed.
Lemma legacy_misread oc t h v : peer_wf h -> ~ v4_like (ph_addr h) -> flag_a h -> sp_as32 (session_params t h) = true ->
  v <> [] -> (length v <= 255)%nat -> Forall (fun x => x < 65536) v ->
  exists m v', fst (session_decode oc t (0 :: peer_wire h ++ S_Open.frame (MUpdate, legacy_update v))) = Ok (RouteMonitoring m) /\
    u_attrs (rm_update m) = [AASPath v'] /\ v' <> v.
Proof.
  intros W V _ P Hv L F. destruct (legacy_reads oc _ v P Hv L F) as (u & v' & E & A & D). exists (mkRmon h u), v'. split; [|auto].
  assert (Lu : N.of_nat (length (legacy_update v)) <= 65516).
  { unfold legacy_update. rewrite !app_length, !length_be_bytes, (length_flat_map_const (be_bytes 2) 2) by (intros; apply length_be_bytes). cbn [length]. clear - L. lia. }
  rewrite session_rmon. cbn [fst]. unfold rmon_decode_with. replace (Nat.ltb _ _) with false.
  2:{ symmetry. apply Nat.ltb_ge. rewrite !app_length, length_peer, length_frame'. unfold legacy_update. rewrite !app_length. cbn [length]. clear. lia. }
  rewrite peer_decode_wire, bind_ok by assumption. rewrite <- (app_nil_r (S_Open.frame _)). rewrite body_frame, bind_ok by (rewrite ?length_peer; auto). now rewrite E.
Qed.
