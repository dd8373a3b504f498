(** Proofs that decoded messages are in range. *)
From Verif Require Import Base BaseFacts M_Util S_Wire F_Util M_Prefix S_Prefix M_Nlri S_Nlri F_Nlri M_Vpls M_Cap M_Open M_Session M_Mvpn S_Mvpn M_Evpn S_Evpn M_Flowspec S_Flowspec M_Addrs S_Addrs
  M_Attr S_Attr S_Attr3 M_Update S_Update M_Text S_Text S_Text2 M_Serde S_Serde S_Serde2 F_Serde4 F_Serde6 M_Bmp S_Bmp M_Debug S_Debug F_Debug3 M_Debug2 S_Debug2 F_Debug F_Debug4 F_Debug6 S_Exact S_Exact2 S_Exact3 S_Exact4 F_Exact4 F_Exact6 F_Exact8
  S_Ranges F_Ranges.
Ltac Zify.zify_post_hook ::= idtac.

Lemma update_decoded oc p m b u : bytes_ok b -> Forall attr_any (u_attrs m) -> Forall attr_lens (u_attrs m) -> update_decode oc p m b = Ok u -> update_any u /\ update_lens u.
Proof.
  intros B A L E. destruct u as [up wd l]. apply update_exact' in E as (v & -> & R); [|exact B]. destruct (update_good _ _ _ _ _ _ B R) as [(A1 & A2 & A3) (L1 & L2 & L3)].
  cbn [u_updates u_withdraws u_attrs] in *. split; (split; [|split]); cbn [u_updates u_withdraws u_attrs]; auto; now apply Forall_app.
Qed.
Lemma attr_decoded oc p tc f n b a : bytes_ok b -> f < 256 -> tc < 256 -> attr_decode oc p tc f n b = Ok a -> attr_any a /\ attr_lens a.
Proof. intros B F T E. apply attr_exact in E; [|exact B]. exact (attr_reads_good oc p _ _ _ _ _ _ (le_n _) F T B E). Qed.
Lemma routes_decoded oc p afi sf b a n : bytes_ok b -> addrs_decode oc p afi sf b = Ok (a, n) -> addrs_any a /\ lens_ok a.
Proof. intros B E. apply nlri_exact_l in E; [|exact B]. exact (nlri_good _ _ _ _ _ _ _ B E). Qed.
Lemma open_reads_any b m : open_reads b m -> open_any m.
Proof. intros (_ & _ & R & ol & p & _ & P). split; [exact R|]. now apply params_caps_any in P. Qed.
Lemma peer_reads_any b h r : bytes_ok b -> peer_reads b h r -> peer_any h /\ bytes_ok r.
Proof. intros B ((_ & _ & _ & A & _ & R & _) & _ & ->). split; [split; [exact A|exact R]|]. now apply bytes_app in B. Qed.
Lemma message_bytes oc t b o rest : bytes_ok b -> message_in oc t b o rest -> bytes_ok o.
Proof. intros B (len & _ & _ & _ & ->). do 3 apply bytes_app in B as [_ B]. now apply bytes_app in B. Qed.
Lemma term_reads_any m b m' : term_reads m b m' -> term_any m -> term_any m'.
Proof. induction 1 as [m b L|m s r m' U L T IH|m v r x y z m' L E T IH|m t v r m' R L T IH]; auto. Qed.
Lemma last_any t l : Forall (fun x => tlv_fits x /\ utf8 (snd x)) l -> opt_any utf8 (last_of t l).
Proof.
  intros H. unfold last_of. apply Forall_rev in H. induction H as [|x v [_ U] F IH]; [exact I|]. cbn [find]. destruct (fst x =? t); [exact U|exact IH].
Qed.
Definition bmp_lens (m : bmpmsg) : Prop := match m with RouteMonitoring m => update_lens (rm_update m) | _ => True end.
Lemma bmp_reads_any oc pars b m : bytes_ok b -> bmp_reads oc pars b m -> bmp_any m /\ bmp_lens m.
Proof.
  intros B (t & r & -> & H). apply bytes_cons in B as [_ B]. destruct m as [m| |m|m|m|m|]; cbn [bmp_any bmp_lens].
  - destruct H as (_ & r0 & o & rest & P & M & U). apply peer_reads_any in P as [P B']; [|exact B]. apply message_bytes in M; [|exact B']. destruct (update_good _ _ _ _ _ _ M U) as [U1 U2]. destruct m as [h [up wd v]]. split; [split; [exact P|exact U1]|exact U2].
  - split; exact I.
  - destruct H as (_ & c & r0 & P & _). apply peer_reads_any in P as [P _]; [|exact B]. split; [exact P|exact I].
  - destruct H as (_ & A & _ & _ & _ & r0 & o1 & r1 & o2 & r2 & P & _ & O1 & _ & O2). apply peer_reads_any in P as [P _]; [|exact B]. split; [|exact I]. split; [exact P|]. split; [exact A|].
    split; [exact (open_reads_any _ _ O1)|exact (open_reads_any _ _ O2)].
  - destruct H as (_ & l & _ & F & ->). split; [|exact I]. split; [now apply last_any|]. split; now apply last_any.
  - destruct H as (_ & T). split; [|exact I]. apply (term_reads_any _ _ _ T). exact I.
  - split; exact I.
Qed.
Lemma bmp_decoded oc b m : bytes_ok b -> bmp_decode oc b = Ok m -> bmp_any m.
Proof. intros B E. apply bmp_exact in E; [|exact B]. exact (proj1 (bmp_reads_any _ _ _ _ B E)). Qed.
Lemma session_decoded oc t b m : bytes_ok b -> fst (session_decode oc t b) = Ok m -> bmp_any m.
Proof. intros B E. apply session_exact in E; [|exact B]. exact (proj1 (bmp_reads_any _ _ _ _ B E)). Qed.

(** ** What follows for decoded values *)
Lemma update_logged oc oc' p p' b b' u u' : bytes_ok b -> bytes_ok b' -> update_decode oc p update_new b = Ok u -> update_decode oc' p' update_new b' = Ok u' ->
  (update_debug u = update_debug u' <-> u = u').
Proof.
  intros B B' E E'. apply update_decoded in E as [E _]; [|exact B|constructor|constructor]. apply update_decoded in E' as [E' _]; [|exact B'|constructor|constructor]. now apply update_debug_iff.
Qed.
Lemma attr_stored oc p tc f n b a hr k d : bytes_ok b -> f < 256 -> tc < 256 -> attr_decode oc p tc f n b = Ok a -> (sets_deep a <= k)%nat -> attr_lists flow_list a = false ->
  presents false (ser hr (T_Attr k) (g_attr a)) d -> de hr (T_Attr k) d = SOk (g_attr a).
Proof. intros B F T E. apply attr_rt. exact (proj1 (attr_decoded _ _ _ _ _ _ _ B F T E)). Qed.
Lemma routes_stored oc p afi sf b a n hr d : bytes_ok b -> addrs_decode oc p afi sf b = Ok (a, n) -> flow_list a = false ->
  presents false (ser hr T_Addrs (g_addrs a)) d -> de hr T_Addrs d = SOk (g_addrs a).
Proof. intros B E. apply addrs_rt. exact (proj1 (routes_decoded _ _ _ _ _ _ _ B E)). Qed.
Lemma bmp_logged oc oc' b b' m m' pr : bytes_ok b -> bytes_ok b' -> bmp_decode oc b = Ok m -> bmp_decode oc' b' = Ok m' -> (bmp_debug pr m = bmp_debug pr m' <-> m = m').
Proof. intros B B' E E'. apply (told_iff _ _ m m' (bmp_told pr)); [exact (bmp_decoded _ _ _ B E)|exact (bmp_decoded _ _ _ B' E')]. Qed.

(** ** EVPN prefix routes *)
Lemma ev5_any_length oc p l a : l < 256 -> a < 2 ^ 32 ->
  exists b, bytes_ok b /\ addrs_decode oc p 25 70 b = Ok (EVPN [Ev5 (mkEvpn5 (mkRD 0 1) 0 (repeat 0 9) 7 l (IPv4 a) (IPv4 0) [100])], length b).
Proof.
  intros L A. set (r := mkEvpn5 (mkRD 0 1) 0 (repeat 0 9) 7 l (IPv4 a) (IPv4 0) [100]).
  set (body := rd_wire (ev5_rd r) ++ [ev5_esi_type r] ++ ev5_esi r ++ be_bytes 4 (ev5_tag r) ++ [ev5_len r] ++ be_bytes 4 a ++ [] ++ be_bytes 4 0 ++ [] ++ [0; 6; 65]).
  assert (K : length body = 34%nat) by (unfold body; rewrite !app_length, !length_be_bytes, length_rd_wire; reflexivity).
  exists (5 :: 34 :: body).
  assert (B : bytes_ok (5 :: 34 :: body)). { constructor; [reflexivity|]. constructor; [reflexivity|]. unfold body. repeat apply bytes_ok_app; try apply be_bytes_ok; repeat (constructor; [first [exact L|reflexivity]|]); try constructor. }
  split; [exact B|]. apply nlri_exact_l; [exact B|]. cbn [nlri_reads]. exists [Ev5 r]. split; [|reflexivity].
  replace (length (5 :: 34 :: body)) with (36 + 0)%nat by (cbn [length]; rewrite K; reflexivity). apply many_cons; [discriminate| |].
  - exists body, [], 34%nat. split; [rewrite app_nil_r, K; reflexivity|]. split; [rewrite K; apply Nat.ltb_lt; reflexivity|]. split; [|reflexivity].
    exists a, 0, [], [], [0; 6; 65]. split; [reflexivity|]. split; [now left|]. split; [reflexivity|]. split; [now split|]. split; [split; [reflexivity|split; [reflexivity|]]; repeat (constructor; [reflexivity|]); constructor|].
    split; [reflexivity|]. split; [exact L|]. split; [exact A|]. split; [reflexivity|]. split; [reflexivity|]. split; [reflexivity|]. split; [|rewrite K; reflexivity].
    apply (st_last oc 24 0 0 6 65 []); [reflexivity| |right; reflexivity]. split; [reflexivity|]. split; [reflexivity|]. intros _. apply N.le_refl.
  - replace (skipn 36 (5 :: 34 :: body)) with (@nil N); [constructor|]. symmetry. apply skipn_all2. cbn [length]. rewrite K. apply le_n.
Qed.
