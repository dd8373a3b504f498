(** Proofs about sessions between two peers. *)
From Verif Require Import Base BaseFacts M_Util S_Wire F_Util M_Cap S_Cap M_Open M_Session S_Open F_Open F_Session
  M_Addrs S_Addrs F_Fuel M_Attr S_Attr F_Attr F_Attr2 M_Update S_Update F_Update M_Order S_Order M_Bmp S_Bmp F_Bmp F_Bmp2 M_Peer S_Peer.
Ltac Zify.zify_post_hook ::= idtac.

(** ** Encoding depends on the session through the address family and AS width only *)
Lemma attr_encode_same oc q p a : same_session q p -> attr_encode oc q a = attr_encode oc p a.
Proof. destruct q, p. intros [H1 H2]; cbn in H1, H2; subst. destruct a; reflexivity. Qed.
Lemma upd_attrs_encode_same oc q p v : same_session q p -> forall a b buf, upd_attrs_encode oc q v a b buf = upd_attrs_encode oc p v a b buf.
Proof.
  intros E. induction v as [|x v IH]; intros a b buf; [reflexivity|]. cbn [upd_attrs_encode]. rewrite (attr_encode_same oc q p x E).
  destruct (65535 <? N.of_nat (b - a)); [reflexivity|]. unfold ebind.
  destruct (on_tail b (attr_encode oc p x) buf) as [[n b']| | |]; auto.
Qed.
Lemma nlri_encode_same oc q p a : same_session q p -> upd_nlri_encode oc q a = upd_nlri_encode oc p a.
Proof. intros [H _]. unfold upd_nlri_encode. now rewrite H. Qed.
Lemma ebind_ext {A B} (e e' : Enc A) (f g : A -> Enc B) buf : e buf = e' buf -> (forall a b, f a b = g a b) -> ebind e f buf = ebind e' g buf.
Proof. intros H1 H2. unfold ebind. rewrite H1. destruct (e' buf) as [[a b]| | |]; auto. Qed.
Lemma update_encode_same oc q p m buf : same_session q p -> update_encode oc q m buf = update_encode oc p m buf.
Proof.
  intros E. unfold update_encode, upd_withdraws. rewrite !(nlri_encode_same oc q p) by exact E.
  apply ebind_ext; [reflexivity|]. intros n b'. apply ebind_ext; [now apply upd_attrs_encode_same|reflexivity].
Qed.
Lemma message_encode_same oc q p m buf : same_session q p -> message_encode oc q m buf = message_encode oc p m buf.
Proof. intros E. destruct m; try reflexivity. now apply update_encode_same. Qed.

(** ** One message *)
Lemma message_writes oc p m : message_ok p m -> writes (message_encode oc p m) (body_wire p m) (length (body_wire p m)).
Proof.
  intros [H1 H2]. destruct m as [m|m|m|]; cbn [message_encode body_wire].
  - pose proof (open_encode_ok m H2) as W. rewrite open_caplen_eq in W. exact W.
  - now apply writes_update.
  - exact (notif_encode_ok m H2).
  - apply writes_at_ret.
Qed.
Lemma message_decodes oc p m : message_ok p m -> message_decode oc p (message_type m) (body_wire p m) = Ok (message_seen p m).
Proof.
  intros [H1 H2]. destruct m as [m|m|m|]; cbn [message_decode message_type body_wire message_seen].
  - now rewrite open_decode_wire.
  - now rewrite update_decode_wire.
  - now rewrite notif_decode_ok.
  - reflexivity.
Qed.
Definition wire (p : params) (m : message) : list N := S_Open.frame (message_type m, body_wire p m).
Lemma send_wire oc q p m buf : same_session q p -> message_ok p m -> (19 + length (body_wire p m) <= length buf)%nat ->
  exists buf', send_message oc q m buf = Ok (wire p m, buf').
Proof.
  intros E H L. unfold send_message. unfold ebind at 1.
  assert (W : on_from 19 (message_encode oc q m) buf = Ok (length (body_wire p m), splice 19 (body_wire p m) buf)).
  { rewrite <- (writes_on_from 19 _ _ _ (message_writes oc p m H) buf) by lia.
    unfold on_from. now rewrite (message_encode_same oc q p). }
  rewrite W. clear W. assert (LB : length (splice 19 (body_wire p m) buf) = length buf).
  { unfold splice. rewrite !app_length, firstn_length, skipn_length. lia. }
  unfold ebind. rewrite prepare_ok by first [exact (proj1 H)|lia].
  eexists. unfold splice. 
  assert (S19 : skipn 19 (firstn 19 buf ++ body_wire p m ++ skipn (19 + length (body_wire p m)) buf) = body_wire p m ++ skipn (19 + length (body_wire p m)) buf).
  { apply skipn_app_exact. rewrite firstn_length. lia. }
  rewrite S19, app_assoc, rslice_head by (rewrite app_length, length_header; lia). rewrite bind_ok. reflexivity.
Qed.
Lemma message_transport oc q p m buf : same_session q p -> message_ok p m -> (19 + length (body_wire p m) <= length buf)%nat ->
  exists buf', send_message oc q m buf = Ok (S_Open.frame (message_type m, body_wire p m), buf') /\
               message_decode oc p (message_type m) (body_wire p m) = Ok (message_seen p m).
Proof. intros E H L. destruct (send_wire oc q p m buf E H L) as [b B]. exists b. split; [exact B|]. now apply message_decodes. Qed.

(** ** A stream *)
Lemma sent_wire oc q p ms outs : same_session q p -> Forall2 (sent oc q p) ms outs -> concat outs = concat (map S_Open.frame (map (fun m => (message_type m, body_wire p m)) ms)).
Proof.
  intros E. induction 1 as [|m o ms outs (H & buf & b' & L & S) HF IH]; [reflexivity|]. cbn [concat map]. rewrite IH. f_equal.
  destruct (send_wire oc q p m buf E H L) as [b B]. rewrite B in S. now injection S as <- <-.
Qed.
Lemma sent_ok oc q p ms outs : Forall2 (sent oc q p) ms outs -> Forall (message_ok p) ms.
Proof. induction 1 as [|m o ms outs (H & _) HF IH]; constructor; auto. Qed.
Lemma stream oc q p ms outs : same_session q p -> Forall2 (sent oc q p) ms outs -> forall fuel, (length ms < fuel)%nat ->
  exists got, recv_loop oc (N.to_nat 65536) fuel (concat outs) = Ok got /\
    Forall2 (fun m tb => message_decode oc p (fst tb) (snd tb) = Ok (message_seen p m)) ms got.
Proof.
  intros E H fuel Hf. rewrite (sent_wire oc q p ms outs E H). apply sent_ok in H.
  exists (map (fun m => (message_type m, body_wire p m)) ms). split.
  - apply recv_frames; [|now rewrite map_length]. apply Forall_forall. intros x Hx. apply in_map_iff in Hx as (m & <- & Hm).
    rewrite Forall_forall in H. destruct (H m Hm) as [B _]. cbn [snd]. split; [exact B|]. clear - B. lia.
  - clear - H. induction H as [|m ms H HF IH]; constructor; auto. now apply message_decodes.
Qed.

(** ** Negotiation *)
Lemma family_eqb (a b c d : N) : (a =? b) && (c =? d) = true <-> a = b /\ c = d.
Proof. now rewrite andb_true_iff, !N.eqb_eq. Qed.
Lemma find_first_addpath r w : clear_addpath r -> In (CapAddPath w) r -> find is_addpath r = Some (CapAddPath w).
Proof.
  intros [U _] H. destruct (find is_addpath r) as [c|] eqn:E.
  - apply find_some in E as [E1 E2]. destruct c; try discriminate. now rewrite (U w v H E1).
  - apply (find_none _ _ E) in H. discriminate.
Qed.
Lemma match_addpath_hit v w l x : In l v -> In x w -> ap_afi l = ap_afi x -> ap_safi l = ap_safi x ->
  exists y, In y w /\ ap_afi y = ap_afi x /\ ap_safi y = ap_safi x /\ In (ap_response y) (match_addpath_caps v w).
Proof.
  intros Hl Hx A B. induction v as [|a v IH]; [destruct Hl|]. cbn [match_addpath_caps]. destruct Hl as [->|Hl].
  - destruct (find _ w) as [y|] eqn:E.
    + apply find_some in E as [E1 E2]. apply family_eqb in E2 as [E2 E3]. exists y. repeat split; auto; try congruence. now left.
    + apply (find_none _ _ E) in Hx. cbv beta in Hx. rewrite A, B, !N.eqb_refl in Hx. discriminate.
  - destruct (IH Hl) as (y & Y1 & Y2 & Y3 & Y4). exists y. repeat split; auto. destruct (find _ w); [now right|exact Y4].
Qed.
Lemma find_addpath_none caps afi sf e : ap_entry caps e -> ap_afi e = afi -> ap_safi e = sf -> exists x, find_addpath_in caps afi sf = Some x.
Proof.
  intros (v & H1 & H2) A B. induction caps as [|c caps IH]; [destruct H1|]. destruct H1 as [->|H1].
  - cbn [find_addpath_in]. destruct (find _ v) as [y|] eqn:E; [eauto|]. apply (find_none _ _ E) in H2. cbv beta in H2. rewrite A, B, !N.eqb_refl in H2. discriminate.
  - cbn [find_addpath_in]. destruct c; auto. destruct (find _ v0); eauto.
Qed.
Lemma negotiated_entry p r afi sf x : clear_addpath r -> announces r afi sf x -> (exists l, announces (sp_caps p) afi sf l) ->
  find_addpath (match_caps p r) afi sf = Some (ap_response x).
Proof.
  intros C (HX & X1 & X2) (l & (v & Lv & Lin) & L1 & L2). destruct HX as (w & Wr & Xw).
  destruct (match_addpath_hit v w l x Lin Xw) as (y & Y1 & Y2 & Y3 & Y4); [congruence|congruence|].
  assert (HE : ap_entry (sp_caps (match_caps p r)) (ap_response y)).
  { exists (match_addpath_caps v w). split; [|exact Y4]. rewrite match_caps_caps, in_filter_map. exists (CapAddPath v). split; [exact Lv|].
    cbn [match_one]. now rewrite (find_first_addpath r w C Wr). }
  unfold find_addpath. destruct (find_addpath_none _ afi sf _ HE) as [e E]; [cbn; congruence|cbn; congruence|].
  rewrite E. apply find_addpath_in_spec in E as (E1 & E2 & E3). apply match_ap_entry in E1 as (l' & x' & _ & G2 & _ & _ & ->). cbn in E2, E3.
  do 2 f_equal. destruct C as [_ C]. apply (C afi sf); split; auto. exists w. auto.
Qed.
Lemma negotiated_none p r afi sf : ~ (exists l, announces (sp_caps p) afi sf l) \/ ~ (exists x, announces r afi sf x) ->
  find_addpath (match_caps p r) afi sf = None.
Proof.
  intros H. unfold find_addpath. destruct (find_addpath_in _ afi sf) as [e|] eqn:E; [|reflexivity]. exfalso.
  apply find_addpath_in_spec in E as (E1 & E2 & E3). apply match_ap_entry in E1 as (l & x & L & X & A & B & ->). cbn in E2, E3.
  destruct H as [H|H]; apply H; [exists l|exists x]; repeat split; auto; congruence.
Qed.
Lemma negotiate_exact p r afi sf : clear_addpath r ->
  (check_addpath_send (match_caps p r) afi sf = true <->
     (exists l, announces (sp_caps p) afi sf l) /\ exists x, announces r afi sf x /\ ap_receive x = true) /\
  (check_addpath_receive (match_caps p r) afi sf = true <->
     (exists l, announces (sp_caps p) afi sf l) /\ exists x, announces r afi sf x /\ ap_send x = true).
Proof.
  intros C. unfold check_addpath_send, check_addpath_receive. destruct (addpath_dir p r afi sf) as [D1 D2].
  unfold check_addpath_send, check_addpath_receive in D1, D2. split; split.
  - intros H. destruct (D1 H) as [(l & L1 & L2) (x & X1 & X2 & X3 & X4)]. split; [now exists l|exists x; repeat split; auto].
  - intros (L & x & X & R). rewrite (negotiated_entry p r afi sf x C X L). exact R.
  - intros H. destruct (D2 H) as [(l & L1 & L2) (x & X1 & X2 & X3 & X4)]. split; [now exists l|exists x; repeat split; auto].
  - intros (L & x & X & R). rewrite (negotiated_entry p r afi sf x C X L). exact R.
Qed.
Lemma agree_addpath a b afi sf e f : clear_addpath (sp_caps a) -> clear_addpath (sp_caps b) ->
  announces (sp_caps a) afi sf e -> announces (sp_caps b) afi sf f ->
  (check_addpath_send (negotiated a b) afi sf = check_addpath_receive (negotiated b a) afi sf <-> ap_send e = ap_receive f).
Proof.
  intros Ca Cb E F. unfold check_addpath_send, check_addpath_receive, negotiated.
  rewrite (negotiated_entry a (sp_caps b) afi sf f Cb F), (negotiated_entry b (sp_caps a) afi sf e Ca E); eauto. cbn. split; auto.
Qed.
Lemma agree_addpath_none a b afi sf : ~ (exists e, announces (sp_caps a) afi sf e) \/ ~ (exists e, announces (sp_caps b) afi sf e) ->
  check_addpath_send (negotiated a b) afi sf = false /\ check_addpath_receive (negotiated a b) afi sf = false /\
  check_addpath_send (negotiated b a) afi sf = false /\ check_addpath_receive (negotiated b a) afi sf = false.
Proof.
  intros H. unfold check_addpath_send, check_addpath_receive, negotiated.
  rewrite (negotiated_none a (sp_caps b) afi sf) by tauto. rewrite (negotiated_none b (sp_caps a) afi sf) by tauto. auto.
Qed.
Lemma agree_rest a b :
  sp_as32 (negotiated a b) = sp_as32 (negotiated b a) /\
  (forall c, plain c -> In c (sp_caps (negotiated a b)) <-> In c (sp_caps (negotiated b a))) /\
  (sp_mode (negotiated a b) = sp_mode a /\ sp_hold (negotiated a b) = sp_hold a).
Proof.
  unfold negotiated. split; [|split].
  - apply eq_true_iff_eq. rewrite !match_as32. tauto.
  - intros c P. rewrite !match_plain by exact P. tauto.
  - unfold match_caps. pose proof (check_caps_spec (mkParams (sp_as a) (sp_hold a) (sp_mode a) false (sp_rid a) (filter_map (match_one (sp_caps b)) (sp_caps a)) (sp_fuzzy a))) as C.
    cbv zeta in C. tauto.
Qed.
Lemma exchange oc b self buf out b' : open_wf (open_message b) -> (length (body_wire b (MsgOpen (open_message b))) <= N.to_nat 65516)%nat ->
  (19 + length (body_wire b (MsgOpen (open_message b))) <= length buf)%nat ->
  send_message oc b (MsgOpen (open_message b)) buf = Ok (out, b') ->
  decode_message_head oc out = Ok (MOpen, length out - 19)%nat /\
  exists m, open_decode self (skipn 19 out) = Ok m /\ op_caps m = sp_caps b /\ op_hold m = sp_hold b /\ op_rid m = sp_rid b /\
    op_as m = (if sp_as b <? 65536 then sp_as b else 23456).
Proof.
  intros W L1 L2 S. assert (OK : message_ok b (MsgOpen (open_message b))) by (split; [clear - L1; lia|exact W]).
  destruct (send_wire oc b b _ buf (conj eq_refl eq_refl) OK L2) as [bb B]. rewrite B in S. injection S as <- <-.
  unfold wire, S_Open.frame. cbn [fst snd message_type]. split.
  - rewrite head_rt by (clear - L1; lia). rewrite app_length, length_header. do 2 f_equal; lia.
  - rewrite skipn_app_exact by apply length_header. cbn [body_wire]. rewrite open_decode_wire by exact W. eexists; split; [reflexivity|]. repeat split.
Qed.

(** ** The client *)
Lemma head_frame oc t body rest : N.of_nat (length body) <= 65516 ->
  recv_message_head oc (S_Open.frame (t, body) ++ rest) = Ok (t, length body, body ++ rest).
Proof.
  intros H. unfold recv_message_head, S_Open.frame. cbn [fst snd]. rewrite <- app_assoc.
  replace (Nat.ltb (length (header t (length body) ++ body ++ rest)) 19) with false
    by (symmetry; apply Nat.ltb_ge; rewrite app_length, length_header; lia).
  rewrite (firstn_app_exact 19) by apply length_header. rewrite <- (app_nil_r (header t (length body))) at 1.
  rewrite head_rt by exact H. rewrite bind_ok. now rewrite (skipn_app_exact 19) by apply length_header.
Qed.
Lemma big_buffer n : N.of_nat n <= 65516 -> Nat.ltb (N.to_nat 65536) n = false.
Proof. intros H. apply Nat.ltb_ge. lia. Qed.
Lemma app_ltb {A} (a b : list A) : Nat.ltb (length (a ++ b)) (length a) = false.
Proof. apply Nat.ltb_ge. rewrite app_length. lia. Qed.
Lemma lifecycle_update oc fuel p body rest : N.of_nat (length body) <= 65516 ->
  lifecycle oc (S fuel) p (S_Open.frame (MUpdate, body) ++ rest) =
  match update_decode oc p update_new body with
  | Ok m => (EvUpdate m :: fst (lifecycle oc fuel p rest), snd (lifecycle oc fuel p rest))
  | Err e => (EvUpdateError e :: fst (lifecycle oc fuel p rest), snd (lifecycle oc fuel p rest))
  | Panic => ([], Panic)
  | OutOfFuel => ([], OutOfFuel)
  end.
Proof.
  intros H. cbn [lifecycle]. rewrite head_frame by exact H. cbn [msgtype_eqb]. rewrite big_buffer by exact H. rewrite app_ltb.
  rewrite firstn_app_exact, skipn_app_exact by reflexivity.
  destruct (update_decode oc p update_new body); auto; now destruct (lifecycle oc fuel p rest).
Qed.
Lemma lifecycle_keepalive oc fuel p body rest : N.of_nat (length body) <= 65516 ->
  lifecycle oc (S fuel) p (S_Open.frame (MKeepalive, body) ++ rest) = lifecycle oc fuel p (body ++ rest).
Proof. intros H. cbn [lifecycle]. rewrite head_frame by exact H. reflexivity. Qed.
Lemma lifecycle_step oc fuel p m rest : message_ok p m -> continues m ->
  lifecycle oc (S fuel) p (S_Open.frame (message_type m, body_wire p m) ++ rest) =
  (message_events p m ++ fst (lifecycle oc fuel p rest), snd (lifecycle oc fuel p rest)).
Proof.
  intros [B H] C. destruct m as [m|m|m|]; try destruct C; cbn [message_type].
  - rewrite lifecycle_update by exact B. cbn [body_wire]. rewrite update_decode_wire by exact H. reflexivity.
  - rewrite lifecycle_keepalive by exact B. cbn [body_wire app message_events]. now destruct (lifecycle oc fuel p rest).
Qed.
Lemma lifecycle_stop oc fuel p m rest : message_ok p m -> ~ continues m ->
  lifecycle oc (S fuel) p (S_Open.frame (message_type m, body_wire p m) ++ rest) = (message_events p m, Ok tt).
Proof.
  intros [B H] C. destruct m as [m|m|m|]; try (exfalso; now apply C); cbn [message_type lifecycle];
    (rewrite head_frame by exact B); cbn [msgtype_eqb]; rewrite big_buffer by exact B; rewrite app_ltb; [reflexivity|].
  rewrite firstn_app_exact by reflexivity. cbn [body_wire]. now rewrite notif_decode_ok.
Qed.
Lemma lifecycle_stream oc p ms : Forall (message_ok p) ms -> Forall continues ms -> forall fuel rest,
  lifecycle oc (length ms + fuel) p (concat (map (fun m => S_Open.frame (message_type m, body_wire p m)) ms) ++ rest) =
  (concat (map (message_events p) ms) ++ fst (lifecycle oc fuel p rest), snd (lifecycle oc fuel p rest)).
Proof.
  intros H. induction H as [|m ms H HF IH]; intros C fuel rest.
  - cbn. now destruct (lifecycle oc fuel p rest).
  - inversion C as [|? ? C1 C2]; subst. cbn [map concat length Nat.add]. rewrite <- app_assoc, lifecycle_step by assumption.
    rewrite IH by exact C2. cbn [fst snd]. now rewrite app_assoc.
Qed.
Lemma sent_concat oc q p ms outs : same_session q p -> Forall2 (sent oc q p) ms outs ->
  concat outs = concat (map (fun m => S_Open.frame (message_type m, body_wire p m)) ms).
Proof. intros E H. rewrite (sent_wire oc q p ms outs E H). now rewrite map_map. Qed.
Lemma client_stream oc q p ms outs last out rest : same_session q p -> Forall2 (sent oc q p) ms outs -> Forall continues ms ->
  sent oc q p last out -> ~ continues last -> forall fuel, (length ms < fuel)%nat ->
  lifecycle oc fuel p (concat outs ++ out ++ rest) = (concat (map (message_events p) (ms ++ [last])), Ok tt).
Proof.
  intros E H C L NC fuel Hf. rewrite (sent_concat oc q p ms outs E H).
  assert (O : out = S_Open.frame (message_type last, body_wire p last)).
  { pose proof (sent_concat oc q p [last] [out] E (Forall2_cons _ _ L (Forall2_nil _))) as X. cbn in X. now rewrite !app_nil_r in X. }
  replace fuel with (length ms + S (fuel - length ms - 1))%nat by lia.
  rewrite lifecycle_stream by (auto; now apply sent_ok in H). rewrite O, lifecycle_stop by (auto; now destruct L). cbn [fst snd].
  rewrite map_app, concat_app. cbn. now rewrite app_nil_r.
Qed.
Lemma client_eof oc q p ms outs : same_session q p -> Forall2 (sent oc q p) ms outs -> Forall continues ms ->
  forall part fuel, (length part < 19)%nat -> (length ms < fuel)%nat ->
  lifecycle oc fuel p (concat outs ++ part) = (concat (map (message_events p) ms), Err EOther).
Proof.
  intros E H C part fuel Hp Hf. rewrite (sent_concat oc q p ms outs E H).
  replace fuel with (length ms + S (fuel - length ms - 1))%nat by lia.
  rewrite lifecycle_stream by (auto; now apply sent_ok in H). cbn [lifecycle]. unfold recv_message_head.
  apply Nat.ltb_lt in Hp. rewrite Hp. cbn [fst snd]. now rewrite app_nil_r.
Qed.
Lemma head_len oc s t n s' : recv_message_head oc s = Ok (t, n, s') -> (length s = 19 + length s')%nat /\ (bytes_ok s -> (n < N.to_nat 65536)%nat) /\ s' = skipn 19 s.
Proof.
  unfold recv_message_head. destruct (Nat.ltb_spec (length s) 19) as [L|L]; [discriminate|].
  intros H. apply bind_Ok_inv in H as ([t' n'] & E & H). remember (skipn 19 s) as k eqn:EK. injection H as -> -> <-. split; [rewrite EK, skipn_length; lia|]. split; [|reflexivity].
  intros B. pose proof (head_spec oc (firstn 19 s) (Forall_firstn _ _ _ B)) as P. rewrite E in P. destruct P as (len & IH & P).
  destruct IH as (_ & _ & IH & _). assert (len < 65536).
  { rewrite <- IH. pose proof (be_val_bound (sub (firstn 19 s) 16 18) (Forall_sub _ _ _ _ (Forall_firstn _ _ _ B))) as Q.
    rewrite length_sub in Q by (rewrite ?firstn_length; lia). exact Q. }
  clear - P H. lia.
Qed.
Lemma head_nf oc s : recv_message_head oc s <> OutOfFuel.
Proof.
  unfold recv_message_head. destruct (Nat.ltb (length s) 19); [discriminate|]. apply nf_bind; [|intros []; discriminate].
  unfold decode_message_head. destruct (Nat.ltb _ 19); [discriminate|]. apply nf_bind; [apply nf_rslice|]. intros m. destruct (negb _); [discriminate|].
  apply nf_bind; [apply nf_idx|]. intros c. apply nf_bind; [destruct (msgtype_cases c) as [[t ->]| ->]; discriminate|]. intros t.
  apply nf_bind; [apply nf_rslice|]. intros l. apply nf_bind; [apply nf_u16|]. intros v. apply nf_bind; [apply nf_usub|]. discriminate.
Qed.
Lemma notif_nf self buf : notif_decode self buf <> OutOfFuel /\ notif_decode self buf <> Panic.
Proof. pose proof (notif_total self buf) as T. destruct (notif_decode self buf); try (exfalso; exact T); split; discriminate. Qed.
Lemma lifecycle_fuel oc p fuel : forall s, (length s < fuel)%nat -> snd (lifecycle oc fuel p s) <> OutOfFuel.
Proof.
  induction fuel as [|fuel IH]; intros s Hf; [lia|]. cbn [lifecycle].
  destruct (recv_message_head oc s) as [[[t n] s']| | |] eqn:E; try (cbn; discriminate); [|now apply head_nf in E].
  apply head_len in E as (E1 & _ & _). destruct (msgtype_eqb t MKeepalive); [apply IH; lia|].
  destruct (Nat.ltb _ n); [cbn; discriminate|]. destruct (Nat.ltb (length s') n); [cbn; discriminate|].
  assert (R : snd (lifecycle oc fuel p (skipn n s')) <> OutOfFuel) by (apply IH; rewrite skipn_length; lia).
  destruct t; [cbn; discriminate| | |apply IH; lia].
  - pose proof (update_decode_nf oc p update_new (firstn n s')) as U.
    destruct (update_decode oc p update_new (firstn n s')); try (cbn; discriminate); try tauto; now destruct (lifecycle oc fuel p (skipn n s')).
  - destruct (notif_nf notif_new (firstn n s')) as [NF _]. destruct (notif_decode notif_new (firstn n s')); try (cbn; discriminate). tauto.
Qed.
Lemma lifecycle_panic p fuel : forall s, bytes_ok s -> snd (lifecycle false fuel p s) = Panic ->
  exists pre body post, s = pre ++ body ++ post /\ update_decode false p update_new body = Panic.
Proof.
  induction fuel as [|fuel IH]; intros s B H; [discriminate|]. cbn [lifecycle] in H.
  destruct (recv_message_head false s) as [[[t n] s']| | |] eqn:E; try discriminate.
  2:{ exfalso. unfold recv_message_head in E. destruct (Nat.ltb (length s) 19); [discriminate|].
      pose proof (head_spec false (firstn 19 s) (Forall_firstn _ _ _ B)) as P.
      destruct (decode_message_head false (firstn 19 s)) as [[? ?]| | |]; try discriminate. destruct P. discriminate. }
  apply head_len in E as (E1 & E2 & E3). specialize (E2 B).
  assert (B' : bytes_ok s') by (subst s'; now apply Forall_skipn).
  assert (K : forall k, snd (lifecycle false fuel p (skipn k s')) = Panic ->
     exists pre body post, s = pre ++ body ++ post /\ update_decode false p update_new body = Panic).
  { intros k HK. destruct (IH _ (Forall_skipn _ k _ B') HK) as (pre & body & post & Q & R).
    exists (firstn 19 s ++ firstn k s' ++ pre), body, post. split; [|exact R].
    rewrite <- !app_assoc, <- Q, firstn_skipn. subst s'. now rewrite firstn_skipn. }
  destruct (msgtype_eqb t MKeepalive); [exact (K 0%nat H)|].
  replace (Nat.ltb (N.to_nat 65536) n) with false in H by (symmetry; apply Nat.ltb_ge; clear - E2; lia).
  destruct (Nat.ltb (length s') n); [discriminate|]. destruct t; [discriminate| | |exact (K 0%nat H)].
  - destruct (update_decode false p update_new (firstn n s')) eqn:U; [| |clear H|discriminate].
    + apply (K n). now destruct (lifecycle false fuel p (skipn n s')).
    + apply (K n). now destruct (lifecycle false fuel p (skipn n s')).
    + exists (firstn 19 s), (firstn n s'), (skipn n s'). split; [|exact U]. rewrite firstn_skipn. subst s'. now rewrite firstn_skipn.
  - destruct (notif_nf notif_new (firstn n s')) as [_ NF]. destruct (notif_decode notif_new (firstn n s')); try discriminate. tauto.
Qed.

(** ** Opening *)
Lemma client_send oc p : client_open_ok p -> exists b, send_message oc p (MsgOpen (open_message p)) (repeat 255 4096) =
  Ok (S_Open.frame (MOpen, body_wire p (MsgOpen (open_message p))), b).
Proof.
  intros [W L]. change (our_open p) with (open_message p) in W, L. assert (L2 : (19 + length (body_wire p (MsgOpen (open_message p))) <= length (repeat 255 4096))%nat) by (rewrite repeat_length; lia).
  assert (OK : message_ok p (MsgOpen (open_message p))) by (split; [clear - L; lia|exact W]).
  exact (send_wire oc p p (MsgOpen (open_message p)) (repeat 255 4096) (conj eq_refl eq_refl) OK L2).
Qed.
Lemma start_ok oc p m rest : client_open_ok p -> open_wf m -> (length (body_wire p (MsgOpen m)) <= 4096)%nat ->
  exists q, start_active oc p (S_Open.frame (MOpen, body_wire p (MsgOpen m)) ++ rest) =
    Ok (S_Open.frame (MOpen, body_wire p (MsgOpen (open_message p))), q, rest) /\ sp_caps q = op_caps m /\ sp_hold q = op_hold m /\ sp_mode q = sp_mode p /\ sp_rid q = sp_rid p /\ sp_fuzzy q = sp_fuzzy p /\ (sp_as32 q = true <-> has_asn32 (op_caps m)) /\ (forall pre n post, op_caps m = pre ++ CapASN32 n :: post -> ~ has_asn32 post -> sp_as q = n) /\ (~ has_asn32 (op_caps m) -> sp_as q = sp_as p).
Proof.
  intros P W L. unfold start_active. destruct (client_send oc p P) as [b ->]. rewrite bind_ok.
  rewrite head_frame by (clear - L; lia). rewrite bind_ok. cbn [msgtype_eqb negb].
  replace (Nat.ltb 4096 (length (body_wire p (MsgOpen m)))) with false by (symmetry; apply Nat.ltb_ge; exact L).
  rewrite app_ltb, firstn_app_exact, skipn_app_exact by reflexivity. cbn [body_wire]. rewrite open_decode_wire by exact W. rewrite bind_ok.
  eexists. split; [reflexivity|].
  exact (check_caps_spec (mkParams (sp_as p) (op_hold (open_seen m)) (sp_mode p) (sp_as32 p) (sp_rid p) (op_caps (open_seen m)) (sp_fuzzy p))).
Qed.
Lemma start_width oc p m rest : client_open_ok p -> open_wf m -> (length (body_wire p (MsgOpen m)) <= 4096)%nat ->
  has_asn32 (op_caps m) -> ~ has_asn32 (sp_caps p) -> forall peer, sp_caps peer = op_caps m ->
  exists out q rest', start_active oc p (S_Open.frame (MOpen, body_wire p (MsgOpen m)) ++ rest) = Ok (out, q, rest') /\   sp_as32 q = true /\ sp_as32 (negotiated peer p) = false.
Proof.
  intros P W L HA HN peer HP. destruct (start_ok oc p m rest P W L) as (q & E & _ & _ & _ & _ & _ & Q & _).
  do 3 eexists. split; [exact E|]. split; [now apply Q|]. unfold negotiated.
  destruct (sp_as32 (match_caps peer (sp_caps p))) eqn:X; [|reflexivity]. apply match_as32 in X. tauto.
Qed.
Lemma start_panic oc p s : client_open_ok p -> bytes_ok s -> (19 <= length s)%nat ->
  (start_active oc p s = Panic <->
   exists t len, is_header (firstn 19 s) t len /\ (len < 19 /\ (oc = true \/ t = MOpen) \/ 4115 < len /\ t = MOpen)).
Proof.
  intros P B L. unfold start_active. destruct (client_send oc p P) as [b ->]. rewrite bind_ok. unfold recv_message_head.
  replace (Nat.ltb (length s) 19) with false by (symmetry; now apply Nat.ltb_ge).
  pose proof (head_spec oc (firstn 19 s) (Forall_firstn _ _ _ B)) as HS.
  assert (U : forall t len t' len', is_header (firstn 19 s) t len -> is_header (firstn 19 s) t' len' -> t = t' /\ len = len').
  { intros t len t' len' (_ & _ & A1 & A2) (_ & _ & A3 & A4). split; [|congruence]. rewrite A2 in A4. injection A4 as A4. destruct t, t'; auto; discriminate. }
  destruct (decode_message_head oc (firstn 19 s)) as [[t n]| | |]; [| | |destruct HS].
  - destruct HS as (len & IH & HS). rewrite !bind_ok.
    assert (HT : forall t0 len0, is_header (firstn 19 s) t0 len0 -> t0 = t /\ len0 = len) by (intros; eapply U; eauto).
    destruct (msgtype_eqb t MOpen) eqn:ET; cbn [negb].
    + assert (t = MOpen) by (destruct t; try discriminate; reflexivity). subst t. clear ET.
      destruct (Nat.ltb_spec 4096 n) as [G|G].
      * split; [intros _|reflexivity]. exists MOpen, len. split; [exact IH|]. clear - HS G. destruct HS as [[? ?]|[? [? ?]]]; [right|left]; auto. split; [lia|reflexivity].
      * split.
        -- destruct (Nat.ltb _ n); [discriminate|]. intros H.
           pose proof (open_decode_total (open_message p) (firstn n (skipn 19 s))) as T.
           destruct (open_decode (open_message p) (firstn n (skipn 19 s))); try discriminate. destruct T.
        -- intros (t0 & len0 & I & D). destruct (HT _ _ I) as [-> ->]. exfalso. clear - HS G D. lia.
    + split; [discriminate|]. intros (t0 & len0 & I & D). destruct (HT _ _ I) as [-> ->]. exfalso.
      assert (t <> MOpen) by (intros ->; discriminate). destruct D as [[D1 [D2|D2]]|[_ D]]; try tauto.
      destruct HS as [[HS _]|[_ [HS _]]]; [clear - HS D1; lia|congruence].
  - split; [discriminate|]. intros (t0 & len0 & I & _). now apply HS in I.
  - split; [intros _|reflexivity]. destruct HS as (-> & t & len & I & K). exists t, len. split; [exact I|]. left. auto.
Qed.
Lemma clear_find l afi sf e : clear_addpath l -> announces l afi sf e -> find_addpath_in l afi sf = Some e.
Proof.
  intros [_ C] (H & A & B). destruct (find_addpath_none l afi sf e H A B) as [x X]. rewrite X. f_equal.
  apply find_addpath_in_spec in X. apply (C afi sf); [exact X|repeat split; auto].
Qed.
Lemma start_addpath oc p m rest afi sf e l : client_open_ok p -> open_wf m -> (length (body_wire p (MsgOpen m)) <= 4096)%nat ->
  clear_addpath (op_caps m) -> clear_addpath (sp_caps p) -> announces (op_caps m) afi sf e -> announces (sp_caps p) afi sf l ->
  forall peer, sp_caps peer = op_caps m ->
  exists out q rest', start_active oc p (S_Open.frame (MOpen, body_wire p (MsgOpen m)) ++ rest) = Ok (out, q, rest') /\
    (check_addpath_receive q afi sf = check_addpath_send (negotiated peer p) afi sf <-> ap_receive e = ap_receive l) /\
    (check_addpath_send q afi sf = check_addpath_receive (negotiated peer p) afi sf <-> ap_send e = ap_send l).
Proof.
  intros P W L CM CP E LL peer HP. destruct (start_ok oc p m rest P W L) as (q & S & QC & _).
  do 3 eexists. split; [exact S|]. unfold check_addpath_receive, check_addpath_send. unfold find_addpath at 1 3. rewrite QC.
  rewrite (clear_find _ afi sf e CM E). unfold negotiated. rewrite (negotiated_entry peer (sp_caps p) afi sf l CP LL).
  - cbn. tauto.
  - exists e. now rewrite HP.
Qed.
