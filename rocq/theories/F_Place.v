(** Proofs about the places of routes in an UPDATE. *)
From Verif Require Import Base BaseFacts M_Util S_Wire F_Util M_Prefix S_Prefix M_Nlri S_Nlri F_Nlri M_Vpls M_Cap M_Open M_Session M_Mvpn S_Mvpn M_Evpn S_Evpn M_Flowspec S_Flowspec M_Addrs S_Addrs
  M_Attr S_Attr S_Attr3 M_Update S_Update F_Update S_Exact S_Exact2 F_Attr4 F_Exact F_Exact2 F_Exact3 F_Exact4 F_Exact6 S_Join F_Join F_Join3 S_Eor F_Eor S_Place.
Ltac Zify.zify_post_hook ::= idtac.

Lemma afi_octets p : [0; fam_afi p] = be_bytes 2 (fam_afi p).
Proof. unfold fam_afi. destruct (sp_mode p); reflexivity. Qed.
Lemma afi_small p : fam_afi p < 2 ^ 16.
Proof. unfold fam_afi. destruct (sp_mode p); reflexivity. Qed.
Lemma hop_len p x : length (hop_octets p x) = match sp_mode p with ModeV4 => 4%nat | ModeV6 => 16%nat end.
Proof. unfold hop_octets. destruct (sp_mode p); now rewrite length_be_bytes. Qed.
Lemma app_cut {A} (a b a' b' : list A) : length a = length a' -> a ++ b = a' ++ b' -> a = a' /\ b = b'.
Proof. revert a'. induction a as [|x a IH]; intros [|y a'] L E; try discriminate L; [auto|]. injection E as -> E. injection L as L. destruct (IH _ L E) as [-> ->]. auto. Qed.
Lemma afi_inj p afi : afi < 2 ^ 16 -> be_bytes 2 (fam_afi p) = be_bytes 2 afi -> afi = fam_afi p.
Proof. intros H E. apply (f_equal be_val) in E. rewrite !be_val_be_bytes in E by (exact H || apply afi_small). now symmetry. Qed.

Lemma plain_fam oc p r a : plain_nlri oc p r a <-> exists n, nlri_reads oc p (fam_afi p) 1 r a n.
Proof. unfold plain_nlri, fam_afi. destruct (sp_mode p); reflexivity. Qed.

Lemma unreach_is oc p r a : unreach_reads oc p (unreach_octets p r) a <-> plain_nlri oc p r a.
Proof.
  unfold unreach_octets. rewrite plain_fam. split.
  - intros (afi & sf & s & n & E & Ha & R). change ([0; fam_afi p; 1] ++ r) with ([0; fam_afi p] ++ [1] ++ r) in E. rewrite afi_octets in E.
    apply app_cut in E as [E1 E]; [|now rewrite !length_be_bytes]. apply afi_inj in E1; [|exact Ha]. injection E as <- <-. subst afi. exists n. exact R.
  - intros [n R]. exists (fam_afi p), 1, r, n. change ([0; fam_afi p; 1] ++ r) with ([0; fam_afi p] ++ [1] ++ r). rewrite afi_octets. split; [reflexivity|]. split; [apply afi_small|exact R].
Qed.
Lemma reach_is oc p x r nh a : hop_fits p x -> reach_reads oc p (reach_octets p x r) nh a <-> nh = hop_seen p x /\ plain_nlri oc p r a.
Proof.
  intros Hx. unfold reach_octets. rewrite plain_fam. set (k := match sp_mode p with ModeV4 => 4 | ModeV6 => 16 end). split.
  - intros (afi & sf & nhlen & h & c & s & rest & n & E & Ha & H & S0 & R).
    change ([0; fam_afi p; 1; k] ++ hop_octets p x ++ [0] ++ r) with ([0; fam_afi p] ++ [1; k] ++ hop_octets p x ++ [0] ++ r) in E. rewrite afi_octets in E.
    apply app_cut in E as [E1 E]; [|now rewrite !length_be_bytes]. apply afi_inj in E1; [|exact Ha]. subst afi.
    change ([1; k] ++ hop_octets p x ++ [0] ++ r) with (1 :: k :: hop_octets p x ++ [0] ++ r) in E.
    change ([sf; nhlen] ++ h ++ [c] ++ s) with (sf :: nhlen :: h ++ [c] ++ s) in E. injection E as <- <- E.
    assert (G : length h = length (hop_octets p x) /\ nh = hop_seen p x).
    { rewrite hop_len. unfold hop_seen, hop_fits, hop_octets, fam_afi, k in *. clear - H E Hx.
      destruct (sp_mode p); inversion H; subst; try discriminate; try match goal with I : In 1 _ |- _ => cbn in I; exfalso; clear - I; repeat (destruct I as [I|I]; [discriminate I|]); contradiction end.
      - match goal with Q : N.of_nat (4 + length ?y) = 4 |- _ => assert (L : length y = 0%nat) by (clear - Q; lia); rewrite L in *; destruct y; [|discriminate L] end.
        split; [congruence|]. match goal with Q : _ = be_bytes 4 _ ++ _, P : _ < 2 ^ 32 |- _ => cbn [app] in Q; rewrite <- E in Q; apply app_cut in Q as [Q _]; [|now rewrite !length_be_bytes]; apply (f_equal be_val) in Q; rewrite !be_val_be_bytes in Q by assumption end. congruence.
      - match goal with Q : N.of_nat (16 + length ?y) = 16 |- _ => assert (L : length y = 0%nat) by (clear - Q; lia); rewrite L in *; destruct y; [|discriminate L] end.
        split; [congruence|]. match goal with Q : _ = be_bytes 16 _ ++ _, P : _ < 2 ^ 128 |- _ => cbn [app] in Q; rewrite <- E in Q; apply app_cut in Q as [Q _]; [|now rewrite !length_be_bytes]; apply (f_equal be_val) in Q; rewrite !be_val_be_bytes in Q by assumption end. congruence. }
    destruct G as [G ->]. split; [reflexivity|]. apply app_cut in E as [_ E]; [|now symmetry]. injection E as <- <-. inversion S0; subst. exists n. exact R.
  - intros [-> [n R]]. exists (fam_afi p), 1, k, (hop_octets p x), 0, r, r, n.
    change ([0; fam_afi p; 1; k] ++ hop_octets p x ++ [0] ++ r) with ([0; fam_afi p] ++ [1; k] ++ hop_octets p x ++ [0] ++ r). rewrite afi_octets.
    split; [reflexivity|]. split; [apply afi_small|]. split; [|split; [constructor|exact R]].
    rewrite hop_len. unfold hop_seen, hop_fits, hop_octets, fam_afi, k in *. destruct (sp_mode p).
    + apply (hop_v4 1 1 4 _ x [] ([0] ++ r)); auto. now left.
    + apply (hop_v6 2 1 16 _ x [] ([0] ++ r)); auto. now left.
Qed.
Lemma one_attr oc p f tc d v : N.of_nat (length d) <= len_max f -> area_of (attr_reads oc p) (frame f tc d) v <-> exists a, v = [a] /\ attr_reads oc p tc f (length d) d a.
Proof.
  intros L. rewrite <- (app_nil_r (frame f tc d)). split.
  - intros A. apply area_inv in A as [[X _]|(f' & tc' & d' & s & a & v' & X & L' & R & A & ->)]; [discriminate|].
    apply frame_inj in X as (<- & <- & <- & <-); auto. inversion A; subst; eauto.
  - intros (a & -> & R). apply area_more; [exact L|exact R|constructor].
Qed.
Lemma is_reach oc p f n d a : attr_reads oc p 14 f n d a <-> exists nh l, a = AMPUpdates nh l /\ reach_reads oc p d nh l.
Proof.
  split; [|intros (nh & l & -> & R); now constructor]. intros R. inversion R; subst.
  - match goal with H : In _ plain_codes |- _ => cbn in H; clear - H; exfalso; repeat (destruct H as [H|H]; [discriminate H|]); contradiction end.
  - eauto.
  - match goal with H : ~ In _ typed_codes |- _ => exfalso; apply H; cbn; tauto end.
Qed.
Lemma is_unreach oc p f n d a : attr_reads oc p 15 f n d a <-> exists l, a = AMPWithdraws l /\ unreach_reads oc p d l.
Proof.
  split; [|intros (l & -> & R); now constructor]. intros R. inversion R; subst.
  - match goal with H : In _ plain_codes |- _ => cbn in H; clear - H; exfalso; repeat (destruct H as [H|H]; [discriminate H|]); contradiction end.
  - eauto.
  - match goal with H : ~ In _ typed_codes |- _ => exfalso; apply H; cbn; tauto end.
Qed.
Lemma nothing oc p : exists e, plain_nlri oc p [] e /\ addrs_is_empty e = true.
Proof. destruct (plain_list p) as [e E]. exists e. now apply (plain_none oc p [] e), (conj E), stray_nil. Qed.
Lemma nothing_is oc p e : plain_nlri oc p [] e -> addrs_is_empty e = true.
Proof. 
  unfold plain_nlri. intros [n R]. destruct (sp_mode p); cbn [nlri_reads] in R; destruct R as [[_ (v & M & ->)]|[_ (v & M & ->)]]; inversion M; subst; try reflexivity.
  all: try congruence.
  all: match goal with H : [] = be_bytes 4 _ ++ _ |- _ => apply (f_equal (@length N)) in H; rewrite app_length, length_be_bytes in H; discriminate H end.
Qed.

Lemma empty_forms oc p w e : plain_nlri oc p [] w -> plain_nlri oc p [] e -> addrs_is_empty w = true /\ addrs_is_empty e = true.
Proof. intros A B. split; eapply nothing_is; eassumption. Qed.
Lemma frame_len f tc d : length (frame f tc d) = (2 + (if N.testbit f 4 then 2 else 1) + length d)%nat.
Proof. unfold frame, len_octets, fl_extended. rewrite !app_length, length_be_bytes. cbn [length]. destruct (N.testbit f 4); reflexivity. Qed.
Lemma reach_len p x r : length (reach_octets p x r) = ((match sp_mode p with ModeV4 => 9 | ModeV6 => 21 end) + length r)%nat.
Proof. unfold reach_octets. rewrite !app_length, hop_len. destruct (sp_mode p); reflexivity. Qed.
Lemma hop_bytes p x : bytes_ok (hop_octets p x).
Proof. unfold hop_octets. destruct (sp_mode p); apply be_bytes_ok. Qed.
Lemma afi_byte p : is_byte (fam_afi p).
Proof. unfold fam_afi. destruct (sp_mode p); reflexivity. Qed.
Lemma reach_bytes p x r : bytes_ok r -> bytes_ok (reach_octets p x r).
Proof.
  intros B. unfold reach_octets. apply Forall_app. split; [|apply Forall_app; split; [apply hop_bytes|apply Forall_cons; [reflexivity|exact B]]].
  apply Forall_cons; [reflexivity|]. apply Forall_cons; [apply afi_byte|]. apply Forall_cons; [reflexivity|]. apply Forall_cons; [destruct (sp_mode p); reflexivity|apply Forall_nil].
Qed.
Lemma unreach_bytes p r : bytes_ok r -> bytes_ok (unreach_octets p r).
Proof. intros B. unfold unreach_octets. apply Forall_cons; [reflexivity|]. apply Forall_cons; [apply afi_byte|]. apply Forall_cons; [reflexivity|exact B]. Qed.
Lemma frame_bytes f tc d : f < 256 -> tc < 256 -> bytes_ok d -> bytes_ok (frame f tc d).
Proof. intros Hf Ht B. unfold frame. apply Forall_cons; [exact Hf|]. apply Forall_cons; [exact Ht|]. apply Forall_app. split; [apply be_bytes_ok|exact B]. Qed.

Lemma carried_read oc p l r u : bytes_ok r -> room p l (N.of_nat (length r)) ->
  update_decode oc p update_new (carried p l r) = Ok u <-> exists a, plain_nlri oc p r a /\ said p l u a /\
    (match l with Announced => True | _ => plain_nlri oc p [] (u_updates u) end) /\ (match l with Withdrawn => True | _ => plain_nlri oc p [] (u_withdraws u) end).
Proof.
  intros B R. assert (B0 : bytes_ok []) by constructor. destruct l as [| |f x|f]; cbn [room] in R.
  - change (carried p Announced r) with (upd_body [] [] r). rewrite upd_exact by (auto; reflexivity). cbn [said]. split.
    + intros (W & A & U). apply area_inv in A as [[_ A]|(f & tc & d & s & a & v & X & _)]; [|discriminate X]. exists (u_updates u). pose proof (nothing_is _ _ _ W). auto.
    + intros (a & P & (U & W & A) & _ & W'). rewrite A, U. split; [exact W'|]. split; [constructor|exact P].
  - assert (E : carried p Withdrawn r = upd_body r [] []) by reflexivity. rewrite E, upd_exact by (auto; try reflexivity; clear - R; lia). cbn [said]. split.
    + intros (W & A & U). apply area_inv in A as [[_ A]|(f & tc & d & s & a & v & X & _)]; [|discriminate X]. exists (u_withdraws u). pose proof (nothing_is _ _ _ U). auto.
    + intros (a & P & (W & U & A) & U' & _). rewrite A, W. split; [exact P|]. split; [constructor|exact U'].
  - destruct R as (Hf & Hx & R). assert (E : carried p (Reach f x) r = upd_body [] (frame f 14 (reach_octets p x r)) []) by (unfold carried, upd_body; rewrite app_nil_r; reflexivity).
    assert (L : N.of_nat (length (reach_octets p x r)) <= len_max f) by (rewrite reach_len; unfold len_max, fl_extended; destruct (sp_mode p), (N.testbit f 4); clear - R; lia).
    rewrite E, upd_exact; [|exact B0|apply frame_bytes; [exact Hf|reflexivity|now apply reach_bytes]|exact B0|reflexivity|rewrite frame_len, reach_len; destruct (sp_mode p), (N.testbit f 4); clear - R; lia].
    rewrite one_attr by exact L. setoid_rewrite is_reach. cbn [said]. split.
    + intros (W & (a & A & nh & q & -> & Q) & U). apply reach_is in Q as [-> Q]; [|exact Hx]. exists q. pose proof (nothing_is _ _ _ U). pose proof (nothing_is _ _ _ W). auto 10.
    + intros (a & P & (A & U & W) & U' & W'). split; [exact W'|]. split; [|exact U']. eexists. split; [exact A|]. eexists _, _. split; [reflexivity|]. now apply reach_is.
  - destruct R as (Hf & R). assert (E : carried p (Unreach f) r = upd_body [] (frame f 15 (unreach_octets p r)) []) by (unfold carried, upd_body; rewrite app_nil_r; reflexivity).
    assert (LU : length (unreach_octets p r) = (3 + length r)%nat) by reflexivity.
    assert (L : N.of_nat (length (unreach_octets p r)) <= len_max f) by (rewrite LU; unfold len_max, fl_extended; destruct (N.testbit f 4); clear - R; lia).
    rewrite E, upd_exact; [|exact B0|apply frame_bytes; [exact Hf|reflexivity|now apply unreach_bytes]|exact B0|reflexivity|rewrite frame_len, LU; destruct (N.testbit f 4); clear - R; lia].
    rewrite one_attr by exact L. setoid_rewrite is_unreach. cbn [said]. split.
    + intros (W & (a & A & q & -> & Q) & U). apply unreach_is in Q. exists q. pose proof (nothing_is _ _ _ U). pose proof (nothing_is _ _ _ W). auto 10.
    + intros (a & P & (A & U & W) & U' & W'). split; [exact W'|]. split; [|exact U']. eexists. split; [exact A|]. eexists. split; [reflexivity|]. now apply unreach_is.
Qed.
Lemma places_agree oc p l l' r u : bytes_ok r -> room p l (N.of_nat (length r)) -> room p l' (N.of_nat (length r)) ->
  update_decode oc p update_new (carried p l r) = Ok u ->
  exists a, said p l u a /\ exists u', update_decode oc p update_new (carried p l' r) = Ok u' /\ said p l' u' a.
Proof.
  intros B R R' D. apply carried_read in D as (a & P & S0 & _); [|exact B|exact R]. exists a. split; [exact S0|].
  destruct (nothing oc p) as (e & E & Em).
  exists (match l' with Announced => mkUpd a e [] | Withdrawn => mkUpd e a [] | Reach _ x => mkUpd e e [AMPUpdates (hop_seen p x) a] | Unreach _ => mkUpd e e [AMPWithdraws a] end).
  assert (S1 : said p l' (match l' with Announced => mkUpd a e [] | Withdrawn => mkUpd e a [] | Reach _ x => mkUpd e e [AMPUpdates (hop_seen p x) a] | Unreach _ => mkUpd e e [AMPWithdraws a] end) a)
    by (destruct l'; cbn; auto).
  split; [|exact S1]. apply carried_read; [exact B|exact R'|]. exists a. split; [exact P|]. split; [exact S1|]. destruct l'; cbn; auto.
Qed.

(** ** Sent *)
Lemma own_session p a : own_list p a -> session_list p a = true /\ get_afi_safi a = (fam_afi p, 1).
Proof. unfold own_list, session_list, fam_afi. destruct (sp_mode p), a; try contradiction; intros _; split; reflexivity. Qed.
Lemma items_ok {T} (W : T -> N * list N) (P : T -> Prop) v : (forall x, P x -> bytes_ok (fst (W x) :: snd (W x))) -> Forall P v -> bytes_ok (items_wire W v).
Proof. intros H F. induction F as [|x v X F IH]; [constructor|]. change (bytes_ok ((fst (W x) :: snd (W x)) ++ items_wire W v)). apply Forall_app. split; [exact (H x X)|exact IH]. Qed.
Lemma pid_items_ok {T} (W : T -> N * list N) (P : withPathId T -> Prop) v : (forall x, P x -> bytes_ok (fst (W (pid_nlri x)) :: snd (W (pid_nlri x)))) -> Forall P v -> bytes_ok (pid_items_wire W v).
Proof.
  intros H F. induction F as [|x v X F IH]; [constructor|].
  change (bytes_ok ((be_bytes 4 (pid x) ++ fst (W (pid_nlri x)) :: snd (W (pid_nlri x))) ++ pid_items_wire W v)). apply Forall_app. split; [|exact IH].
  apply Forall_app. split; [apply be_bytes_ok|exact (H x X)].
Qed.
Lemma v4w_ok x : v4_wf x -> bytes_ok (fst (v4_wire x) :: snd (v4_wire x)).
Proof. intros [_ L]. apply Forall_cons; [unfold is_byte; cbn; clear - L; lia|]. apply Forall_firstn, be_bytes_ok. Qed.
Lemma v6w_ok x : v6_wf x -> bytes_ok (fst (v6_wire x) :: snd (v6_wire x)).
Proof. intros [_ L]. apply Forall_cons; [unfold is_byte; cbn; clear - L; lia|]. apply Forall_firstn, be_bytes_ok. Qed.
Lemma own_bytes p a : own_list p a -> addrs_wf a -> bytes_ok (addrs_wire a).
Proof.
  unfold own_list. destruct (sp_mode p), a; try contradiction; intros _ W; cbn [addrs_wf addrs_wire] in *.
  - exact (items_ok _ _ _ v4w_ok W).
  - refine (pid_items_ok _ _ _ _ W). intros x X. apply v4w_ok. apply X.
  - exact (items_ok _ _ _ v6w_ok W).
  - refine (pid_items_ok _ _ _ _ W). intros x X. apply v6w_ok. apply X.
Qed.
Lemma places_sent oc p a : own_list p a -> addrs_wf a -> exists r, bytes_ok r /\
  forall l u buf, said p l u a -> room p l (N.of_nat (length r)) -> sent_flags l -> (length (carried p l r) <= length buf)%nat ->
    update_encode oc p u buf = Ok (length (carried p l r), carried p l r ++ skipn (length (carried p l r)) buf).
Proof.
  intros O W. destruct (own_session p a O) as [SL FA]. exists (addrs_wire a).
  assert (NW : nlri_wire p a = addrs_wire a) by (unfold nlri_wire; now rewrite SL).
  split; [now apply (own_bytes p)|]. intros l u buf S0 R F L. destruct u as [up wd v].
  assert (EQ : update_wire p (mkUpd up wd v) = carried p l (addrs_wire a) /\ writes (update_encode oc p (mkUpd up wd v)) (update_wire p (mkUpd up wd v)) (length (update_wire p (mkUpd up wd v)))).
  { destruct l as [| |f x|f]; cbn [said u_updates u_withdraws u_attrs] in S0; destruct S0 as (E1 & E2 & E3); subst.
    - destruct (empty_session p _ E2) as [W2 F2]. split.
      + unfold update_wire. cbn [u_updates u_withdraws u_attrs]. rewrite W2, NW. reflexivity.
      + apply update_encode_general; cbn [u_updates u_withdraws u_attrs]; auto; [rewrite W2; cbn; clear; lia].
    - destruct (empty_session p _ E2) as [W2 F2]. split.
      + unfold update_wire. cbn [u_updates u_withdraws u_attrs]. rewrite W2, NW. cbn [attrs_wire flat_map]. now rewrite app_nil_r.
      + apply update_encode_general; cbn [u_updates u_withdraws u_attrs]; auto. rewrite NW. exact R.
    - destruct (empty_session p _ E2) as [W2 F2]. destruct (empty_session p _ E3) as [W3 F3]. cbn [sent_flags] in F. subst f. destruct R as (_ & Hx & R).
      assert (WR : attr_wire p (AMPUpdates (hop_seen p x) a) = reach_octets p x (addrs_wire a)).
      { cbn [attr_wire]. unfold mp_reach_wire, reach_octets. rewrite FA. cbn [fst snd]. rewrite <- afi_octets. unfold hop_seen, hop_octets.
        destruct (sp_mode p); cbn [bgpaddr_wire]; rewrite length_be_bytes; reflexivity. }
      split.
      + unfold update_wire. cbn [u_updates u_withdraws u_attrs]. rewrite W2, W3. unfold attrs_wire, attr_full. cbn [flat_map]. rewrite WR, !app_nil_r. reflexivity.
      + apply update_encode_general; cbn [u_updates u_withdraws u_attrs]; auto.
        * repeat constructor.
          -- unfold hop_seen, hop_fits in *. destruct (sp_mode p); exact Hx.
          -- exact W.
          -- rewrite WR, reach_len. change (len_max (attr_flags (AMPUpdates (hop_seen p x) a))) with 65535. change (N.testbit 144 4) with true in R; cbv iota in R. destruct (sp_mode p); clear - R; lia.
        * rewrite W3. cbn. clear; lia.
        * right. cbn. clear; lia.
    - destruct (empty_session p _ E2) as [W2 F2]. destruct (empty_session p _ E3) as [W3 F3]. cbn [sent_flags] in F. subst f. destruct R as (_ & R).
      assert (WR : attr_wire p (AMPWithdraws a) = unreach_octets p (addrs_wire a)).
      { cbn [attr_wire]. unfold mp_unreach_wire, unreach_octets. rewrite FA. cbn [fst snd]. rewrite <- afi_octets. reflexivity. }
      split.
      + unfold update_wire. cbn [u_updates u_withdraws u_attrs]. rewrite W2, W3. unfold attrs_wire, attr_full. cbn [flat_map]. rewrite WR, !app_nil_r. reflexivity.
      + apply update_encode_general; cbn [u_updates u_withdraws u_attrs]; auto.
        * repeat constructor; [exact W|]. rewrite WR. change (N.testbit 144 4) with true in R; cbv iota in R. change (len_max (attr_flags (AMPWithdraws a))) with 65535.
          change (length (unreach_octets p (addrs_wire a))) with (3 + length (addrs_wire a))%nat. clear - R; lia.
        * rewrite W3. cbn. clear; lia.
        * right. cbn. clear; lia. }
  destruct EQ as [EQ WR]. rewrite <- EQ in *. apply writes_spec; assumption.
Qed.
