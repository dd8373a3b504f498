(** Proofs about missing and repeated attributes. *)
From Verif Require Import Base BaseFacts M_Util S_Wire F_Util M_Prefix S_Prefix M_Nlri S_Nlri F_Nlri M_Vpls M_Cap M_Open M_Session M_Mvpn S_Mvpn M_Evpn S_Evpn M_Flowspec S_Flowspec M_Addrs S_Addrs
  M_Attr S_Attr S_Attr3 M_Update S_Update S_Exact S_Exact2 F_Attr4 F_Exact F_Exact2 F_Exact3 F_Exact4 F_Exact6 S_Join F_Join F_Join3 S_Once.
Ltac Zify.zify_post_hook ::= idtac.

Lemma frames_app fs1 fs2 : frames_wire (fs1 ++ fs2) = frames_wire fs1 ++ frames_wire fs2.
Proof. apply flat_map_app. Qed.
Lemma upd_frames oc p w fs nl u : bytes_ok w -> bytes_ok nl -> bytes_ok (frames_wire fs) -> Forall frame_ok fs -> N.of_nat (length w) < 2 ^ 16 -> N.of_nat (length (frames_wire fs)) < 2 ^ 16 ->
  update_decode oc p update_new (upd_body w (frames_wire fs) nl) = Ok u <->
  plain_nlri oc p w (u_withdraws u) /\ Forall2 (frame_reads oc p) fs (u_attrs u) /\ plain_nlri oc p nl (u_updates u).
Proof. intros Bw Bn Bs F Hw Hs. rewrite upd_exact by assumption. now rewrite area_frames by exact F. Qed.
Lemma parts oc p w fs1 fs2 nl u : bytes_ok w -> bytes_ok nl -> bytes_ok (frames_wire (fs1 ++ fs2)) -> Forall frame_ok (fs1 ++ fs2) ->
  N.of_nat (length w) < 2 ^ 16 -> N.of_nat (length (frames_wire (fs1 ++ fs2))) < 2 ^ 16 ->
  update_decode oc p update_new (upd_body w (frames_wire (fs1 ++ fs2)) nl) = Ok u <->
  exists v1 v2, update_decode oc p update_new (upd_body w (frames_wire fs1) nl) = Ok (mkUpd (u_updates u) (u_withdraws u) v1) /\
    update_decode oc p update_new (upd_body w (frames_wire fs2) nl) = Ok (mkUpd (u_updates u) (u_withdraws u) v2) /\ u_attrs u = v1 ++ v2.
Proof.
  intros Bw Bn Bs F Hw Hs. rewrite upd_frames by assumption. rewrite frames_app in *. unfold bytes_ok in Bs. apply Forall_app in Bs as [B1 B2]. apply Forall_app in F as [F1 F2].
  rewrite app_length in Hs. assert (H1 : N.of_nat (length (frames_wire fs1)) < 2 ^ 16) by (clear - Hs; lia). assert (H2 : N.of_nat (length (frames_wire fs2)) < 2 ^ 16) by (clear - Hs; lia).
  split.
  - intros (W & A & U). apply Forall2_app_inv_l in A as (v1 & v2 & A1 & A2 & E). exists v1, v2. rewrite !upd_frames by assumption. cbn [u_updates u_withdraws u_attrs]. auto 7.
  - intros (v1 & v2 & D1 & D2 & E). apply upd_frames in D1 as (W & A1 & U); [|assumption..]. apply upd_frames in D2 as (_ & A2 & _); [|assumption..]. cbn [u_updates u_withdraws u_attrs] in *.
    split; [exact W|]. split; [|exact U]. rewrite E. now apply Forall2_app.
Qed.
Lemma missing oc p w fs1 fs fs2 nl u : bytes_ok w -> bytes_ok nl -> bytes_ok (frames_wire (fs1 ++ fs ++ fs2)) -> Forall frame_ok (fs1 ++ fs ++ fs2) ->
  N.of_nat (length w) < 2 ^ 16 -> N.of_nat (length (frames_wire (fs1 ++ fs ++ fs2))) < 2 ^ 16 ->
  update_decode oc p update_new (upd_body w (frames_wire (fs1 ++ fs ++ fs2)) nl) = Ok u ->
  exists v1 v v2, u_attrs u = v1 ++ v ++ v2 /\ length v = length fs /\
    update_decode oc p update_new (upd_body w (frames_wire (fs1 ++ fs2)) nl) = Ok (mkUpd (u_updates u) (u_withdraws u) (v1 ++ v2)).
Proof.
  intros Bw Bn Bs F Hw Hs D. apply upd_frames in D as (W & A & U); [|assumption..]. rewrite !frames_app in *. unfold bytes_ok in Bs. rewrite !Forall_app in Bs. rewrite !Forall_app in F. rewrite !app_length in Hs.
  apply Forall2_app_inv_l in A as (v1 & v' & A1 & A' & E). apply Forall2_app_inv_l in A' as (v & v2 & Av & A2 & ->).
  exists v1, v, v2. split; [exact E|]. split; [clear - Av; induction Av; cbn [length]; congruence|]. rewrite <- frames_app. apply upd_frames; auto.
  - rewrite frames_app. apply Forall_app. tauto.
  - apply Forall_app. tauto.
  - rewrite frames_app, app_length. clear - Hs. lia.
  - cbn [u_updates u_withdraws u_attrs]. split; [exact W|]. split; [now apply Forall2_app|exact U].
Qed.
(** getters *)
Lemma first_app {T} (g : attr -> option T) l l' : first_attr g (l ++ l') = match first_attr g l with Some x => Some x | None => first_attr g l' end.
Proof. induction l as [|a l IH]; [reflexivity|]. cbn [app first_attr]. destruct (g a); [reflexivity|exact IH]. Qed.
Lemma reads_known oc p tc f n d a : attr_reads oc p tc f n d a -> In tc typed_codes -> forall t g b, a <> AUnknown t g b.
Proof.
  intros H I t g b ->. inversion H; subst; try contradiction.
  match goal with P : payload _ _ _ _, Q : In _ plain_codes |- _ => cbn in Q; repeat destruct Q as [<-|Q]; [..|contradiction]; cbn [payload] in P;
    repeat match goal with
    | H : exists _, _ |- _ => destruct H
    | H : _ /\ _ |- _ => destruct H
    | H : _ \/ _ |- _ => destruct H
    end; discriminate end.
Qed.
Lemma first_seen {T} (g : attr -> option T) c oc p fs v : In c typed_codes -> (forall a x, g a = Some x -> attr_code a = c) ->
  (forall a, attr_code a = c -> (forall t f b, a <> AUnknown t f b) -> g a <> None) -> Forall2 (frame_reads oc p) fs v ->
  first_attr g v = None <-> absent c fs.
Proof.
  intros I C K A. induction A as [|[[f tc] d] a fs v R A IH]; [split; [intros _ f d []|reflexivity]|].
  cbn [first_attr]. cbn [frame_reads] in R. pose proof (reads_code _ _ _ _ _ _ _ R) as Rc. destruct (g a) as [x|] eqn:G.
  - split; [discriminate|]. intros Ab. apply C in G. rewrite Rc in G. subst c. exfalso. apply (Ab f d). now left.
  - rewrite IH. split; intros Ab f' d' J.
    + destruct J as [J|J]; [|exact (Ab _ _ J)]. injection J as -> -> ->. apply (K a Rc); [exact (reads_known _ _ _ _ _ _ _ R I)|exact G].
    + apply (Ab f' d'). now right.
Qed.
Ltac getter := intros; match goal with a : attr |- _ => destruct a end; try discriminate; try congruence; try reflexivity; exfalso; match goal with H : forall t f b, _ |- _ => eapply H; reflexivity end.
Lemma seen oc p w fs nl u : bytes_ok w -> bytes_ok nl -> bytes_ok (frames_wire fs) -> Forall frame_ok fs -> N.of_nat (length w) < 2 ^ 16 -> N.of_nat (length (frames_wire fs)) < 2 ^ 16 ->
  update_decode oc p update_new (upd_body w (frames_wire fs) nl) = Ok u ->
  (get_attr_origin u = None <-> absent 1 fs) /\ (get_attr_aspath u = None <-> absent 2 fs) /\ (get_attr_nexthop u = None <-> absent 3 fs) /\
  (get_attr_communitylist u = None <-> absent 8 fs) /\ (get_mpupdates u = None <-> absent 14 fs) /\ (get_mpwithdraws u = None <-> absent 15 fs) /\
  (get_attr_extcommunitylist u = None <-> absent 16 fs) /\ (get_attr_largecommunitylist u = None <-> absent 32 fs).
Proof.
  intros Bw Bn Bs F Hw Hs D. apply upd_frames in D as (_ & A & _); [|assumption..].
  repeat split; try (eapply first_seen; [cbn; tauto|getter|getter|exact A]).
Qed.
Lemma first_kept {T} (g : attr -> option T) c l l' : (forall a x, g a = Some x -> attr_code a = c) ->
  (In c (map attr_code l') -> first_attr g l <> None) -> first_attr g (l ++ l') = first_attr g l.
Proof.
  intros C H. rewrite first_app. destruct (first_attr g l) as [x|]; [reflexivity|]. destruct (first_attr g l') as [y|] eqn:E; [|reflexivity].
  apply first_attr_In in E as (a & I & G). exfalso. apply H; [|reflexivity]. rewrite <- (C _ _ G). now apply in_map.
Qed.
Lemma repeated oc p w fs f tc d nl u v : bytes_ok w -> bytes_ok nl -> bytes_ok (frames_wire (fs ++ [(f, tc, d)])) -> Forall frame_ok (fs ++ [(f, tc, d)]) ->
  N.of_nat (length w) < 2 ^ 16 -> N.of_nat (length (frames_wire (fs ++ [(f, tc, d)]))) < 2 ^ 16 ->
  update_decode oc p update_new (upd_body w (frames_wire fs) nl) = Ok u ->
  update_decode oc p update_new (upd_body w (frames_wire [(f, tc, d)]) nl) = Ok (mkUpd (u_updates u) (u_withdraws u) v) ->
  update_decode oc p update_new (upd_body w (frames_wire (fs ++ [(f, tc, d)])) nl) = Ok (mkUpd (u_updates u) (u_withdraws u) (u_attrs u ++ v)).
Proof. intros Bw Bn Bs F Hw Hs D1 D2. apply parts; auto. exists (u_attrs u), v. cbn [u_updates u_withdraws u_attrs]. destruct u. auto. Qed.
Lemma repeated_first oc p w fs f tc d nl u u' : bytes_ok w -> bytes_ok nl -> bytes_ok (frames_wire (fs ++ [(f, tc, d)])) -> Forall frame_ok (fs ++ [(f, tc, d)]) ->
  N.of_nat (length w) < 2 ^ 16 -> N.of_nat (length (frames_wire (fs ++ [(f, tc, d)]))) < 2 ^ 16 -> ~ absent tc fs ->
  update_decode oc p update_new (upd_body w (frames_wire fs) nl) = Ok u ->
  update_decode oc p update_new (upd_body w (frames_wire (fs ++ [(f, tc, d)])) nl) = Ok u' -> same_getters u' u.
Proof.
  intros Bw Bn Bs F Hw Hs Ab D D'.
  apply parts in D'; [|assumption..]. destruct D' as (v1 & v2 & D1 & D2 & E). rewrite D in D1. injection D1 as ->. cbn [u_attrs] in *.
  rewrite frames_app in *. unfold bytes_ok in Bs. apply Forall_app in Bs as [B1 B2]. apply Forall_app in F as [F1 F2]. rewrite app_length in Hs.
  assert (H1 : N.of_nat (length (frames_wire fs)) < 2 ^ 16) by (clear - Hs; lia). assert (H2 : N.of_nat (length (frames_wire [(f, tc, d)])) < 2 ^ 16) by (clear - Hs; lia).
  apply upd_frames in D2 as (_ & A2 & _); [|assumption..]. apply frame_codes in A2. cbn [map fst snd u_attrs] in A2.
  pose proof (seen _ _ _ _ _ _ Bw Bn B1 F1 Hw H1 D) as (S1 & S2 & S3 & S4 & S5 & S6 & S7 & S8).
  unfold same_getters, get_attr_origin, get_attr_aspath, get_attr_communitylist, get_attr_largecommunitylist, get_attr_extcommunitylist, get_attr_nexthop, get_mpupdates, get_mpwithdraws in *.
  rewrite E. cbn [u_attrs] in *.
  repeat match goal with |- _ /\ _ => split end;
    [apply (first_kept _ 1)|apply (first_kept _ 2)|apply (first_kept _ 8)|apply (first_kept _ 32)|apply (first_kept _ 16)|apply (first_kept _ 3)|apply (first_kept _ 14)|apply (first_kept _ 15)];
    try (intros a x; destruct a; intros H; try discriminate H; reflexivity); rewrite A2; (intros [X|[]]; subst tc; intros N0; apply Ab; tauto).
Qed.
