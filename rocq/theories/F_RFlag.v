(** Proofs about the flags of received attributes. *)
From Verif Require Import Base BaseFacts M_Util S_Wire F_Util M_Prefix S_Prefix M_Nlri S_Nlri F_Nlri M_Vpls M_Cap M_Open M_Session M_Mvpn S_Mvpn M_Evpn S_Evpn M_Flowspec S_Flowspec M_Addrs S_Addrs
  M_Attr S_Attr S_Attr3 M_Update S_Update S_Exact S_Exact2 F_Attr4 F_Exact F_Exact2 F_Exact3 F_Exact4 F_Exact6 S_Join F_Join F_Join3 S_Once F_Once S_RFlag.
Ltac Zify.zify_post_hook ::= idtac.

Lemma known_typed tc : In tc known_codes <-> In tc typed_codes.
Proof. cbn. tauto. Qed.
Lemma reads_flags oc p tc f f' n d a : In tc known_codes -> attr_reads oc p tc f n d a -> attr_reads oc p tc f' n d a.
Proof.
  intros I H. apply known_typed in I. inversion H; subst; try contradiction.
  - now apply ar_plain.
  - now apply ar_reach.
  - now apply ar_unreach.
  - now apply ar_pmsi.
  - now apply ar_set.
Qed.
Lemma frame_like oc p x y a : but_for_flags x y -> frame_reads oc p x a <-> frame_reads oc p y a.
Proof.
  destruct x as [[f tc] d], y as [[f' tc'] d']. cbn [but_for_flags frame_reads]. intros (-> & -> & [I| ->]); [|reflexivity].
  split; intros H; eapply reads_flags; eauto.
Qed.
Lemma frames_like oc p fs fs' v : Forall2 but_for_flags fs fs' -> Forall2 (frame_reads oc p) fs v <-> Forall2 (frame_reads oc p) fs' v.
Proof.
  intros H. revert v. induction H as [|x y fs fs' H F IH]; intros v; [reflexivity|].
  split; intros A; inversion A as [|? a ? v' R A' X Y]; subst; constructor; try (apply IH; exact A'); apply (frame_like oc p _ _ a H); exact R.
Qed.
Lemma flags_ignored oc p w fs fs' nl u : Forall2 but_for_flags fs fs' -> bytes_ok w -> bytes_ok nl -> bytes_ok (frames_wire fs) -> bytes_ok (frames_wire fs') ->
  Forall frame_ok fs -> Forall frame_ok fs' -> N.of_nat (length w) < 2 ^ 16 -> N.of_nat (length (frames_wire fs)) < 2 ^ 16 -> N.of_nat (length (frames_wire fs')) < 2 ^ 16 ->
  update_decode oc p update_new (upd_body w (frames_wire fs) nl) = Ok u <-> update_decode oc p update_new (upd_body w (frames_wire fs') nl) = Ok u.
Proof. intros L Bw Bn B B' F F' Hw H H'. rewrite !upd_frames by assumption. now rewrite (frames_like oc p fs fs') by exact L. Qed.
Lemma attr_flags_ignored oc p tc f f' n n' d : In tc known_codes -> attr_decode oc p tc f n d = attr_decode oc p tc f' n' d.
Proof. intros I. cbn in I. repeat (destruct I as [<-|I]; [reflexivity|]). contradiction. Qed.
Lemma unknown_kept oc p w fs f tc d nl u : ~ In tc known_codes -> bytes_ok w -> bytes_ok nl -> bytes_ok (frames_wire (fs ++ [(f, tc, d)])) -> Forall frame_ok (fs ++ [(f, tc, d)]) ->
  N.of_nat (length w) < 2 ^ 16 -> N.of_nat (length (frames_wire (fs ++ [(f, tc, d)]))) < 2 ^ 16 ->
  update_decode oc p update_new (upd_body w (frames_wire fs) nl) = Ok u ->
  update_decode oc p update_new (upd_body w (frames_wire (fs ++ [(f, tc, d)])) nl) = Ok (mkUpd (u_updates u) (u_withdraws u) (u_attrs u ++ [AUnknown tc f d])).
Proof.
  intros I Bw Bn Bs F Hw Hs D. rewrite frames_app in Bs, Hs. unfold bytes_ok in Bs. apply Forall_app in Bs as [B1 B2]. pose proof F as F0. apply Forall_app in F as [F1 F2]. rewrite app_length in Hs.
  apply upd_frames in D as (W & A & U); [|assumption..|clear - Hs; lia].
  apply upd_frames; [assumption..| | | | |].
  - rewrite frames_app. apply Forall_app. auto.
  - exact F0.
  - exact Hw.
  - rewrite frames_app, app_length. exact Hs.
  - cbn [u_updates u_withdraws u_attrs]. split; [exact W|]. split; [|exact U]. apply Forall2_app; [exact A|]. constructor; [|constructor].
    cbn [frame_reads]. rewrite <- (app_nil_r d) at 2. apply ar_unknown; [now rewrite <- known_typed|reflexivity].
Qed.
