(** Proofs about which OPENs are accepted. *)
From Verif Require Import Base BaseFacts M_Util S_Wire F_Util M_Cap M_Open M_Session F_Open F_Session S_Group F_Group.
Ltac Zify.zify_post_hook ::= idtac.

Lemma other_version self v t : v <> 4 -> (9 <= length t)%nat -> open_decode self (v :: t) = Err EOther.
Proof.
  intros V L. unfold open_decode. destruct (Nat.ltb_spec (length (v :: t)) 10) as [X|_]; [cbn [length] in X; lia|].
  change (idx (v :: t) 0) with (Ok v). rewrite bind_ok. destruct (N.eqb_spec v 4); [contradiction|reflexivity].
Qed.
Lemma any_values self self' asn hold rid asn' hold' rid' ol gs v : asn < 2 ^ 16 -> hold < 2 ^ 16 -> rid < 2 ^ 32 -> asn' < 2 ^ 16 -> hold' < 2 ^ 16 -> rid' < 2 ^ 32 -> groups_ok gs ->
  open_decode self (open_octets asn hold rid ol (params_wire gs)) = Ok (mkOpen asn hold rid v) ->
  open_decode self' (open_octets asn' hold' rid' ol (params_wire gs)) = Ok (mkOpen asn' hold' rid' v).
Proof. intros H1 H2 H3 H4 H5 H6 G E. apply decode_known in E; try assumption. apply decode_known; assumption. Qed.
Lemma any_errors self self' asn hold rid asn' hold' rid' ol gs e : asn < 2 ^ 16 -> hold < 2 ^ 16 -> rid < 2 ^ 32 -> asn' < 2 ^ 16 -> hold' < 2 ^ 16 -> rid' < 2 ^ 32 -> groups_ok gs ->
  open_decode self (open_octets asn hold rid ol (params_wire gs)) = Err e ->
  open_decode self' (open_octets asn' hold' rid' ol (params_wire gs)) = Err e.
Proof. intros H1 H2 H3 H4 H5 H6 G. rewrite !groups_decode by assumption. destruct (known (concat gs)); cbn [bind]; congruence. Qed.
Lemma as4_apart self asn hold rid ol gs gs' n v : asn < 2 ^ 16 -> hold < 2 ^ 16 -> rid < 2 ^ 32 -> n < 2 ^ 32 -> groups_ok (gs ++ [(65, be_bytes 4 n)] :: gs') ->
  open_decode self (open_octets asn hold rid ol (params_wire (gs ++ gs'))) = Ok (mkOpen asn hold rid v) ->
  exists v1 v2, v = v1 ++ v2 /\
  open_decode self (open_octets asn hold rid ol (params_wire (gs ++ [(65, be_bytes 4 n)] :: gs'))) = Ok (mkOpen asn hold rid (v1 ++ CapASN32 n :: v2)) /\
  ((forall m, ~ In (CapASN32 m) v2) -> sp_as (params_of_open (mkOpen asn hold rid (v1 ++ CapASN32 n :: v2))) = n).
Proof.
  intros H1 H2 H3 Hn G E.
  assert (G' : groups_ok (gs ++ gs')). { unfold groups_ok in *. apply Forall_app in G as [G1 G2]. inversion G2; subst. apply Forall_app. auto. }
  apply decode_known in E; try assumption. rewrite concat_app, known_app in E.
  apply bind_Ok_inv in E as (v1 & E1 & E). apply bind_Ok_inv in E as (v2 & E2 & E). injection E as <-. exists v1, v2. split; [reflexivity|]. split.
  2: { intros NI. unfold params_of_open.
    destruct (check_caps_spec (mkParams asn hold ModeV4 true rid (v1 ++ CapASN32 n :: v2) false)) as (_ & _ & _ & _ & _ & _ & C & _).
    eapply C; [reflexivity|]. intros [m I]. exact (NI m I). }
  apply decode_known; try assumption. rewrite concat_app, known_app, E1, bind_ok. cbn [concat]. rewrite known_app, E2.
  assert (K : known [(65, be_bytes 4 n)] = Ok [CapASN32 n]).
  { cbn [known]. unfold from_type_and_data. cbn [N.eqb Pos.eqb]. rewrite length_be_bytes. cbn [Nat.eqb negb].
    rewrite <- (app_nil_r (be_bytes 4 n)), getn_u32_be by exact Hn. reflexivity. }
  rewrite K, !bind_ok. reflexivity.
Qed.
