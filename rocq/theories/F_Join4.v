(** Lists of routes that do not go together. *)
From Verif Require Import Base BaseFacts M_Util S_Wire F_Util M_Prefix S_Prefix M_Nlri S_Nlri F_Nlri M_Vpls M_Cap M_Open M_Session M_Mvpn S_Mvpn M_Evpn S_Evpn M_Flowspec S_Flowspec M_Addrs S_Addrs
  M_Attr S_Attr S_Attr3 M_Update S_Update S_Exact S_Exact2 F_Attr4 F_Exact F_Exact2 F_Exact3 F_Exact4 F_Exact6 S_Join F_Join.
Ltac Zify.zify_post_hook ::= idtac.

Lemma octets_4 bits : bits <= 32 -> (prefix_octets bits <= 4)%nat.
Proof. intros H. apply octets_le. cbn. lia. Qed.
Lemma flow_join oc p bits s x b2 : bits <= 32 -> length s = prefix_octets bits -> bytes_ok s -> is_byte x -> bytes_ok b2 ->
  let rule := [1; bits] ++ s in let b1 := N.of_nat (length rule) :: rule in
  exists a, v4_len a = bits /\ be_bytes 4 (v4_addr a) = s ++ repeat 0 (4 - length s) /\
    addrs_decode oc p 1 133 b1 = Ok (FS4U [FsDst a], S (length b1)) /\
    comes_after (FS4U [FsDst a]) (S (length b1)) (addrs_decode oc p 1 133 b2) (addrs_decode oc p 1 133 (b1 ++ x :: b2)).
Proof.
  intros Hb Ls Bs Bx B2 rule b1. pose proof (octets_4 _ Hb) as L4. rewrite <- Ls in L4.
  destruct (pad_be 4 (length s) s ltac:(exact L4) ltac:(lia) Bs) as [E1 E2]. rewrite firstn_all in E1, E2.
  set (a := mkV4 (be_val (s ++ repeat 0 (4 - length s))) bits). exists a.
  assert (D : addrs_decode oc p 1 133 b1 = Ok (FS4U [FsDst a], S (length b1))).
  { assert (B1 : bytes_ok b1). { unfold b1, rule. cbn [app length]. apply Forall_cons; [unfold is_byte; lia|]. apply Forall_cons; [reflexivity|]. apply Forall_cons; [unfold is_byte; lia|exact Bs]. }
    apply nlri_exact_l; [exact B1|]. cbn [nlri_reads]. exists [FsDst a]. split; [|reflexivity].
    replace (S (length b1)) with (S (length b1) + 0)%nat by lia. apply many_cons; [discriminate| |].
    - exists 1%nat, (bits :: s), (S (length s)). split.
      + exists []. left. split; [reflexivity|]. split; [cbn [fs_code length]; lia|]. cbn [fs_code]. now rewrite app_nil_r.
      + split; [|unfold b1, rule; cbn [app length]; lia]. exists bits, s, (length s). split; [reflexivity|]. split; [|reflexivity].
        split; [exact Hb|]. split; [exact Ls|]. split; [reflexivity|]. split; [exact E2|]. exists s, []. rewrite app_nil_r. auto.
    - rewrite skipn_all2 by lia. constructor. }
  split; [reflexivity|]. split; [exact E1|]. split; [exact D|].
  assert (B1 : bytes_ok b1). { unfold b1, rule. cbn [app length]. apply Forall_cons; [unfold is_byte; lia|]. apply Forall_cons; [reflexivity|]. apply Forall_cons; [unfold is_byte; lia|exact Bs]. }
  pose proof (routes_join oc p 1 133 b1 (x :: b2) _ _ B1 ltac:(now constructor) D ltac:(lia) ltac:(left; cbn; auto)) as J.
  replace (S (length b1) - length b1)%nat with 1%nat in J by lia. exact J.
Qed.
Lemma fuzzy_join oc p b2 v n : sp_fuzzy p = true -> check_addpath_receive p 1 1 = false -> bytes_ok (0 :: b2) -> (3 <= length b2)%nat ->
  addrs_decode oc p 1 1 (0 :: b2) = Ok (IPV4U v, n) ->
  addrs_decode oc p 1 1 [0] = Ok (IPV4U [mkV4 0 0], 1%nat) /\
  ~ comes_after (IPV4U [mkV4 0 0]) 1 (addrs_decode oc p 1 1 (0 :: b2)) (addrs_decode oc p 1 1 ([0] ++ 0 :: b2)).
Proof.
  intros Z C B L D. split.
  - unfold addrs_decode. cbn [N.eqb Pos.eqb]. unfold dec_fam, use_pathid. rewrite C, Z. cbn. now destruct oc.
  - intros [J _]. assert (H : addrs_decode oc p 1 1 ([0] ++ 0 :: b2) = Ok (IPV4U ([mkV4 0 0] ++ v), (1 + n)%nat)) by (apply J; exists (IPV4U v), n; auto).
    apply nlri_exact_l in H; [|now apply Forall_cons]. cbn [nlri_reads] in H. destruct H as [(_ & w & _ & E)|(A & _)]; [discriminate|].
    apply A. right. split; [exact Z|]. split; [cbn [app length]; lia|]. exists b2. reflexivity.
Qed.
