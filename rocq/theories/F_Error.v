(** Proofs about the texts of errors (C133). *)
From Coq Require Import Ascii String.
From Verif Require Import Base BaseFacts M_Util M_Nlri M_Session M_Addrs M_Attr M_Text M_Debug M_Debug2 F_Text3 F_Util F_Cap S_Exact3 S_Debug2 F_Debug F_Debug4 F_Debug5 M_Error S_Error.
Ltac Zify.zify_post_hook ::= idtac.

Lemma fmt_says e : error_fmt e = txt "BgpError " ++ says e.
Proof. destruct e; reflexivity. Qed.
Lemma fmt_same e e' : error_fmt e = error_fmt e' <-> says e = says e'.
Proof. rewrite !fmt_says. split; [apply app_inv_head|now intros ->]. Qed.
Lemma kind_lost e : exists e', error_fmt e' = error_fmt e /\ kind_of e' <> kind_of e.
Proof.
  destruct e as [s| | | |s|d g]; [exists (XDynStr s)|exists (XStatic (txt "InsufficientBufferSize"))|exists (XStatic (txt "ProtocolError"))|
    exists (XStatic (txt "TooManyData"))|exists (XStatic s)|exists (XStatic d)]; (split; [reflexivity|discriminate]).
Qed.
Lemma debug_tells pr e e' : error_wf e -> error_wf e' -> (error_debug pr e = error_debug pr e' <-> same_error e e').
Proof.
  intros W W'. destruct e as [s| | | |s|d g], e' as [s'| | | |s'|d' g']; cbn [error_debug d_variant same_error error_wf] in *;
    try (split; [discriminate|discriminate]); try (split; reflexivity).
  - split; [|congruence]. intros E. apply app_inv_head in E. apply app_inv_head in E. apply str_end in E; [|assumption..]. now destruct E as [-> _].
  - split; [|congruence]. intros E. apply app_inv_head in E. apply app_inv_head in E. apply str_end in E; [|assumption..]. now destruct E as [-> _].
  - split; [|now intros ->]. intros E. apply app_inv_head in E. apply app_inv_head in E. now apply app_inv_tail in E.
Qed.
Lemma debug_line pr e : kind_of e <> KOther -> one_line (error_debug pr e).
Proof.
  destruct e as [s| | | |s|d g]; cbn [error_debug d_variant kind_of]; intros H; try lit; try contradiction;
    (apply line_app; [lit|apply line_app; [lit|apply line_app; [apply str_line|lit]]]).
Qed.

Ltac fam := repeat match goal with |- context [if ?b then _ else _] => destruct b eqn:? end.
Lemma family_refused oc p afi sf e : family_error afi sf = Some e -> forall buf, addrs_decode oc p afi sf buf = Err (error_class e).
Proof.
  unfold family_error, addrs_decode. cbn [existsb]. intros H buf.
  destruct (afi =? 1); [|destruct (afi =? 2); [|destruct (afi =? 25)]];
    repeat match type of H with context [sf =? ?k] => destruct (sf =? k); cbn [orb] in H; [discriminate H|] end; inversion H; reflexivity.
Qed.
Lemma family_accepted oc p afi sf : family_error afi sf = None -> exists a, addrs_decode oc p afi sf [] = Ok (a, 0%nat).
Proof.
  unfold family_error. cbn [existsb]. destruct (afi =? 1) eqn:A1; [|destruct (afi =? 2) eqn:A2; [|destruct (afi =? 25) eqn:A3; [|discriminate]]];
    repeat match goal with |- context [sf =? ?k] => destruct (sf =? k) eqn:?; cbn [orb]; [intros _|] end; try discriminate;
    repeat match goal with E : (_ =? _) = true |- _ => apply N.eqb_eq in E; subst end;
    unfold addrs_decode; cbn [N.eqb Pos.eqb]; unfold dec_fam, use_pathid; cbn [is_addpath_nlri]; 
    try (destruct (check_addpath_receive p _ _ || _); eexists; reflexivity); eexists; reflexivity.
Qed.
Lemma nexthop_refuses afi sf e nl buf : nexthop_error afi sf = Some e -> mp_nexthop afi sf nl buf = Err (error_class e).
Proof.
  unfold nexthop_error, mp_nexthop. cbn [existsb]. intros H.
  destruct (afi =? 1); [|destruct (afi =? 2); [|destruct (afi =? 25)]];
    repeat match type of H with context [sf =? ?k] => destruct (sf =? k); cbn [orb] in H; [discriminate H|] end; inversion H; reflexivity.
Qed.
Lemma announce_refused oc p afi sf nl rest e : afi < 65536 -> nexthop_error afi sf = Some e ->
  mpupdates_decode oc p (be_bytes 2 afi ++ sf :: nl :: rest) = Err (error_class e).
Proof.
  intros A H. unfold mpupdates_decode. rewrite getn_u16_mod, N.mod_small by exact A. rewrite bind_ok. cbn [be_bytes app idx nth_error bind Nat.ltb Nat.leb].
  now rewrite (nexthop_refuses afi sf e _ _ H).
Qed.
Lemma withdraw_refused oc p afi sf rest e : afi < 65536 -> family_error afi sf = Some e ->
  mpwithdraws_decode oc p (be_bytes 2 afi ++ sf :: rest) = Err (error_class e).
Proof.
  intros A H. unfold mpwithdraws_decode. rewrite getn_u16_mod, N.mod_small by exact A. rewrite bind_ok. cbn [be_bytes app idx nth_error bind Nat.ltb Nat.leb rfrom length skipn].
  now rewrite (family_refused oc p afi sf e H).
Qed.
Lemma one_way afi sf : family_error afi sf = None /\ nexthop_error afi sf <> None <-> afi = 2 /\ sf = 133.
Proof.
  split; [|intros [-> ->]; split; [reflexivity|discriminate]]. unfold family_error, nexthop_error. cbn [existsb].
  destruct (afi =? 1); [|destruct (afi =? 2) eqn:A; [|destruct (afi =? 25)]];
    repeat match goal with |- context [sf =? ?k] => destruct (sf =? k) eqn:?; cbn [orb]; try (intros [X Y]; first [discriminate X|now elim Y]) end;
    try (intros [X Y]; first [discriminate X|now elim Y]).
  intros _. split; now apply N.eqb_eq.
Qed.
Lemma no_other_way afi sf : nexthop_error afi sf = None -> family_error afi sf = None.
Proof.
  unfold family_error, nexthop_error. cbn [existsb].
  destruct (afi =? 1); [|destruct (afi =? 2) eqn:A; [|destruct (afi =? 25)]];
    repeat match goal with |- context [sf =? ?k] => destruct (sf =? k) eqn:?; cbn [orb]; try (intros X; first [discriminate X|reflexivity]) end; discriminate || reflexivity.
Qed.
Lemma unk_cases afi sf e : family_error afi sf = Some e ->
  (afi = 1 /\ e = XDynStr (txt "Unknown safi for ipv4 " ++ fmt_dec sf)) \/ (afi = 2 /\ e = XDynStr (txt "Unknown safi for ipv6 " ++ fmt_dec sf)) \/
  (afi = 25 /\ e = XDynStr (txt "Unknown safi for l2 " ++ fmt_dec sf)) \/ (~ known_afi afi /\ e = XDynStr (txt "Unknown afi " ++ fmt_dec afi)).
Proof.
  unfold family_error. destruct (afi =? 1) eqn:A; [|destruct (afi =? 2) eqn:B; [|destruct (afi =? 25) eqn:C]]; try (destruct (existsb _ _)); intros H; inversion H; subst e.
  - left. now apply N.eqb_eq in A.
  - right; left. now apply N.eqb_eq in B.
  - do 2 right; left. now apply N.eqb_eq in C.
  - do 3 right. apply N.eqb_neq in A, B, C. split; [|reflexivity]. intros [K|[K|K]]; contradiction.
Qed.
Lemma unk_nh_cases afi sf e : nexthop_error afi sf = Some e ->
  (afi = 1 /\ e = XDynStr (txt "Unknown safi for ipv4 code " ++ fmt_dec sf)) \/ (afi = 2 /\ e = XDynStr (txt "Unknown safi for ipv6: " ++ fmt_dec sf)) \/
  (afi = 25 /\ e = XDynStr (txt "Unknown safi for l2: " ++ fmt_dec sf)) \/ (~ known_afi afi /\ e = XDynStr (txt "Unknown afi code " ++ fmt_dec afi)).
Proof.
  unfold nexthop_error. destruct (afi =? 1) eqn:A; [|destruct (afi =? 2) eqn:B; [|destruct (afi =? 25) eqn:C]]; try (destruct (existsb _ _)); intros H; inversion H; subst e.
  - left. now apply N.eqb_eq in A.
  - right; left. now apply N.eqb_eq in B.
  - do 2 right; left. now apply N.eqb_eq in C.
  - do 3 right. apply N.eqb_neq in A, B, C. split; [|reflexivity]. intros [K|[K|K]]; contradiction.
Qed.
Ltac same := intros E; apply fmt_same in E; cbn [says] in E;
  first [discriminate E | apply app_inv_head in E; apply dec_inj in E; subst; now split | apply app_inv_head in E; apply dec_inj in E; subst; contradiction].
Lemma family_named afi sf e afi' sf' e' : known_afi afi -> family_error afi sf = Some e -> family_error afi' sf' = Some e' ->
  error_fmt e = error_fmt e' -> afi = afi' /\ sf = sf'.
Proof.
  intros K H H'. apply unk_cases in H, H'.
  destruct H as [[A ->]|[[A ->]|[[A ->]|[A ->]]]], H' as [[A' ->]|[[A' ->]|[[A' ->]|[A' ->]]]]; subst; same.
Qed.
Lemma nexthop_named afi sf e afi' sf' e' : known_afi afi -> nexthop_error afi sf = Some e -> nexthop_error afi' sf' = Some e' ->
  error_fmt e = error_fmt e' -> afi = afi' /\ sf = sf'.
Proof.
  intros K H H'. apply unk_nh_cases in H, H'.
  destruct H as [[A ->]|[[A ->]|[[A ->]|[A ->]]]], H' as [[A' ->]|[[A' ->]|[[A' ->]|[A' ->]]]]; subst; same.
Qed.
Lemma afi_named afi sf e afi' sf' e' : ~ known_afi afi -> ~ known_afi afi' -> family_error afi sf = Some e -> family_error afi' sf' = Some e' ->
  (error_fmt e = error_fmt e' <-> afi = afi').
Proof.
  intros K K' H H'. apply unk_cases in H, H'. unfold known_afi in K, K'.
  destruct H as [[A ->]|[[A ->]|[[A ->]|[A ->]]]]; try (subst; tauto).
  destruct H' as [[A' ->]|[[A' ->]|[[A' ->]|[A' ->]]]]; try (subst; tauto).
  split; [|now intros ->]. intros E. apply fmt_same in E. cbn [says] in E. apply app_inv_head in E. now apply dec_inj in E.
Qed.
Lemma safi_lost afi sf sf' : ~ known_afi afi -> family_error afi sf <> None /\ family_error afi sf = family_error afi sf'.
Proof.
  intros K. unfold family_error. unfold known_afi in K.
  destruct (N.eqb_spec afi 1); [subst; tauto|]. destruct (N.eqb_spec afi 2); [subst; tauto|]. destruct (N.eqb_spec afi 25); [subst; tauto|]. split; [discriminate|reflexivity].
Qed.
