(** Attribute payloads: C92, C93. *)
From Verif Require Import Base M_Util S_Wire M_Nlri S_Nlri M_Vpls M_Mvpn S_Mvpn M_Cap M_Open M_Session M_Addrs S_Addrs M_Attr S_Attr S_Attr3 F_Attr4.

(** C92: decoding gives exactly the attribute the payload means, whatever the flags, the nesting and the build mode. *)
Theorem C92_payload : forall oc p tc f n b a, bytes_ok b -> In tc plain_codes ->
  attr_decode oc p tc f n b = Ok a <-> payload p tc b a.
Proof. exact payload_exact. Qed.
Print Assumptions C92_payload.

Example C92_ex :
  let p := params_new 65000 90 ModeV4 1 [CapASN32 65000] in
  attr_decode false (check_caps p) 2 64 0 [2; 1; 0; 0; 253; 232] = Ok (AASPath [65000]) /\
  attr_decode true p 6 64 0 [] = Ok (AAtomicAggregate (IPv4 0)) /\
  attr_decode true p 8 192 0 [0; 1; 0; 2; 0; 1; 0; 1; 0; 1; 0; 2] = Ok (ACommunityList [65537; 65538]) /\
  payload p 8 [0; 1; 0; 2; 0; 1; 0; 1; 0; 1; 0; 2] (ACommunityList [65537; 65538]).
Proof.
  cbv zeta. split; [reflexivity|]. split; [reflexivity|]. split; [reflexivity|].
  apply (C92_payload false _ 8 192 0); [|cbn; tauto|reflexivity]. unfold bytes_ok. repeat (apply Forall_cons; [reflexivity|]). apply Forall_nil.
Qed.

(** C93 is false: only a length outside [length_taken] keeps a payload from being accepted, and that allows more than the RFCs do. *)
Theorem C93_length_refuted : forall oc p tc f n b, bytes_ok b -> In tc plain_codes -> tc <> 1 -> tc <> 20 ->
  length_taken p tc (length b) -> ~ length_rfc p tc (length b) -> exists a, attr_decode oc p tc f n b = Ok a.
Proof. exact (fun oc p tc f n b B I H1 H20 L _ => proj2 (length_dec oc p tc f n b B I) H1 H20 L). Qed.
Print Assumptions C93_length_refuted.

(** octets after a complete ORIGIN, NEXT_HOP, MULTI_EXIT_DISC, LOCAL_PREF or CONNECTOR are ignored *)
Theorem C93_trailing_refuted : forall oc p tc f n b r a, bytes_ok b -> bytes_ok r -> In tc [1; 3; 4; 5; 20] ->
  attr_decode oc p tc f n b = Ok a -> attr_decode oc p tc f n (b ++ r) = Ok a.
Proof. exact trailing_free. Qed.
Print Assumptions C93_trailing_refuted.

(** what does hold: nothing outside [length_taken] is accepted *)
Theorem C93_length_strict : forall oc p tc f n b, bytes_ok b -> In tc plain_codes ->
  ~ length_taken p tc (length b) -> forall a, attr_decode oc p tc f n b <> Ok a.
Proof. exact (fun oc p tc f n b B I L a H => L (proj1 (length_dec oc p tc f n b B I) a H)). Qed.
Print Assumptions C93_length_strict.

(** every length the RFCs allow is accepted; ORIGIN and CONNECTOR also need a known code *)
Theorem C93_length_accepted : forall oc p tc f n b, bytes_ok b -> In tc plain_codes -> tc <> 1 -> tc <> 20 ->
  length_rfc p tc (length b) -> exists a, attr_decode oc p tc f n b = Ok a.
Proof. exact rfc_accepted. Qed.
Print Assumptions C93_length_accepted.

Example C93_ex :
  let p := params_new 65000 90 ModeV4 1 [] in
  ~ length_rfc p 4 5 /\ attr_decode true p 4 128 0 [0; 0; 0; 7; 9] = Ok (AMED 7) /\
  ~ length_rfc p 6 4 /\ attr_decode true p 6 64 0 [10; 0; 0; 1] = Ok (AAtomicAggregate (IPv4 167772161)) /\
  ~ length_rfc p 7 6 /\ attr_decode true p 7 192 0 [253; 232; 10; 0; 0; 1] = Ok (AAggregatorAS 65000 167772161) /\
  ~ length_taken p 7 7.
Proof.
  cbv zeta. cbn [length_rfc length_taken as_octets params_new sp_as32 check_caps]. repeat match goal with |- _ /\ _ => split end; try reflexivity; cbv; intros H; try discriminate H.
  destruct H as [H|H]; discriminate H.
Qed.
