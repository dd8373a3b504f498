(** C139: the capabilities of an OPEN are the same however they are grouped into optional parameters. *)
From Verif Require Import Base M_Util S_Wire M_Cap M_Open S_Group F_Group.

(** The same capabilities, in the same order, in other optional parameters - all in one, each in its own, some parameters
    empty -, whatever the length octet of the parameters says and whatever the object held before: the same answer, a
    message or an error. *)
Theorem C139_grouping : forall self self' asn hold rid ol ol' gs gs', asn < 2 ^ 16 -> hold < 2 ^ 16 -> rid < 2 ^ 32 ->
  groups_ok gs -> groups_ok gs' -> concat gs = concat gs' ->
  open_decode self (open_octets asn hold rid ol (params_wire gs)) = open_decode self' (open_octets asn hold rid ol' (params_wire gs')).
Proof. exact regroup. Qed.
Print Assumptions C139_grouping.
Example C139_grouping_ex : let t1 := (1, [0; 1; 0; 1]) in let t2 := (2, []) in let t3 := (65, [0; 0; 253; 232]) in
  params_wire [[t1; t2; t3]] = [2; 14; 1; 4; 0; 1; 0; 1; 2; 0; 65; 4; 0; 0; 253; 232] /\
  params_wire [[t1]; []; [t2; t3]] = [2; 6; 1; 4; 0; 1; 0; 1; 2; 0; 2; 8; 2; 0; 65; 4; 0; 0; 253; 232] /\
  open_decode (mkOpen 0 0 0 []) (open_octets 23456 180 1 20 (params_wire [[t1]; []; [t2; t3]])) =
    Ok (mkOpen 23456 180 1 [CapMP SafiIPv4u; CapRR; CapASN32 65000]).
Proof. repeat split; vm_compute; reflexivity. Qed.

(** The capabilities of the message are those of its parts, each read as if it came alone, in their order; the message is
    accepted if and only if each of them is. *)
Theorem C139_one_by_one : forall self asn hold rid ol gs v, asn < 2 ^ 16 -> hold < 2 ^ 16 -> rid < 2 ^ 32 -> groups_ok gs ->
  open_decode self (open_octets asn hold rid ol (params_wire gs)) = Ok (mkOpen asn hold rid v) <->
  exists vs, Forall2 (fun t w => open_decode self (open_octets asn hold rid ol (params_wire [[t]])) = Ok (mkOpen asn hold rid w)) (concat gs) vs /\ v = concat vs.
Proof. exact one_by_one. Qed.
Print Assumptions C139_one_by_one.
(** an unknown capability between two known ones *)
Example C139_one_by_one_ex : open_decode (mkOpen 0 0 0 []) (open_octets 1 180 1 0 (params_wire [[(2, []); (99, [7; 7])]; [(70, [])]])) =
  Ok (mkOpen 1 180 1 [CapRR; CapEnhancedRR]) /\
  open_decode (mkOpen 0 0 0 []) (open_octets 1 180 1 0 (params_wire [[(99, [7; 7])]])) = Ok (mkOpen 1 180 1 []) /\
  groups_ok [[(2, []); (99, [7; 7])]; [(70, [])]].
Proof. split; [vm_compute; reflexivity|]. split; [vm_compute; reflexivity|]. repeat constructor; apply Nat.ltb_lt; vm_compute; reflexivity. Qed.

(** Behind any accepted parameters, a parameter of another type is refused, whatever it holds. *)
Theorem C139_other : forall self asn hold rid ol gs t n rest m, asn < 2 ^ 16 -> hold < 2 ^ 16 -> rid < 2 ^ 32 -> groups_ok gs -> t <> 2 ->
  open_decode self (open_octets asn hold rid ol (params_wire gs)) = Ok m ->
  open_decode self (open_octets asn hold rid ol (params_wire gs ++ t :: n :: rest)) = Err EOther.
Proof. exact other_refused. Qed.
Print Assumptions C139_other.
Example C139_other_ex : open_decode (mkOpen 0 0 0 []) (open_octets 1 180 1 8 (params_wire [[(2, [])]] ++ [1; 2; 0; 0])) = Err EOther.
Proof. vm_compute. reflexivity. Qed.

(** Parameters in the extended form of RFC 9072 (type 255 first, lengths of two octets) are never read: every such OPEN is
    refused, so a peer with more than 255 octets of capabilities is. *)
Theorem C139_extended_refuted : forall self asn hold rid ol n rest, asn < 2 ^ 16 -> hold < 2 ^ 16 -> rid < 2 ^ 32 ->
  open_decode self (open_octets asn hold rid ol (255 :: n :: rest)) = Err EOther.
Proof. exact extended_refused. Qed.
Print Assumptions C139_extended_refuted.
(** route refresh, in the extended form *)
Example C139_extended_ex : open_decode (mkOpen 0 0 0 []) (open_octets 1 180 1 255 [255; 0; 5; 2; 0; 2; 2; 0]) = Err EOther /\
  open_decode (mkOpen 0 0 0 []) (open_octets 1 180 1 4 [2; 2; 2; 0]) = Ok (mkOpen 1 180 1 [CapRR]).
Proof. split; vm_compute; reflexivity. Qed.

(** One octet behind the last parameter, too few to be a parameter, is not noticed. *)
Theorem C139_stray_refuted : forall self asn hold rid ol gs x, asn < 2 ^ 16 -> hold < 2 ^ 16 -> rid < 2 ^ 32 -> groups_ok gs ->
  open_decode self (open_octets asn hold rid ol (params_wire gs ++ [x])) = open_decode self (open_octets asn hold rid ol (params_wire gs)).
Proof. exact stray_accepted. Qed.
Print Assumptions C139_stray_refuted.
Example C139_stray_ex : open_decode (mkOpen 0 0 0 []) (open_octets 1 180 1 5 [2; 2; 2; 0; 77]) = Ok (mkOpen 1 180 1 [CapRR]).
Proof. vm_compute. reflexivity. Qed.
