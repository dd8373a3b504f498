(** C142: which OPENs are accepted. *)
From Verif Require Import Base M_Util S_Wire M_Cap M_Open M_Session S_Group F_Accept.

(** An OPEN of another version is refused, whatever it holds. *)
Theorem C142_version : forall self v t, v <> 4 -> (9 <= length t)%nat -> open_decode self (v :: t) = Err EOther.
Proof. exact other_version. Qed.
Print Assumptions C142_version.
Example C142_version_ex : open_decode (mkOpen 0 0 0 []) [3; 0; 1; 0; 180; 10; 0; 0; 1; 0] = Err EOther /\
  open_decode (mkOpen 0 0 0 []) [4; 0; 1; 0; 180; 10; 0; 0; 1; 0] = Ok (mkOpen 1 180 0x0a000001 []).
Proof. split; vm_compute; reflexivity. Qed.
(** But no value of the other fields is refused: what is accepted with one AS number, hold time and router id is accepted
    with all, and what is refused with one is refused with all, with the same error. AS 0 (RFC 7607), a hold time of one
    or two seconds and router id 0 (RFC 4271 6.2) are among them. *)
Theorem C142_values_refuted : forall self self' asn hold rid asn' hold' rid' ol gs v, asn < 2 ^ 16 -> hold < 2 ^ 16 -> rid < 2 ^ 32 ->
  asn' < 2 ^ 16 -> hold' < 2 ^ 16 -> rid' < 2 ^ 32 -> groups_ok gs ->
  open_decode self (open_octets asn hold rid ol (params_wire gs)) = Ok (mkOpen asn hold rid v) ->
  open_decode self' (open_octets asn' hold' rid' ol (params_wire gs)) = Ok (mkOpen asn' hold' rid' v).
Proof. exact any_values. Qed.
Print Assumptions C142_values_refuted.
Theorem C142_errors : forall self self' asn hold rid asn' hold' rid' ol gs e, asn < 2 ^ 16 -> hold < 2 ^ 16 -> rid < 2 ^ 32 ->
  asn' < 2 ^ 16 -> hold' < 2 ^ 16 -> rid' < 2 ^ 32 -> groups_ok gs ->
  open_decode self (open_octets asn hold rid ol (params_wire gs)) = Err e ->
  open_decode self' (open_octets asn' hold' rid' ol (params_wire gs)) = Err e.
Proof. exact any_errors. Qed.
Print Assumptions C142_errors.
Example C142_values_ex : open_decode (mkOpen 0 0 0 []) (open_octets 65000 180 1 4 (params_wire [[(2, [])]])) = Ok (mkOpen 65000 180 1 [CapRR]) /\
  open_decode (mkOpen 0 0 0 []) (open_octets 0 1 0 4 (params_wire [[(2, [])]])) = Ok (mkOpen 0 1 0 [CapRR]) /\
  open_decode (mkOpen 0 0 0 []) (open_octets 65000 180 1 5 (params_wire [[(2, [0])]])) = Err EOther.
Proof. repeat split; vm_compute; reflexivity. Qed.
(** The AS number in the capability for four-octet AS numbers (RFC 6793) is the one of the session parameters made from the
    message (the last one, of several), whatever the two-octet field says: AS_TRANS, the same, or another number, which is
    not noticed either. *)
Theorem C142_as4 : forall self asn hold rid ol gs gs' n v, asn < 2 ^ 16 -> hold < 2 ^ 16 -> rid < 2 ^ 32 -> n < 2 ^ 32 -> groups_ok (gs ++ [(65, be_bytes 4 n)] :: gs') ->
  open_decode self (open_octets asn hold rid ol (params_wire (gs ++ gs'))) = Ok (mkOpen asn hold rid v) ->
  exists v1 v2, v = v1 ++ v2 /\
  open_decode self (open_octets asn hold rid ol (params_wire (gs ++ [(65, be_bytes 4 n)] :: gs'))) = Ok (mkOpen asn hold rid (v1 ++ CapASN32 n :: v2)) /\
  ((forall m, ~ In (CapASN32 m) v2) -> sp_as (params_of_open (mkOpen asn hold rid (v1 ++ CapASN32 n :: v2))) = n).
Proof. exact as4_apart. Qed.
Print Assumptions C142_as4.
Example C142_as4_ex : open_decode (mkOpen 0 0 0 []) (open_octets 23456 180 1 12 (params_wire [[(2, [])]; [(65, be_bytes 4 200000)]])) = Ok (mkOpen 23456 180 1 [CapRR; CapASN32 200000]) /\
  open_decode (mkOpen 0 0 0 []) (open_octets 77 180 1 8 (params_wire [[(65, be_bytes 4 0)]])) = Ok (mkOpen 77 180 1 [CapASN32 0]) /\
  sp_as (params_of_open (mkOpen 23456 180 1 [CapRR; CapASN32 200000])) = 200000.
Proof. repeat split; vm_compute; reflexivity. Qed.
