(** C136: routes of the session's own family are the same routes wherever an UPDATE carries them. *)
From Verif Require Import Base M_Util S_Wire M_Prefix S_Prefix M_Nlri M_Cap M_Open M_Session M_Addrs S_Addrs M_Attr S_Attr M_Update S_Place F_Place.

(** An UPDATE with octets [r] in one of the four places is accepted only with some list of routes there and nothing
    elsewhere, and then [r] is accepted in any other place with room for it, as the same list. *)
Theorem C136_read : forall oc p l l' r u, bytes_ok r -> room p l (N.of_nat (length r)) -> room p l' (N.of_nat (length r)) ->
  update_decode oc p update_new (carried p l r) = Ok u ->
  exists a, said p l u a /\ exists u', update_decode oc p update_new (carried p l' r) = Ok u' /\ said p l' u' a.
Proof. exact places_agree. Qed.
Print Assumptions C136_read.

(** Any list of the family is sent as the same octets from every place. *)
Theorem C136_sent : forall oc p a, own_list p a -> addrs_wf a -> exists r, bytes_ok r /\
  forall l u buf, said p l u a -> room p l (N.of_nat (length r)) -> sent_flags l -> (length (carried p l r) <= length buf)%nat ->
    update_encode oc p u buf = Ok (length (carried p l r), carried p l r ++ skipn (length (carried p l r)) buf).
Proof. exact places_sent. Qed.
Print Assumptions C136_sent.

(** 10.0.0.0/8 and 192.168.1.0/24 in the four places, read and sent *)
Definition c136_p : params := params_new 1 180 ModeV4 1 [].
Definition c136_r : list N := [8; 10; 24; 192; 168; 1].
Definition c136_a : addrs := IPV4U [mkV4 0x0a000000 8; mkV4 0xc0a80100 24].
Example C136_ex :
  update_decode true c136_p update_new (carried c136_p Announced c136_r) = Ok (mkUpd c136_a (IPV4U []) []) /\
  update_decode true c136_p update_new (carried c136_p Withdrawn c136_r) = Ok (mkUpd (IPV4U []) c136_a []) /\
  update_decode true c136_p update_new (carried c136_p (Reach 144 0x01020304) c136_r) = Ok (mkUpd (IPV4U []) (IPV4U []) [AMPUpdates (BAV4 0x01020304) c136_a]) /\
  update_decode true c136_p update_new (carried c136_p (Unreach 128) c136_r) = Ok (mkUpd (IPV4U []) (IPV4U []) [AMPWithdraws c136_a]) /\
  room c136_p (Reach 144 0x01020304) 6 /\ room c136_p (Unreach 128) 6 /\ room c136_p Withdrawn 6 /\ own_list c136_p c136_a /\
  carried c136_p (Unreach 128) c136_r = [0; 0; 0; 12; 128; 15; 9; 0; 1; 1; 8; 10; 24; 192; 168; 1] /\
  (exists b, update_encode true c136_p (mkUpd ANone ANone [AMPWithdraws c136_a]) (repeat 0 17) = Ok (17%nat, b) /\ b = carried c136_p (Unreach 144) c136_r).
Proof. repeat split; try (vm_compute; congruence). eexists. split; vm_compute; reflexivity. Qed.
