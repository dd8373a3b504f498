(** What a decoder leaves in the object it decodes into: C111. *)
From Verif Require Import Base BaseFacts S_Wire M_Cap M_Open M_Session M_Prefix M_Addrs M_Attr M_Update M_State S_State F_State.

(** The models of [decode_from] with the object agree with those used elsewhere, which return it. *)
Theorem C111_same_update : forall oc p m buf, finished (update_decode_in oc p buf m) = update_decode oc p m buf.
Proof. exact update_same. Qed.
Print Assumptions C111_same_update.
Theorem C111_same_open : forall m buf, finished (open_decode_in buf m) = open_decode m buf.
Proof. exact open_same. Qed.
Print Assumptions C111_same_open.
Theorem C111_same_notification : forall m buf, finished (notif_decode_in buf m) = notif_decode m buf.
Proof. exact notif_same. Qed.
Print Assumptions C111_same_notification.

(** C111 holds of NOTIFICATION... *)
Theorem C111_notification : forall m buf, failed (notif_decode_in buf m) -> snd (notif_decode_in buf m) = m.
Proof. exact notif_untouched. Qed.
Print Assumptions C111_notification.
Example C111_ex_notification : failed (notif_decode_in [6] (mkNotif 1 2 3)) /\ snd (notif_decode_in [6] (mkNotif 1 2 3)) = mkNotif 1 2 3 /\
  notif_decode_in [6; 4] (mkNotif 1 2 3) = (Ok tt, mkNotif 6 4 3).
Proof. repeat split; reflexivity. Qed.
(** ... and of an OPEN whose fixed part is missing or of another version... *)
Theorem C111_open_partial : forall m buf, ~ begun buf -> snd (open_decode_in buf m) = m.
Proof. exact open_untouched. Qed.
Print Assumptions C111_open_partial.
(** ... but of no other: whether it fails or not, the object then has the header of the octets received, and nothing in it depends on what
    was there. *)
Theorem C111_open_refuted : forall m buf, begun buf -> bytes_ok buf ->
  open_head (snd (open_decode_in buf m)) buf /\ forall m2, open_decode_in buf m2 = open_decode_in buf m.
Proof. exact open_overwritten. Qed.
Print Assumptions C111_open_refuted.
Example C111_ex_open : let buf := [4; 253; 232; 0; 90; 10; 0; 0; 1; 6; 2; 2; 2; 0; 1; 0] in let m := mkOpen 1 180 2 [CapASN32 1] in
  begun buf /\ bytes_ok buf /\ open_decode_in buf m = (Err EOther, mkOpen 65000 90 0x0a000001 [CapRR]) /\ ~ begun (3 :: tl buf).
Proof.
  intros buf m. split; [split; [cbn; lia|reflexivity]|]. split; [apply bytes_okb_ok; reflexivity|]. split; [vm_compute; reflexivity|]. intros [_ H]. discriminate.
Qed.

(** After an UPDATE that fails (or panics) the object is as before, or it has the withdrawn routes and, behind its own, the attributes of the
    valid UPDATE that is made of the withdrawn routes and of the attributes received so far. Its announced routes are the old ones. *)
Theorem C111_update_partial : forall oc p m buf, bytes_ok buf -> failed (update_decode_in oc p buf m) ->
  snd (update_decode_in oc p buf m) = m \/
  exists w t a r, buf = be_bytes 2 (N.of_nat (length w)) ++ w ++ t /\ (exists t', skipn 2 t = a ++ t') /\
    update_decode oc p update_new (upd_body w a []) = Ok r /\ snd (update_decode_in oc p buf m) = half_done m r.
Proof. exact update_left. Qed.
Print Assumptions C111_update_partial.
(** It is not as before in general: put a bad attribute behind those of any UPDATE that can be decoded. *)
Theorem C111_update_refuted : forall oc p m w a n r, N.of_nat (length w) < 65536 -> N.of_nat (length a) + 3 < 65536 ->
  update_decode oc p update_new (upd_body w a n) = Ok r ->
  update_decode_in oc p (upd_body w (a ++ [64; 1; 255]) n) m = (Err EProtocol, half_done m r).
Proof. exact update_spoilt. Qed.
Print Assumptions C111_update_refuted.
(** A caller who goes on with the same object then has the attributes of the refused UPDATE in the next one. *)
Theorem C111_leak_refuted : forall oc p m w a n r buf2 r2, N.of_nat (length w) < 65536 -> N.of_nat (length a) + 3 < 65536 ->
  update_decode oc p update_new (upd_body w a n) = Ok r -> update_decode oc p update_new buf2 = Ok r2 ->
  update_decode_in oc p buf2 (snd (update_decode_in oc p (upd_body w (a ++ [64; 1; 255]) n) m)) =
    (Ok tt, mkUpd (u_updates r2) (u_withdraws r2) (u_attrs m ++ u_attrs r ++ u_attrs r2)).
Proof. exact update_leak. Qed.
Print Assumptions C111_leak_refuted.
Example C111_ex_update : let p := params_new 65000 180 ModeV4 1 [] in let a := [64; 1; 1; 0; 128; 4; 4; 0; 0; 0; 5] in
  let m := mkUpd (IPV4U [mkV4 0x0b000000 8]) ANone [] in
  update_decode true p update_new (upd_body [8; 10] a []) = Ok (mkUpd (IPV4U []) (IPV4U [mkV4 0x0a000000 8]) [AOrigin Igp; AMED 5]) /\
  update_decode_in true p (upd_body [8; 10] (a ++ [64; 1; 255]) []) m = (Err EProtocol, mkUpd (IPV4U [mkV4 0x0b000000 8]) (IPV4U [mkV4 0x0a000000 8]) [AOrigin Igp; AMED 5]) /\
  update_decode true p update_new [0; 0; 0; 0] = Ok (mkUpd (IPV4U []) (IPV4U []) []) /\
  bytes_ok (upd_body [8; 10] (a ++ [64; 1; 255]) []) /\
  snd (update_decode_in true p [0; 0; 0; 0] (snd (update_decode_in true p (upd_body [8; 10] (a ++ [64; 1; 255]) []) update_new))) = mkUpd (IPV4U []) (IPV4U []) [AOrigin Igp; AMED 5].
Proof.
  intros p a m. split; [vm_compute; reflexivity|]. split; [vm_compute; reflexivity|]. split; [vm_compute; reflexivity|]. split; [apply bytes_okb_ok; vm_compute; reflexivity|vm_compute; reflexivity].
Qed.
