(** Which values stop the program when encoded, however large the buffer: C105. *)
From Verif Require Import Base M_Util M_Nlri M_Vpls M_Prefix M_Mvpn M_Evpn M_Flowspec M_Addrs M_Attr M_Update M_Cap M_Open M_Session M_Peer M_Bmp
  S_Stop F_Stop F_Stop2 F_Stop3 F_Stop4.

(** C105, of the routes of any family. *)
Theorem C105_routes : forall oc a, addrs_typed a ->
  (stops (addrs_encode oc a) <-> addrs_stop oc a) /\ (never_stops (addrs_encode oc a) <-> ~ addrs_stop oc a).
Proof. exact (fun oc a H => either_exact _ _ (addrs_either oc a H)). Qed.
Print Assumptions C105_routes.
(** Of path attributes. *)
Theorem C105_attribute : forall oc p a, attr_typed a ->
  (stops (attr_encode oc p a) <-> attr_stops oc a) /\ (never_stops (attr_encode oc p a) <-> ~ attr_stops oc a).
Proof. exact (fun oc p a H => either_exact _ _ (attr_either oc p a H)). Qed.
Print Assumptions C105_attribute.
(** Of the bodies of messages. *)
Theorem C105_message : forall oc p m, (forall u, m = MsgUpdate u -> update_typed u) ->
  (stops (message_encode oc p m) <-> body_stops oc p m) /\ (never_stops (message_encode oc p m) <-> ~ body_stops oc p m).
Proof. exact (fun oc p m H => either_exact _ _ (message_either oc p m H)). Qed.
Print Assumptions C105_message.
(** Of whole messages as they are sent. *)
Theorem C105_send : forall oc p m, (forall u, m = MsgUpdate u -> update_typed u) ->
  (stops (send_message oc p m) <-> send_stops oc p m) /\ (never_stops (send_message oc p m) <-> ~ send_stops oc p m).
Proof. exact send_exact. Qed.
Print Assumptions C105_send.
(** Of BMP messages. *)
Theorem C105_bmp : forall oc m, (forall r, m = RouteMonitoring r -> update_typed (rm_update r)) ->
  (stops (bmp_encode oc m) <-> bmp_stops oc m) /\ (never_stops (bmp_encode oc m) <-> ~ bmp_stops oc m).
Proof. exact (fun oc m H => either_exact _ _ (bmp_either oc m H)). Qed.
Print Assumptions C105_bmp.
(** In particular, without checks of arithmetic: a message whose prefixes are not longer than their addresses, and without the two attributes
    which are not implemented, can be sent without fear. *)
Theorem C105_fits : forall p m, (forall u, m = MsgUpdate u -> update_typed u /\ update_fits u) -> never_stops (send_message false p m).
Proof. exact fit_send. Qed.
Print Assumptions C105_fits.

(** ten labels and 32 bits of prefix are 272: they do not fit the length octet *)
Example C105_ex_labels : let a := IPV4LU [mkLab (mkV4 0x0a000001 32) (repeat 16 10)] in addrs_typed a /\
  addrs_stop true a /\ ~ addrs_stop false a /\ addrs_encode true a (repeat 0 100) = Panic /\
  (exists b, addrs_encode false a (repeat 0 100) = Ok (35%nat, b) /\ nth_error b 0 = Some 16).
Proof.
  cbv zeta. split; [|split; [|split; [|split]]].
  - apply Forall_cons; [reflexivity|apply Forall_nil].
  - apply Exists_cons_hd. right. split; [reflexivity|]. vm_compute. reflexivity.
  - intros F. apply Exists_cons in F as [[(F & _)|(F & _)]|F]; [vm_compute in F; discriminate|discriminate|inversion F].
  - vm_compute. reflexivity.
  - eexists. vm_compute. split; reflexivity.
Qed.
(** a rule that is refused hides a later one that would stop *)
Example C105_ex_rules : let a v := FS4U [FsPortDst (repeat (mkFsVal false false false true 70000) v); FsDst (mkV4 0x0a000000 33)] in
  addrs_typed (a 819%nat) /\ ~ addrs_stop true (a 819%nat) /\ addrs_encode true (a 819%nat) (repeat 0 9000) = Err EInsufficient /\
  addrs_typed (a 818%nat) /\ addrs_stop true (a 818%nat) /\ addrs_encode true (a 818%nat) (repeat 0 9000) = Panic.
Proof.
  cbv zeta. assert (T : forall v, addrs_typed (FS4U [FsPortDst (repeat (mkFsVal false false false true 70000) v); FsDst (mkV4 0x0a000000 33)])).
  { intros v. apply Forall_cons; [exact I|]. apply Forall_cons; [reflexivity|apply Forall_nil]. }
  split; [apply T|]. split; [|split; [vm_compute; reflexivity|split; [apply T|split; [|vm_compute; reflexivity]]]].
  - intros F. cbn [addrs_stop] in F. destruct F as (v1 & x & v2 & E & Hx & HF). destruct v1 as [|y [|z v1]].
    + injection E as <- _. exact Hx.
    + injection E as <- _ _. inversion HF as [|? ? Hy _]; subst. apply Hy. cbn [comp_refused]. apply Nat.ltb_lt. vm_compute. reflexivity.
    + destruct v1; discriminate.
  - exists [FsPortDst (repeat (mkFsVal false false false true 70000) 818)], (FsDst (mkV4 0x0a000000 33)), []. split; [reflexivity|]. split.
    + split; [vm_compute; reflexivity|discriminate].
    + apply Forall_cons; [|apply Forall_nil]. cbn [comp_refused]. apply Nat.le_ngt. apply Nat.leb_le. vm_compute. reflexivity.
Qed.
(** an UPDATE with a PMSI tunnel attribute after an ORIGIN; one with a prefix of 33 bits in a withdrawn route; one that can be sent *)
Example C105_ex_update : let p := params_new 65000 90 ModeV4 1 [] in
  let u1 := mkUpd ANone ANone [AOrigin Igp; APMSITunnel (mkPmsi 0 0 [] PtNone)] in
  let u2 := mkUpd ANone (IPV4U [mkV4 0x0a000000 33]) [] in
  let u3 := mkUpd (IPV4U [mkV4 0x0a000000 8]) ANone [AOrigin Igp; AMPWithdraws (IPV6U [mkV6 1 128])] in
  (update_typed u1 /\ update_stops false p u1 /\ send_message false p (MsgUpdate u1) (repeat 0 100) = Panic) /\
  (update_typed u2 /\ update_stops false p u2 /\ send_message false p (MsgUpdate u2) (repeat 0 100) = Panic) /\
  (update_typed u3 /\ update_fits u3 /\ is_ok (send_message false p (MsgUpdate u3) (repeat 0 100)) = true).
Proof.
  cbv zeta. split; [|split].
  - split; [repeat split; apply Forall_cons; [exact I|apply Forall_cons; [exact I|apply Forall_nil]]|]. split; [|vm_compute; reflexivity].
    right. split; [left; reflexivity|]. left. exists [AOrigin Igp], (APMSITunnel (mkPmsi 0 0 [] PtNone)), [], 6%nat. split; [reflexivity|]. split; [|split; [vm_compute; discriminate|exact I]].
    apply ag_cons with (n := 4%nat); [vm_compute; discriminate| |apply ag_nil].
    exists 4%nat. intros buf Hb. destruct buf as [|b0 [|b1 [|b2 [|b3 buf]]]]; try (cbn in Hb; lia). exists (64 :: 1 :: 1 :: 0 :: buf). split; reflexivity.
  - split; [split; [exact I|split; [apply Forall_cons; [reflexivity|apply Forall_nil]|apply Forall_nil]]|]. split; [|vm_compute; reflexivity].
    left. split; [reflexivity|]. apply Exists_cons_hd. split; [vm_compute; reflexivity|]. intros _. vm_compute. discriminate.
  - split; [|split; [|vm_compute; reflexivity]].
    + split; [apply Forall_cons; [reflexivity|apply Forall_nil]|]. split; [exact I|]. apply Forall_cons; [exact I|]. apply Forall_cons; [|apply Forall_nil]. apply Forall_cons; [reflexivity|apply Forall_nil].
    + split; [apply Forall_cons; [vm_compute; discriminate|apply Forall_nil]|]. split; [exact I|]. apply Forall_cons; [exact I|]. apply Forall_cons; [|apply Forall_nil].
      apply Forall_cons; [vm_compute; discriminate|apply Forall_nil].
Qed.
(** a statistics report cannot be encoded; an initiation message can *)
Example C105_ex_bmp : bmp_stops false StatisticsReport /\ bmp_encode false StatisticsReport (repeat 0 10) = Panic /\
  ~ bmp_stops true (Initiation (mkInit None (Some [65]) None)) /\ is_ok (bmp_encode true (Initiation (mkInit None (Some [65]) None)) (repeat 0 10)) = true.
Proof. split; [exact I|]. split; [reflexivity|]. split; [exact (fun F => F)|]. vm_compute. reflexivity. Qed.
