(** Encoding into a buffer that is too short: C110. *)
From Verif Require Import Base M_Util M_Prefix M_Nlri M_Addrs M_Attr M_Update M_Cap M_Open M_Session M_Peer S_Attr S_Stop S_Room S_Short F_Short.

(** C110, of path attributes: of a well-behaved attribute that has been encoded, any buffer which is too short but holds the header of the
    attribute gives an error... *)
Theorem C110_attribute_partial : forall oc p a buf n b, careful a -> attr_tidy a -> attr_encode oc p a buf = Ok (n, b) ->
  forall buf2, (header_len a <= length buf2 < n)%nat -> exists er, attr_encode oc p a buf2 = Err er.
Proof. exact careful_errs. Qed.
Print Assumptions C110_attribute_partial.
(** ... and encoding it panics in exactly the buffers which do not hold the header. *)
Theorem C110_attribute_exact : forall oc p a buf, careful a -> (attr_encode oc p a buf = Panic <-> (length buf < header_len a)%nat).
Proof. exact careful_exact. Qed.
Print Assumptions C110_attribute_exact.
Example C110_ex_attribute : let p := params_new 65000 180 ModeV4 1 [] in careful (AMED 5) /\ attr_tidy (AMED 5) /\
  attr_encode true p (AMED 5) (repeat 0 7) = Ok (7%nat, [128; 4; 4; 0; 0; 0; 5]) /\ header_len (AMED 5) = 3%nat /\
  attr_encode true p (AMED 5) (repeat 0 6) = Err EOther /\ attr_encode true p (AMED 5) (repeat 0 2) = Panic.
Proof. repeat split; vm_compute; reflexivity. Qed.
(** No attribute at all survives a buffer without room for its header. *)
Theorem C110_header_refuted : forall oc p a buf, (length buf < header_len a)%nat -> attr_encode oc p a buf = Panic.
Proof. exact header_short. Qed.
Print Assumptions C110_header_refuted.
(** Unknown attributes, and announcements and withdrawals of prefixes, panic when the buffer is too short for them; an announcement when it is
    cut behind the next hop. *)
Theorem C110_unknown_refuted : forall oc p tc f v buf, (length buf < header_len (AUnknown tc f v) + length v)%nat -> attr_encode oc p (AUnknown tc f v) buf = Panic.
Proof. exact unknown_short. Qed.
Print Assumptions C110_unknown_refuted.
Theorem C110_withdrawal_refuted : forall oc p a buf n b, prefix_routes a -> attr_encode oc p (AMPWithdraws a) buf = Ok (n, b) ->
  forall buf2, (length buf2 < n)%nat -> attr_encode oc p (AMPWithdraws a) buf2 = Panic.
Proof. exact withdraws_short. Qed.
Print Assumptions C110_withdrawal_refuted.
Theorem C110_announcement_refuted : forall oc p nh a buf n b, prefix_routes a -> attr_encode oc p (AMPUpdates nh a) buf = Ok (n, b) ->
  forall buf2, (8 + hop_octets nh <= length buf2 < n)%nat -> attr_encode oc p (AMPUpdates nh a) buf2 = Panic.
Proof. exact updates_short. Qed.
Print Assumptions C110_announcement_refuted.
Example C110_ex_unknown : attr_encode true (params_new 65000 180 ModeV4 1 []) (AUnknown 99 192 [1; 2; 3]) (repeat 0 5) = Panic.
Proof. reflexivity. Qed.
Example C110_ex_multiprotocol : let p := params_new 65000 180 ModeV4 1 [] in let a := IPV6U [mkV6 (2 ^ 125) 16] in prefix_routes a /\
  (exists b, attr_encode true p (AMPWithdraws a) (repeat 0 10) = Ok (10%nat, b)) /\ attr_encode true p (AMPWithdraws a) (repeat 0 9) = Panic /\
  (exists b, attr_encode true p (AMPUpdates (BAV6 1) a) (repeat 0 28) = Ok (28%nat, b)) /\
  attr_encode true p (AMPUpdates (BAV6 1) a) (repeat 0 24) = Panic /\ attr_encode true p (AMPUpdates (BAV6 1) a) (repeat 0 23) = Err EOther.
Proof. split; [exact I|]. split; [eexists; vm_compute; reflexivity|]. split; [vm_compute; reflexivity|]. split; [eexists; vm_compute; reflexivity|]. split; vm_compute; reflexivity. Qed.
(** Lists of prefixes never give an error. *)
Theorem C110_routes_refuted : forall oc a buf n b, prefix_routes a -> addrs_encode oc a buf = Ok (n, b) ->
  forall buf2, (length buf2 < n)%nat -> addrs_encode oc a buf2 = Panic.
Proof. exact routes_short. Qed.
Print Assumptions C110_routes_refuted.
Example C110_ex_routes : let a := VPNV4U [mkLab (mkWRD (mkV4 0x0a000000 8) (mkRD 65000 1)) [100]] in prefix_routes a /\
  (exists b, addrs_encode true a (repeat 0 13) = Ok (13%nat, b)) /\ addrs_encode true a (repeat 0 12) = Panic /\ addrs_encode true a [] = Panic.
Proof. split; [exact I|]. split; [eexists; vm_compute; reflexivity|]. split; vm_compute; reflexivity. Qed.

(** NOTIFICATION keeps to C110. *)
Theorem C110_notification : forall m buf, notif_encode m buf <> Panic /\ ((length buf < 4)%nat -> exists er, notif_encode m buf = Err er).
Proof. exact notif_short. Qed.
Print Assumptions C110_notification.
Example C110_ex_notification : notif_encode (mkNotif 6 4 0) (repeat 0 3) = Err EOther /\ notif_encode (mkNotif 6 4 0) (repeat 9 4) = Ok (4%nat, [6; 4; 0; 0]).
Proof. split; reflexivity. Qed.
(** OPEN panics only when the buffer ends where a capability begins or one octet further... *)
Theorem C110_open_partial : forall m buf, ~ cut_in_caps (op_caps m) (length buf) -> open_encode m buf <> Panic.
Proof. exact (fun m buf H E => H (open_panic_only m buf E)). Qed.
Print Assumptions C110_open_partial.
(** ... and does in all of these when it can be encoded at all. *)
Theorem C110_open_refuted : forall m buf n b, open_encode m buf = Ok (n, b) -> forall buf2, open_encode m buf2 = Panic <-> cut_in_caps (op_caps m) (length buf2).
Proof. exact open_exact. Qed.
Print Assumptions C110_open_refuted.
Example C110_ex_open : let m := mkOpen 65000 180 0x0a000001 [CapRR; CapASN32 65000] in
  (exists b, open_encode m (repeat 0 22) = Ok (22%nat, b)) /\ cut_in_caps (op_caps m) 15 /\ open_encode m (repeat 0 15) = Panic /\
  ~ cut_in_caps (op_caps m) 16 /\ open_encode m (repeat 0 16) = Err EInsufficient.
Proof.
  intros m. split; [eexists; vm_compute; reflexivity|]. split; [exists [CapRR], (CapASN32 65000), []; split; [reflexivity|right; reflexivity]|]. split; [vm_compute; reflexivity|].
  split; [|vm_compute; reflexivity]. intros (v1 & c & v2 & E & H). destruct v1 as [|c1 [|c2 v1]]; [cbn in H; lia| |destruct v1; discriminate].
  injection E as <- _ _. cbn in H. lia.
Qed.

(** An UPDATE that can be encoded panics in some buffer that is too short, unless it says nothing at all (and then in none). *)
Theorem C110_update_refuted : forall oc p m buf n b, update_encode oc p m buf = Ok (n, b) ->
  ((exists buf2, (length buf2 < n)%nat /\ update_encode oc p m buf2 = Panic) <-> ~ bare p m).
Proof. exact update_short_iff. Qed.
Print Assumptions C110_update_refuted.
Theorem C110_update_partial : forall oc p m buf, bare p m -> update_encode oc p m buf <> Panic.
Proof. exact bare_calm. Qed.
Print Assumptions C110_update_partial.
(** In particular when the buffer ends within the withdrawn routes or within the announced ones. *)
Theorem C110_withdrawn_refuted : forall oc p m buf k b, own_routes p (u_withdraws m) = true -> addrs_encode oc (u_withdraws m) buf = Ok (k, b) ->
  forall buf2, (2 <= length buf2 < 2 + k)%nat -> update_encode oc p m buf2 = Panic.
Proof. exact withdrawn_cut. Qed.
Print Assumptions C110_withdrawn_refuted.
Theorem C110_announced_refuted : forall oc p m buf n b cur b1, update_tidy m -> own_routes p (u_updates m) = true -> update_encode oc p m buf = Ok (n, b) ->
  update_encode oc p (mkUpd ANone (u_withdraws m) (u_attrs m)) buf = Ok (cur, b1) ->
  forall buf2, (cur <= length buf2 < n)%nat -> update_encode oc p m buf2 = Panic.
Proof. exact nlri_cut. Qed.
Print Assumptions C110_announced_refuted.
Example C110_ex_update : let p := params_new 65000 180 ModeV4 1 [] in
  let m := mkUpd (IPV4U [mkV4 0x0a010000 16]) (IPV4U [mkV4 0x0a000000 8]) [AOrigin Igp] in ~ bare p m /\ update_tidy m /\
  own_routes p (u_withdraws m) = true /\ own_routes p (u_updates m) = true /\
  (exists b, addrs_encode true (u_withdraws m) (repeat 0 2) = Ok (2%nat, b)) /\ (exists b, update_encode true p m (repeat 0 20) = Ok (13%nat, b)) /\
  (exists b, update_encode true p (mkUpd ANone (u_withdraws m) (u_attrs m)) (repeat 0 20) = Ok (10%nat, b)) /\
  update_encode true p m (repeat 0 3) = Panic /\ update_encode true p m (repeat 0 12) = Panic /\
  bare p (mkUpd ANone (IPV4U []) []) /\ update_encode true p (mkUpd ANone (IPV4U []) []) (repeat 0 3) = Err EInsufficient.
Proof.
  intros p m. split; [intros ([] & _)|]. split; [apply Forall_cons; [exact I|apply Forall_nil]|]. split; [reflexivity|]. split; [reflexivity|].
  do 3 (split; [eexists; vm_compute; reflexivity|]). do 2 (split; [vm_compute; reflexivity|]). split; [|vm_compute; reflexivity].
  split; [exact I|]. split; [reflexivity|]. now left.
Qed.
(** Sending any message the way the library's example does (bgpdumper.rs:39-48), from a buffer without room for a message header, panics. *)
Theorem C110_send_refuted : forall oc p m buf, (length buf < 19)%nat -> send_message oc p m buf = Panic.
Proof. exact send_short. Qed.
Print Assumptions C110_send_refuted.
Example C110_ex_send : send_message true (params_new 65000 180 ModeV4 1 []) MsgKeepalive (repeat 0 18) = Panic.
Proof. reflexivity. Qed.
