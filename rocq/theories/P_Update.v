(** C36, C37, C38, C54 (UPDATE), C65: UPDATE messages. *)
From Verif Require Import Base BaseFacts M_Util S_Wire M_Prefix S_Prefix M_Nlri S_Nlri M_Vpls M_Mvpn S_Mvpn M_Cap M_Open M_Session
  M_Addrs S_Addrs M_Attr S_Attr M_Update S_Update F_Update.

(** C36: a message that can be sent is written as its wire form, which decodes to the message: bits
    beyond the last octet of each prefix are dropped, and no list of routes comes back as an empty one. *)
Theorem C36_update_roundtrip_partial : forall oc p m buf, update_ok p m -> (length (update_wire p m) <= length buf)%nat ->
  update_encode oc p m buf = Ok (length (update_wire p m), update_wire p m ++ skipn (length (update_wire p m)) buf) /\
  update_decode oc p update_new (update_wire p m) = Ok (update_norm p m).
Proof. exact update_roundtrip. Qed.
Print Assumptions C36_update_roundtrip_partial.
(** Routes of another family than the session's are left out of the message without an error. *)
Theorem C36_other_family_refuted : forall oc p u w v buf,
  (session_list p u = false -> update_encode oc p (mkUpd u w v) buf = update_encode oc p (mkUpd ANone w v) buf) /\
  (session_list p w = false -> update_encode oc p (mkUpd u w v) buf = update_encode oc p (mkUpd u ANone v) buf).
Proof. exact update_other_family. Qed.
Print Assumptions C36_other_family_refuted.
(** Attributes that outgrow the length field with the last of them are sent under a wrong length. *)
Theorem C36_attributes_overflow_refuted : forall oc p m,
  (session_list p (u_withdraws m) = true -> addrs_wf (u_withdraws m)) -> (session_list p (u_updates m) = true -> addrs_wf (u_updates m)) ->
  Forall (attr_ok p) (u_attrs m) -> N.of_nat (length (nlri_wire p (u_withdraws m))) <= 65535 ->
  N.of_nat (2 + length (attrs_wire p (removelast (u_attrs m)))) <= 65535 -> 65535 < N.of_nat (length (attrs_wire p (u_attrs m))) ->
  forall buf, (length (update_wire p m) <= length buf)%nat -> exists b l,
  update_encode oc p m buf = Ok (length (update_wire p m), b) /\
  eslice b (2 + length (nlri_wire p (u_withdraws m))) (4 + length (nlri_wire p (u_withdraws m))) = Ok (be_bytes 2 l) /\
  l < 65536 /\ l <> N.of_nat (length (attrs_wire p (u_attrs m))).
Proof. exact update_attrs_overflow. Qed.
Print Assumptions C36_attributes_overflow_refuted.
Example C36_ex : let p := params_new 1 180 ModeV4 1 [] in
  let m := mkUpd (IPV4U [mkV4 0x0a000000 8; mkV4 0xc0a80180 25]) (IPV4U [mkV4 0xac100000 12])
             [AOrigin Igp; AASPath [65000; 70000]; ANextHop (IPv4 0x01020304)] in
  update_ok p m /\
  update_wire p m = [0; 3; 12; 172; 16; 0; 25; 64; 1; 1; 0; 80; 2; 0; 10; 2; 2; 0; 0; 253; 232; 0; 1; 17; 112; 64; 3; 4; 1; 2; 3; 4; 8; 10; 25; 192; 168; 1; 128] /\
  update_norm p m = m.
Proof.
  cbv zeta. split; [|split; [vm_compute; reflexivity|vm_compute; reflexivity]].
  split; [right; split; [reflexivity|split]|].
  - apply Forall_cons; [split; [reflexivity|discriminate]|]. apply Forall_cons; [split; [reflexivity|discriminate]|apply Forall_nil].
  - intros _. vm_compute. reflexivity.
  - split; [right; split; [reflexivity|split]|].
    + apply Forall_cons; [split; [reflexivity|discriminate]|apply Forall_nil].
    + intros _. vm_compute. reflexivity.
    + split; [|split; vm_compute; discriminate].
      apply Forall_cons; [split; [exact I|split; [exact I|vm_compute; discriminate]]|].
      apply Forall_cons; [split; [apply Forall_cons; [reflexivity|apply Forall_cons; [reflexivity|apply Forall_nil]]|split; [left; reflexivity|vm_compute; discriminate]]|].
      apply Forall_cons; [split; [reflexivity|split; [exact I|vm_compute; discriminate]]|apply Forall_nil].
Qed.
Example C36_other_family_ex : let p := params_new 1 180 ModeV4 1 [] in
  update_encode true p (mkUpd (IPV6U [mkV6 1 128]) ANone []) (repeat 9 5) = Ok (4%nat, [0; 0; 0; 0; 9]).
Proof. vm_compute. reflexivity. Qed.

(** C37: any sendable message whose attribute area is made to end inside an attribute header makes the
    decoder panic. *)
Theorem C37_update_refuted : forall oc p m m0 t, update_ok p m -> N.of_nat (length (attrs_wire p (u_attrs m) ++ t)) <= 65535 -> cut_header t ->
  update_decode oc p m0 (be_bytes 2 (N.of_nat (length (nlri_wire p (u_withdraws m)))) ++ nlri_wire p (u_withdraws m) ++
    be_bytes 2 (N.of_nat (length (attrs_wire p (u_attrs m) ++ t))) ++ attrs_wire p (u_attrs m) ++ t) = Panic.
Proof. exact update_panics_wire. Qed.
Print Assumptions C37_update_refuted.
(** Without overflow checks, any octets as withdrawn routes and as NLRI, and any complete attributes of
    the types whose decoders do not panic, are accepted or refused without panic. *)
Theorem C37_update_partial : forall p m w fs n, N.of_nat (length w) <= 65535 -> N.of_nat (length (frames_wire fs)) <= 65535 ->
  Forall frame_ok fs -> bytes_ok w -> bytes_ok n -> Forall (fun x => ~ In (snd (fst x)) panicky) fs ->
  update_decode false p m (be_bytes 2 (N.of_nat (length w)) ++ w ++ be_bytes 2 (N.of_nat (length (frames_wire fs))) ++ frames_wire fs ++ n) <> Panic.
Proof. exact update_no_panic. Qed.
Print Assumptions C37_update_partial.
Example C37_update_ex : let p := params_new 1 180 ModeV4 1 [] in
  cut_header [64; 1] /\ update_decode true p update_new [0; 0; 0; 2; 64; 1] = Panic /\
  update_decode false p update_new [0; 0; 0; 3; 80; 1; 0] = Err EInsufficient /\
  update_decode false p update_new [0; 0; 0; 4; 64; 1; 1; 9; 255; 1] = Err EOther.
Proof. cbv zeta. split; [right; exists 64, 1; split; reflexivity|]. split; [reflexivity|]. split; vm_compute; reflexivity. Qed.

(** C38: decoding into a used message replaces its routes but appends to its attributes. *)
Theorem C38_reuse_exact : forall oc p m buf, update_decode oc p m buf =
  match update_decode oc p update_new buf with
  | Ok r => Ok (mkUpd (u_updates r) (u_withdraws r) (u_attrs m ++ u_attrs r))
  | e => e
  end.
Proof. exact update_reuse. Qed.
Print Assumptions C38_reuse_exact.
(** So the result differs from that of a fresh message whenever the old one had an attribute. *)
Theorem C38_reuse_refuted : forall oc p m buf r, u_attrs m <> [] -> update_decode oc p update_new buf = Ok r -> update_decode oc p m buf <> Ok r.
Proof. exact update_reuse_differs. Qed.
Print Assumptions C38_reuse_refuted.
Example C38_ex : let p := params_new 1 180 ModeV4 1 [] in
  update_decode true p (mkUpd ANone ANone [AOrigin Egp]) [0; 0; 0; 4; 64; 1; 1; 0] = Ok (mkUpd (IPV4U []) (IPV4U []) [AOrigin Egp; AOrigin Igp]).
Proof. vm_compute. reflexivity. Qed.

(** C54: decoding an UPDATE terminates. *)
Theorem C54_update_terminates : forall oc p m buf, update_decode oc p m buf <> OutOfFuel.
Proof. exact update_decode_nf. Qed.
Print Assumptions C54_update_terminates.

(** C65: each getter gives the content of the first attribute of its kind, and nothing when there is none. *)
Theorem C65_getters : forall m, first_of AOrigin (u_attrs m) (get_attr_origin m) /\ first_of AASPath (u_attrs m) (get_attr_aspath m) /\
  first_of ACommunityList (u_attrs m) (get_attr_communitylist m) /\ first_of ALargeCommunityList (u_attrs m) (get_attr_largecommunitylist m) /\
  first_of AExtCommunityList (u_attrs m) (get_attr_extcommunitylist m) /\ first_of ANextHop (u_attrs m) (get_attr_nexthop m) /\
  first_of (fun x => AMPUpdates (fst x) (snd x)) (u_attrs m) (get_mpupdates m) /\ first_of AMPWithdraws (u_attrs m) (get_mpwithdraws m).
Proof. exact getters. Qed.
Print Assumptions C65_getters.
Example C65_ex : let m := mkUpd ANone ANone [AMED 5; AOrigin Egp; AOrigin Igp] in
  get_attr_origin m = Some Egp /\ get_attr_nexthop m = None.
Proof. split; reflexivity. Qed.
