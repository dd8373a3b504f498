(** Messages of which the end is missing: C115. *)
From Verif Require Import Base M_Util S_Wire M_Prefix S_Prefix M_Nlri S_Nlri M_Cap M_Open M_Session S_Cap S_Open M_Addrs S_Addrs M_Attr S_Attr M_Update S_Update F_Update M_Bmp S_Bmp S_Cut F_Cut.

(** An OPEN cut at any place but behind a parameter, or one octet further, is refused as too short; *)
Theorem C115_open_partial : forall m k self, open_wf m -> (k < length (open_wire m))%nat -> ~ between_params m k ->
  open_decode self (firstn k (open_wire m)) = Err EInsufficient.
Proof. exact open_cut. Qed.
Print Assumptions C115_open_partial.
(** at these it is taken for an OPEN with fewer capabilities, against its own count of octets. *)
Theorem C115_open_refuted : forall m v w k self, open_wf m -> op_caps m = v ++ w -> w <> [] -> k = open_upto v \/ k = S (open_upto v) ->
  open_decode self (firstn k (open_wire m)) = Ok (open_seen (with_caps m v)).
Proof. exact open_cut_taken. Qed.
Print Assumptions C115_open_refuted.

(** An UPDATE cut before its attributes is refused as too short, *)
Theorem C115_update_partial : forall oc p m0 m k, update_ok p m -> (k < upd_attrs_at p m)%nat ->
  update_decode oc p m0 (firstn k (update_wire p m)) = Err EInsufficient.
Proof. exact update_cut_head. Qed.
Print Assumptions C115_update_partial.
(** within its attributes, with another error, *)
Theorem C115_update_refuted : forall oc p m0 m k, update_ok p m -> (upd_attrs_at p m <= k < upd_routes_at p m)%nat ->
  update_decode oc p m0 (firstn k (update_wire p m)) = Err EProtocol.
Proof. exact update_cut_attrs. Qed.
Print Assumptions C115_update_refuted.
(** within a prefix, with a third, *)
Theorem C115_prefix_refuted : forall oc p m0 m k, update_ok p m -> told p (u_updates m) k -> left_prefix (u_updates m) k ->
  update_decode oc p m0 (firstn (upd_routes_at p m + k) (update_wire p m)) = Err EOther.
Proof. exact update_cut_prefix. Qed.
Print Assumptions C115_prefix_refuted.
(** and behind a route, or within a path identifier, it is taken for an UPDATE with the routes before. *)
Theorem C115_routes_refuted : forall oc p m0 m k b, update_ok p m -> told p (u_updates m) k -> left_whole (u_updates m) b k \/ left_pathid (u_updates m) b k ->
  update_decode oc p m0 (firstn (upd_routes_at p m + k) (update_wire p m)) =
    Ok (mkUpd (addrs_trunc b) (nlri_norm p (u_withdraws m)) (u_attrs m0 ++ map attr_trunc (u_attrs m))).
Proof. exact update_cut_taken. Qed.
Print Assumptions C115_routes_refuted.
(** There are no other cuts. *)
Theorem C115_update_cases : forall p m k, update_ok p m -> (k < length (update_wire p m))%nat ->
  (k < upd_attrs_at p m)%nat \/ (upd_attrs_at p m <= k < upd_routes_at p m)%nat \/
  exists i, k = (upd_routes_at p m + i)%nat /\ ((exists b, left_whole (u_updates m) b i \/ left_pathid (u_updates m) b i) \/ left_prefix (u_updates m) i).
Proof. exact update_cut_cases. Qed.
Print Assumptions C115_update_cases.

(** A NOTIFICATION cut short is refused with another error, or taken with the data of the object decoded into, or with one octet of its own data. *)
Theorem C115_notification_refuted : forall self m, notif_wf m ->
  (forall k, (k < 2)%nat -> notif_decode self (firstn k (notif_wire m)) = Err EOther) /\
  notif_decode self (firstn 2 (notif_wire m)) = Ok (mkNotif (nt_code m) (nt_sub m) (nt_data self)) /\
  notif_decode self (firstn 3 (notif_wire m)) = Ok (mkNotif (nt_code m) (nt_sub m) (nt_data m / 256)).
Proof. exact notif_cut. Qed.
Print Assumptions C115_notification_refuted.
(** Message headers cut short are refused with another error; *)
Theorem C115_header_refuted : forall oc b, (length b < 19)%nat -> decode_message_head oc b = Err EOther.
Proof. exact head_cut. Qed.
Print Assumptions C115_header_refuted.
(** those of BMP, and per-peer BMP messages without the octets that all of them have, as too short; *)
Theorem C115_bmp_header : forall b, (length b < 5)%nat -> bmphdr_decode b = Err EInsufficient.
Proof. exact bmphdr_cut. Qed.
Print Assumptions C115_bmp_header.
Theorem C115_bmp_partial : forall oc b, ((length b < 62)%nat -> bmp_decode oc (0 :: b) = Err EInsufficient /\ bmp_decode oc (3 :: b) = Err EInsufficient) /\
  ((length b < 43)%nat -> bmp_decode oc (2 :: b) = Err EInsufficient).
Proof. exact bmp_cut. Qed.
Print Assumptions C115_bmp_partial.
(** so are an Initiation cut anywhere within a TLV *)
Theorem C115_initiation_partial : forall l t s k, Forall tlv_fits l -> Forall (fun x => utf8_ok (snd x) = true) l -> tlv_fits (t, s) ->
  (0 < k < 4 + length s)%nat -> init_decode (tlvs_wire l ++ firstn k (tlv t s)) = Err EInsufficient.
Proof. exact init_cut. Qed.
Print Assumptions C115_initiation_partial.
(** and a Termination cut within the value of one, *)
Theorem C115_termination_partial : forall l t s k, Forall term_tlv_ok l -> tlv_fits (t, s) -> (4 <= k < 4 + length s)%nat ->
  term_decode (tlvs_wire l ++ firstn k (tlv t s)) = Err EInsufficient.
Proof. exact term_cut_in. Qed.
Print Assumptions C115_termination_partial.
(** while a Termination cut within type or length of a TLV is taken without it. *)
Theorem C115_termination_refuted : forall l t s k, Forall term_tlv_ok l -> (k < 4)%nat ->
  term_decode (tlvs_wire l ++ firstn k (tlv t s)) = term_decode (tlvs_wire l).
Proof. exact term_cut_taken. Qed.
Print Assumptions C115_termination_refuted.

(** Without the guess of [fuzzy_pathid] the session always tells. *)
Theorem C115_told : forall p a k, list_ok p a -> sp_fuzzy p = false -> told p a k.
Proof. exact told_exact. Qed.
Print Assumptions C115_told.

(** An OPEN with two capabilities, cut at every place; *)
Example C115_open_ex : let m := mkOpen 65000 180 0x01020304 [CapRR; CapASN32 65000] in
  open_wf m /\ length (open_wire m) = 22%nat /\
  (forall k, (k < 22)%nat -> open_decode open_new (firstn k (open_wire m)) =
    if ((k =? 10)%nat || (k =? 11)%nat)%bool then Ok (open_seen (with_caps m [])) else
    if ((k =? 14)%nat || (k =? 15)%nat)%bool then Ok (open_seen (with_caps m [CapRR])) else Err EInsufficient).
Proof.
  cbv zeta. split; [unfold open_wf; cbn [op_as op_hold op_rid op_caps]; split; [reflexivity|split; [reflexivity|split; [reflexivity|]]]; apply Forall_cons; [|apply Forall_cons; [|apply Forall_nil]]; (split; [split; [vm_compute; try reflexivity; try exact I; try lia|vm_compute; lia]|intros (h & d & F); discriminate F])|]. split; [reflexivity|].
  intros k Hk. do 22 (destruct k as [|k]; [vm_compute; reflexivity|]). lia.
Qed.
(** an UPDATE with an attribute and two routes with path identifiers, cut at every place; *)
Example C115_update_ex : let p := mkParams 1 180 ModeV4 true 1 [CapAddPath [mkAP 1 1 true true]] true in
  let r1 := mkPid 7 (mkV4 0x0a000000 8) in let r2 := mkPid 8 (mkV4 0x0b010000 16) in
  let m := mkUpd (IPV4UP [r1; r2]) ANone [AOrigin Igp] in let got v := Ok (mkUpd (IPV4UP v) (IPV4UP []) [AOrigin Igp]) in
  update_ok p m /\ length (update_wire p m) = 21%nat /\ upd_attrs_at p m = 4%nat /\ upd_routes_at p m = 8%nat /\
  (forall k, told p (u_updates m) k) /\ left_pathid (u_updates m) (IPV4UP [r1]) 8 /\ left_prefix (u_updates m) 12 /\
  map (fun k => update_decode true p update_new (firstn k (update_wire p m))) (seq 0 21) =
    repeat (Err EInsufficient) 4 ++ repeat (Err EProtocol) 4 ++ repeat (got []) 5 ++ [Err EOther] ++ repeat (got [r1]) 5 ++ repeat (Err EOther) 2.
Proof.
  cbv zeta. split.
  { split; [right; split; [reflexivity|]; split; [repeat constructor; vm_compute; try reflexivity; discriminate|intros _; reflexivity]|].
    split; [now left|]. split; [apply Forall_cons; [split; [exact I|split; [exact I|vm_compute; discriminate]]|apply Forall_nil]|]. split; vm_compute; discriminate. }
  split; [reflexivity|]. split; [reflexivity|]. split; [reflexivity|]. split; [intros k _; reflexivity|].
  split; [apply (lp4 [mkPid 7 (mkV4 0x0a000000 8)] (mkPid 8 (mkV4 0x0b010000 16)) [] 2); lia|].
  split; [apply (lx4p [mkPid 7 (mkV4 0x0a000000 8)] (mkPid 8 (mkV4 0x0b010000 16)) [] 2); vm_compute; lia|]. vm_compute. reflexivity.
Qed.
(** a NOTIFICATION, an Initiation and a Termination. *)
Example C115_bmp_ex : notif_wf (mkNotif 6 2 1025) /\ notif_decode notif_new (firstn 3 (notif_wire (mkNotif 6 2 1025))) = Ok (mkNotif 6 2 4) /\
  Forall tlv_fits [(1, [97])] /\ tlv_fits (2, [98; 99]) /\
  map (fun k => init_decode (firstn k (tlvs_wire [(1, [97]); (2, [98; 99])]))) [5; 6; 9; 10; 11]%nat =
    [Ok (mkInit None (Some [97]) None, 5%nat); Err EInsufficient; Err EInsufficient; Err EInsufficient; Ok (mkInit None (Some [97]) (Some [98; 99]), 11%nat)] /\
  Forall term_tlv_ok [(0, [97])] /\
  map (fun k => term_decode (firstn k (tlvs_wire [(0, [97]); (1, [0; 1])]))) [5; 6; 8; 9; 10; 11]%nat =
    [Ok (mkTerm (Some [97]) None, 5%nat); Ok (mkTerm (Some [97]) None, 5%nat); Ok (mkTerm (Some [97]) None, 5%nat); Err EInsufficient; Err EInsufficient;
     Ok (mkTerm (Some [97]) (Some 1), 11%nat)].
Proof.
  split; [repeat split|]. split; [reflexivity|]. split; [repeat constructor|]. split; [repeat constructor|]. split; [vm_compute; reflexivity|].
  split; [apply Forall_cons; [split; [split; [split; reflexivity|reflexivity]|discriminate]|apply Forall_nil]|]. vm_compute. reflexivity.
Qed.
