(** What is encoded depends on the value alone: C104. *)
From Verif Require Import Base M_Util M_Nlri M_Vpls M_Prefix M_Mvpn M_Evpn M_Flowspec M_Addrs M_Attr M_Update M_Cap M_Open M_Session M_Peer M_Bmp
  S_Room F_Room6 F_Room7.

(** C104, of the routes of any family. Missing: what [addrs_tidy] excludes, for which it is false (below). *)
Theorem C104_routes_partial : forall oc a, addrs_tidy a -> settled (addrs_encode oc a).
Proof. exact C104_addrs_l. Qed.
Print Assumptions C104_routes_partial.
(** Of path attributes. Missing: AGGREGATOR and such routes. *)
Theorem C104_attribute_partial : forall oc p a, attr_tidy a -> settled (attr_encode oc p a).
Proof. exact C104_attr_l. Qed.
Print Assumptions C104_attribute_partial.
(** Of message bodies. Missing: an OPEN with an FQDN capability, an UPDATE with such attributes. *)
Theorem C104_message_partial : forall oc p m, message_tidy m -> settled (message_encode oc p m).
Proof. exact C104_message_l. Qed.
Print Assumptions C104_message_partial.
(** Of whole messages as they are sent. *)
Theorem C104_send_partial : forall oc p m, message_tidy m -> settled_send (send_message oc p m).
Proof. exact C104_send_l. Qed.
Print Assumptions C104_send_partial.
(** Of BMP messages, but for what is behind them in the buffer. *)
Theorem C104_bmp_partial : forall oc m, bmp_tidy oc m -> settled_front (bmp_encode oc m).
Proof. exact C104_bmp_l. Qed.
Print Assumptions C104_bmp_partial.

(** two flow specification rules, whatever was in the buffer *)
Example C104_ex_routes : let a := FS4U [FsPortDst [mkFsVal false false false true 80]; FsDst (mkV4 0x0a010000 16)] in addrs_tidy a /\
  addrs_encode true a (repeat 0 20) = Ok (9%nat, [3; 5; 129; 80; 4; 1; 16; 10; 1] ++ repeat 0 11) /\
  addrs_encode true a (repeat 7 9) = Ok (9%nat, [3; 5; 129; 80; 4; 1; 16; 10; 1]) /\
  is_ok (addrs_encode true a (repeat 7 8)) = false.
Proof.
  cbv zeta. split; [|split; [|split]; vm_compute; reflexivity].
  apply Forall_cons; [|apply Forall_cons; [|apply Forall_nil]]; cbn [fs_tidy].
  - exists (mkFsVal false false false true 80). split; [now left|]. cbn. lia.
  - cbn. lia.
Qed.
Example C104_ex_send : let p := params_new 65000 90 ModeV4 1 [] in
  let m := MsgUpdate (mkUpd (IPV4U [mkV4 0x0a010000 16]) ANone [AOrigin Incomplete; AMED 5]) in message_tidy m /\
  exists s b, send_message true p m (repeat 9 64) = Ok (s, b) /\ length s = 37%nat /\
    (exists b2, send_message true p m (repeat 1 37) = Ok (s, b2)) /\ is_ok (send_message true p m (repeat 1 36)) = false /\
    settled (message_encode true p m) /\ settled (attr_encode true p (AMED 5)).
Proof.
  intros p m. assert (Ht : message_tidy m) by (apply Forall_cons; [exact I|apply Forall_cons; [exact I|apply Forall_nil]]). split; [exact Ht|].
  set (s := repeat 255 16 ++ [0; 37; 2; 0; 0; 0; 11; 64; 1; 1; 2; 128; 4; 4; 0; 0; 0; 5; 16; 10; 1]).
  exists s, (s ++ repeat 9 27). split; [vm_compute; reflexivity|]. split; [reflexivity|]. split; [exists s; vm_compute; reflexivity|].
  split; [vm_compute; reflexivity|]. split; [now apply C104_message_partial|]. apply C104_attribute_partial. exact I.
Qed.
Example C104_ex_bmp : let h := mkPeer 0 0 (mkRD 0 0) (IPv4 0x0a000001) 65001 0x0a000001 7 in
  let m := PeerDown (mkDown h RemoteClosed) in bmp_tidy true m /\ settled_front (bmp_encode true m) /\
  exists bs, length bs = 44%nat /\ (exists b, bmp_encode true m (repeat 3 50) = Ok (44%nat, bs ++ b)) /\ (exists b, bmp_encode true m (repeat 200 44) = Ok (44%nat, bs ++ b)).
Proof.
  intros h m. split; [exact I|]. split; [apply C104_bmp_partial; exact I|].
  exists ([2; 0; 0] ++ repeat 0 8 ++ repeat 0 12 ++ [10; 0; 0; 1] ++ [0; 0; 253; 233; 10; 0; 0; 1] ++ [0; 0; 0; 0; 0; 0; 0; 7; 4]).
  split; [reflexivity|]. split; [exists (repeat 0 6)|exists []]; vm_compute; reflexivity.
Qed.

(** C104 is false of AGGREGATOR: its value is whatever the buffer held, *)
Theorem C104_aggregator_stale : forall oc p asn a buf n buf', attr_encode oc p (AAggregatorAS asn a) buf = Ok (n, buf') ->
  n = (3 + (if sp_as32 p then 4 else 2))%nat /\ skipn 3 buf' = skipn 3 buf.
Proof. exact C104_aggregator_l. Qed.
Print Assumptions C104_aggregator_stale.
Theorem C104_aggregator_refuted : forall oc p asn a, ~ settled (attr_encode oc p (AAggregatorAS asn a)).
Proof. exact C104_aggregator_refuted_l. Qed.
Print Assumptions C104_aggregator_refuted.
(** of every OPEN with an FQDN capability that can be encoded at all, *)
Theorem C104_fqdn_refuted : forall m, ~ open_tidy m -> (exists buf x, open_encode m buf = Ok x) -> ~ settled (open_encode m).
Proof. exact C104_fqdn_l. Qed.
Print Assumptions C104_fqdn_refuted.
(** of every list of VPLS routes, *)
Theorem C104_vpls_refuted : forall oc v, v <> [] -> (exists buf r, addrs_encode oc (L2VPLS v) buf = Ok r) -> ~ settled (addrs_encode oc (L2VPLS v)).
Proof. exact C104_vpls_l. Qed.
Print Assumptions C104_vpls_refuted.
(** of every EVPN route that is not tidy (with a MAC address of six octets, as its type demands), *)
Theorem C104_evpn_refuted : forall r, match r with Ev2 r => length (ev2_mac r) = 6%nat | _ => True end -> ~ ev_tidy r ->
  (exists buf x, evpn_encode r buf = Ok x) -> ~ settled (evpn_encode r).
Proof. exact C104_evpn_l. Qed.
Print Assumptions C104_evpn_refuted.
(** and of every flow specification component whose values are not tidy. *)
Theorem C104_flowspec_refuted : forall T (it : fsitem T) bits r, fs_vec r -> ~ fs_tidy bits r -> (exists buf x, fs_encode it r buf = Ok x) ->
  ~ settled (fs_encode it r).
Proof. intros T. exact C104_flowspec_l. Qed.
Print Assumptions C104_flowspec_refuted.

Example C104_ex_stale : let p := params_new 65000 90 ModeV4 1 [] in
  attr_encode true p (AAggregatorAS 65000 0x0a000001) [9; 9; 9; 1; 2; 3; 4; 5] = Ok (7%nat, [64; 7; 4; 1; 2; 3; 4; 5]).
Proof. vm_compute. reflexivity. Qed.
Example C104_ex_fqdn : let m := mkOpen 65000 180 0x0a000001 [CapRR; CapFQDN [97] [98]] in ~ open_tidy m /\
  open_encode m (repeat 7 22) = Ok (22%nat, [4; 253; 232; 0; 180; 10; 0; 0; 1; 12; 2; 2; 2; 0; 2; 6; 73; 97; 1; 98; 7; 7]) /\ ~ settled (open_encode m).
Proof.
  intros m. assert (H : ~ open_tidy m).
  { intros H. apply Forall_inv_tail, Forall_inv in H. exact H. }
  split; [exact H|]. split; [vm_compute; reflexivity|]. apply C104_fqdn_refuted; [exact H|].
  exists (repeat 7 22), (22%nat, [4; 253; 232; 0; 180; 10; 0; 0; 1; 12; 2; 2; 2; 0; 2; 6; 73; 97; 1; 98; 7; 7]). vm_compute. reflexivity.
Qed.
Example C104_ex_vpls : let a := L2VPLS [mkL2A (mkRD 65000 1) 2 3 4 [5]] in
  addrs_encode true a (repeat 0 19) = Ok (17%nat, [0; 17; 0; 0; 253; 232; 0; 0; 0; 1; 0; 2; 0; 3; 0; 4; 0; 0; 81]) /\ is_ok (addrs_encode true a (repeat 0 18)) = false.
Proof. split; vm_compute; reflexivity. Qed.
Example C104_ex_evpn : let r := Ev5 (mkEvpn5 (mkRD 65000 1) 0 (repeat 0 9) 0 64 (IPv6 1) (IPv6 2) [5]) in ~ ev_tidy r /\
  is_ok (evpn_encode r (repeat 0 56)) = false /\ exists b, evpn_encode r (repeat 0 57) = Ok (44%nat, b).
Proof.
  intros r. split; [cbn; lia|]. split; [vm_compute; reflexivity|].
  exists ([5; 42; 0; 0; 253; 232; 0; 0; 0; 1] ++ repeat 0 14 ++ [64] ++ repeat 0 15 ++ [1; 0; 0; 81] ++ repeat 0 12 ++ [2]). vm_compute. reflexivity.
Qed.
Example C104_ex_flowspec : let r := FsPortDst [mkFsVal false false false true 443] in ~ fs_tidy v4_len r /\
  is_ok (fs_encode (fs4 true) r (repeat 0 5)) = false /\ fs_encode (fs4 true) r (repeat 0 6) = Ok (5%nat, [5; 5; 145; 1; 187; 0]).
Proof.
  intros r. split; [|split; vm_compute; reflexivity]. intros (x & [<-|[]] & H). cbn in H. lia.
Qed.
