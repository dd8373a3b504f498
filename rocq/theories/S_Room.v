(** What "the octets encoded depend on the value alone" means, and the values for which the library keeps to it. *)
From Verif Require Import Base M_Util M_Prefix M_Nlri M_Vpls M_Evpn M_Flowspec M_Addrs M_Attr M_Update M_Cap M_Open M_Session M_Peer M_Bmp.

(** Once a value has been encoded in some buffer, with [n] octets: there are [n] octets which it always becomes. Every buffer of [n] or more
    octets receives them at its beginning and keeps the rest, whatever it held; no shorter buffer is enough. *)
Definition settled (e : Enc nat) : Prop :=
  forall buf n buf', e buf = Ok (n, buf') ->
    exists bs, length bs = n /\ forall buf2,
      ((n <= length buf2)%nat -> e buf2 = Ok (n, bs ++ skipn n buf2)) /\
      ((length buf2 < n)%nat -> is_ok (e buf2) = false).
(** The same of an encoder which may also change what is behind the [n] octets. *)
Definition settled_front (e : Enc nat) : Prop :=
  forall buf n buf', e buf = Ok (n, buf') ->
    exists bs, length bs = n /\ forall buf2,
      ((n <= length buf2)%nat -> exists rest, length (bs ++ rest) = length buf2 /\ e buf2 = Ok (n, bs ++ rest)) /\
      ((length buf2 < n)%nat -> is_ok (e buf2) = false).

(** An EVPN IP prefix route with IPv6 addresses writes the labels over its own gateway address; it needs no more than it says if the labels
    are as long as the address. (A MAC address has six octets by its Rust type.) *)
Definition ev_tidy (r : evpn) : Prop :=
  match r with
  | Ev2 r => length (ev2_mac r) = 6%nat
  | Ev5 r => match ev5_prefix r, ev5_gw r with IPv6 _, IPv6 _ => (6 <= length (ev5_labels r))%nat | _, _ => True end
  | _ => True
  end.
(** The length field of a flow specification is computed by other means than its octets: they agree for prefixes of at most 248 bits, and the
    length is not beyond the octets when some value is short. *)
Definition vals_tidy (v : list fsval) : Prop := exists x, In x v /\ fv_value x <= 255.
Definition masks_tidy (v : list fsmask) : Prop := exists x, In x v /\ fm_value x <= 16777215.
Definition fs_tidy {T} (bits : T -> N) (r : flowspec T) : Prop :=
  match r with
  | FsDst a | FsSrc a => bits a <= 248
  | FsProto v | FsPortAny v | FsPortDst v | FsPortSrc v | FsIcmpType v | FsIcmpCode v | FsPacketLength v | FsDscp v | FsFlowLabel v => vals_tidy v
  | FsTcpFlags v | FsFragment v => masks_tidy v
  end.
Definition addrs_tidy (a : addrs) : Prop :=
  match a with
  | L2VPLS v => v = []
  | EVPN v => Forall ev_tidy v
  | FS4U v => Forall (fs_tidy v4_len) v
  | FS6U v => Forall (fs_tidy (fun x => v6_len (fs6_ip x))) v
  | FSV4U v => Forall (fs_tidy (fun x => v4_len (wrd_prefix x))) v
  | _ => True
  end.
(** The value of AGGREGATOR is never written. *)
Definition attr_tidy (a : attr) : Prop :=
  match a with
  | AAggregatorAS _ _ => False
  | AMPUpdates _ a | AMPWithdraws a => addrs_tidy a
  | _ => True
  end.
Definition update_tidy (m : update) : Prop := Forall attr_tidy (u_attrs m).
(** The last two octets of an FQDN capability are never written. *)
Definition cap_tidy (c : bgpcap) : Prop := match c with CapFQDN _ _ => False | _ => True end.
Definition open_tidy (m : openMsg) : Prop := Forall cap_tidy (op_caps m).
Definition message_tidy (m : message) : Prop :=
  match m with MsgOpen m => open_tidy m | MsgUpdate m => update_tidy m | _ => True end.

(** Sending returns the octets themselves: they are the beginning of what was written; all of it unless the message is longer than a BGP
    message can be. *)
Definition settled_send (e : Enc (list N)) : Prop :=
  forall buf s buf', e buf = Ok (s, buf') ->
    exists bs, s = firstn (length s) bs /\ (N.of_nat (length bs) <= 65535 -> s = bs) /\ forall buf2,
      ((length bs <= length buf2)%nat -> e buf2 = Ok (s, bs ++ skipn (length bs) buf2)) /\
      ((length buf2 < length bs)%nat -> is_ok (e buf2) = false).

(** BMP carries whole BGP messages, whose length field has 16 bits. *)
Definition fits16 (e : Enc nat) : Prop := forall buf n buf', e buf = Ok (n, buf') -> N.of_nat n <= 65516.
Definition bmp_tidy (oc : bool) (m : bmpmsg) : Prop :=
  match m with
  | RouteMonitoring m => update_tidy (rm_update m) /\ fits16 (update_encode oc (params_of_peer (rm_peer m)) (rm_update m))
  | PeerUp m => open_tidy (pu_msg1 m) /\ open_tidy (pu_msg2 m) /\ fits16 (open_encode (pu_msg1 m)) /\ fits16 (open_encode (pu_msg2 m))
  | _ => True
  end.
