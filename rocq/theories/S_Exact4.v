(** Which octets are which BGP message and which BMP message: relations between
    octets and values written without any decoder (RFC 4271 section 4.1, RFC
    7854 section 4), with the library's deviations said where they occur. *)
From Verif Require Import Base M_Util S_Wire M_Nlri S_Nlri M_Cap S_Cap M_Open M_Session S_Open M_Addrs
  M_Attr M_Update S_Update M_Order M_Bmp S_Bmp S_Exact2 S_Exact3.

(** A message of type [t] with body [o] and the octets [rest] behind it. A
    length below that of the header is taken modulo 65536 when overflow is not
    checked. *)
Definition message_in (oc : bool) (t : msgtype) (b o rest : list N) : Prop :=
  exists len, len < 2 ^ 16 /\ (len < 19 -> oc = false) /\ N.of_nat (length o) + 19 = wrapped len /\
  b = repeat 255 16 ++ be_bytes 2 len ++ [msg_code t] ++ o ++ rest.

(** The information TLVs of a Termination message, after those that gave [m].
    Fewer than four octets at the end are ignored. A reason is the two octets
    behind the TLV header, whatever the length of the TLV. *)
Inductive term_reads : bmpterm -> list N -> bmpterm -> Prop :=
| term_end m b : (length b < 4)%nat -> term_reads m b m
| term_string m s r m' : utf8 s -> N.of_nat (length s) < 2 ^ 16 ->
    term_reads (mkTerm (Some s) (tm_reason m)) r m' -> term_reads m (tlv 0 s ++ r) m'
| term_reason m v r x y z m' : N.of_nat (length v) < 2 ^ 16 -> v ++ r = x :: y :: z ->
    term_reads (mkTerm (tm_str m) (Some (be_val [x; y]))) r m' -> term_reads m (tlv 1 v ++ r) m'
| term_other m t v r m' : 2 <= t < 2 ^ 16 -> N.of_nat (length v) < 2 ^ 16 ->
    term_reads m r m' -> term_reads m (tlv t v ++ r) m'.

(** A peer header; the addresses of ::/96 are not distinguished from IPv4. *)
Definition peer_reads (b : list N) (h : peerhdr) (r : list N) : Prop :=
  peer_wf h /\ ~ v4_like (ph_addr h) /\ b = peer_wire h ++ r.

(** Peer Down: the reason octet and what follows *)
Definition down_reads (oc : bool) (b : list N) (m : peerdown) : Prop :=
  exists c r, peer_reads b (pd_peer m) (c :: r) /\
  match pd_reason m with
  | AdminClosed n => c = 1 /\ exists o rest, message_in oc MNotification r o rest /\ notif_reads 0 o n
  | LocalState s => c = 2 /\ s < 2 ^ 16 /\ exists rest, r = be_bytes 2 s ++ rest
  | RemoteNotif n => c = 3 /\ exists o rest, message_in oc MNotification r o rest /\ notif_reads 0 o n
  | RemoteClosed => c = 4
  | BmpDisabled => c = 5
  end.
(** Peer Up: local address and ports, the two OPEN messages *)
Definition up_reads (oc : bool) (b : list N) (m : peerup) : Prop :=
  ip_wf (pu_local m) /\ ~ v4_like (pu_local m) /\ pu_lport m < 2 ^ 16 /\ pu_rport m < 2 ^ 16 /\
  exists r o1 r1 o2 r2,
    peer_reads b (pu_peer m) (addr_field (pu_local m) ++ be_bytes 2 (pu_lport m) ++ be_bytes 2 (pu_rport m) ++ r) /\
    message_in oc MOpen r o1 r1 /\ open_reads o1 (pu_msg1 m) /\
    message_in oc MOpen r1 o2 r2 /\ open_reads o2 (pu_msg2 m).
(** Route Monitoring: one UPDATE, read with the session parameters [pars] gives the peer *)
Definition rmon_reads (oc : bool) (pars : peerhdr -> params) (b : list N) (m : rmon) : Prop :=
  exists r o rest, peer_reads b (rm_peer m) r /\ message_in oc MUpdate r o rest /\
  update_reads oc (pars (rm_peer m)) o (u_withdraws (rm_update m)) (u_attrs (rm_update m)) (u_updates (rm_update m)).

(** A BMP message behind the common header. The contents of Statistics Report
    and Route Mirroring are not looked at; of the others, octets behind the last
    field are ignored, except in an Initiation, which is TLVs to the end. *)
Definition bmp_reads (oc : bool) (pars : peerhdr -> params) (b : list N) (m : bmpmsg) : Prop :=
  exists t r, b = t :: r /\
  match m with
  | RouteMonitoring m => t = 0 /\ rmon_reads oc pars r m
  | StatisticsReport => t = 1
  | PeerDown m => t = 2 /\ down_reads oc r m
  | PeerUp m => t = 3 /\ up_reads oc r m
  | Initiation m => t = 4 /\ exists l, r = tlvs_wire l /\
      Forall (fun x => tlv_fits x /\ utf8 (snd x)) l /\
      m = mkInit (last_of 0 l) (last_of 1 l) (last_of 2 l)
  | Termination m => t = 5 /\ term_reads (mkTerm None None) r m
  | RouteMirroring => t = 6
  end.
