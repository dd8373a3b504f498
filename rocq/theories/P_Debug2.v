(** * C120: the [Debug] text of OPEN messages, session parameters and BMP messages identifies the value
    * C121: [Debug] texts stay on one line *)
From Coq Require Import Ascii String.
From Verif Require Import Base M_Util M_Nlri M_Addrs M_Attr M_Prefix M_Cap M_Open M_Session M_Update M_Bmp M_Text M_Debug S_Serde S_Debug S_Exact3 M_Debug2 S_Debug2 F_Debug3 F_Debug4 F_Debug5 F_Debug6.

(** * C120 *)

(** In all of these [pr] is the table of the characters beyond ASCII that Rust prints as they are: the claims hold whatever it says. *)
Theorem C120_strings : forall pr s t, utf8 s -> utf8 t -> (str_debug pr s = str_debug pr t <-> s = t).
Proof. exact (fun pr s t => told_iff _ _ s t (str_told pr)). Qed.
Print Assumptions C120_strings.
(** The end of a quoted string is where its text says, whatever follows. *)
Theorem C120_strings_end : forall pr s t x y, utf8 s -> utf8 t -> str_debug pr s ++ x = str_debug pr t ++ y -> s = t /\ x = y.
Proof. exact str_end. Qed.
Print Assumptions C120_strings_end.
Theorem C120_capability : forall pr a b, cap_any a -> cap_any b -> (cap_debug pr a = cap_debug pr b <-> a = b).
Proof. exact (fun pr s t => told_iff _ _ s t (cap_told pr)). Qed.
Print Assumptions C120_capability.
Theorem C120_open : forall pr a b, open_any a -> open_any b -> (open_debug pr a = open_debug pr b <-> a = b).
Proof. exact (fun pr s t => told_iff _ _ s t (open_told pr)). Qed.
Print Assumptions C120_open.
Theorem C120_params : forall pr a b, params_any a -> params_any b -> (params_debug pr a = params_debug pr b <-> a = b).
Proof. exact (fun pr s t => told_iff _ _ s t (params_told pr)). Qed.
Print Assumptions C120_params.
Theorem C120_msgtype : forall a b, msgtype_debug a = msgtype_debug b <-> a = b.
Proof. exact (fun a b => told_iff _ _ a b msgtype_told I I). Qed.
Print Assumptions C120_msgtype.
Theorem C120_peer : forall a b, peer_any a -> peer_any b -> (peer_debug a = peer_debug b <-> a = b).
Proof. exact (fun s t => told_iff _ _ s t peer_told). Qed.
Print Assumptions C120_peer.
Theorem C120_key : forall a b, skey_any a -> skey_any b -> (skey_debug a = skey_debug b <-> a = b).
Proof. exact (fun s t => told_iff _ _ s t skey_told). Qed.
Print Assumptions C120_key.
Theorem C120_header : forall a b, bmphdr_debug a = bmphdr_debug b <-> a = b.
Proof. exact (fun a b => told_iff _ _ a b bmphdr_told I I). Qed.
Print Assumptions C120_header.
Theorem C120_bmp : forall pr a b, bmp_any a -> bmp_any b -> (bmp_debug pr a = bmp_debug pr b <-> a = b).
Proof. exact (fun pr s t => told_iff _ _ s t (bmp_told pr)). Qed.
Print Assumptions C120_bmp.

(** The conditions on strings and router IDs hold of everything received. *)
Theorem C120_received_open : forall self b m, bytes_ok b -> open_decode self b = Ok m -> open_any m.
Proof. exact open_any_decoded. Qed.
Print Assumptions C120_received_open.
Theorem C120_received_initiation : forall b m n, init_decode b = Ok (m, n) -> init_any m.
Proof. exact init_any_decoded. Qed.
Print Assumptions C120_received_initiation.
Theorem C120_received_termination : forall b m n, term_decode b = Ok (m, n) -> term_any m.
Proof. exact term_any_decoded. Qed.
Print Assumptions C120_received_termination.

Ltac texts := try match goal with |- @eq _ _ _ => vm_compute; reflexivity end.
(** the characters beyond ASCII printed as they are in the examples: e with an acute accent only *)
Definition only_e (c : N) : bool := c =? 233.
Example C120_strings_ex :
  str_debug only_e (txt "ab'c") = txt """ab'c""" /\ str_debug only_e [34; 92; 10; 13; 9; 0] = txt """\""\\\n\r\t\0""" /\
  str_debug only_e [27; 127] = txt """\u{1b}\u{7f}""" /\
  str_debug only_e [195; 169; 226; 128; 168; 240; 159; 152; 128] = txt """" ++ [195; 169] ++ txt "\u{2028}\u{1f600}""" /\ utf8 [195; 169; 226; 128; 168; 240; 159; 152; 128].
Proof. repeat apply conj; texts. exists [233; 8232; 128512]. split; [|reflexivity]. repeat constructor; unfold scalar; lia. Qed.
Example C120_capability_ex :
  map (cap_debug only_e) [CapMP SafiIPv4mvpn; CapGR true 120 [mkGR 1 2 false]; CapASN32 65536; CapRR; CapAddPath [mkAP 1 1 true false]; CapEnhancedRR;
     CapLLGR [mkLLGR 2 1 128 3600; mkLLGR 1 1 0 5]; CapFQDN (txt "r1") []; CapBFD] =
  [txt "SafiIPv4mvpn"; txt "CapGR { restart_time: 120, restart_state: true, afis: [BgpCapGR { afi: 1, safi: 2, forwarding_state: false }] }";
   txt "CapASN32(65536)"; txt "CapRR"; txt "CapAddPath([BgpCapAddPath { afi: 1, safi: 1, send: true, receive: false }])"; txt "CapEnhancedRR";
   txt "CapLLGR([BgpCapLLGR { afi: 2, safi: 1, flags: 128, stale_time: 3600 }, BgpCapLLGR { afi: 1, safi: 1, flags: 0, stale_time: 5 }])";
   txt "CapFQDN(""r1"", """")"; txt "CapBFD"].
Proof. vm_compute. reflexivity. Qed.
Example C120_families_ex :
  map (cap_debug only_e) (map CapMP [SafiIPv4u; SafiIPv4fu; SafiIPv4m; SafiVPNv4u; SafiVPNv4fu; SafiVPNv4m; SafiIPv4lu; SafiIPv4mdt; SafiIPv6u; SafiIPv6fu; SafiIPv6lu;
     SafiIPv6mdt; SafiVPNv6u; SafiVPNv6m; SafiVPLS; SafiEVPN]) =
  map txt ["SafiIPv4u"; "SafiIPv4fu"; "SafiIPv4m"; "SafiVPNv4u"; "SafiVPNv4fu"; "SafiVPNv4m"; "SafiIPv4lu"; "SafiIPv4mdt"; "SafiIPv6u"; "SafiIPv6fu"; "SafiIPv6lu";
     "SafiIPv6mdt"; "SafiVPNv6u"; "SafiVPNv6m"; "SafiVPLS"; "SafiEVPN"]%string.
Proof. vm_compute. reflexivity. Qed.
Example C120_open_ex :
  open_debug only_e (mkOpen 65001 180 167772161 [CapRR; CapBFD]) = txt "BgpOpenMessage { as_num: 65001, hold_time: 180, router_id: 10.0.0.1, caps: [CapRR, CapBFD] }" /\
  params_debug only_e (mkParams 65001 180 ModeV6 true 167772161 [] false) =
    txt "BgpSessionParams { as_num: 65001, hold_time: 180, peer_mode: IPv6, has_as32bit: true, router_id: 10.0.0.1, caps: [], fuzzy_pathid: false }" /\
  mode_debug ModeV4 = txt "IPv4" /\ map msgtype_debug [MOpen; MUpdate; MNotification; MKeepalive] = [txt "Open"; txt "Update"; txt "Notification"; txt "Keepalive"] /\
  open_any (mkOpen 65001 180 167772161 [CapRR; CapBFD]).
Proof. repeat apply conj; texts; repeat constructor. Qed.
Example C120_bmp_ex :
  bmp_debug only_e (Initiation (mkInit None (Some (txt "x")) (Some (txt "r""1")))) =
    txt "Initiation(BmpMessageInitiation { str0: None, sys_descr: Some(""x""), sys_name: Some(""r\""1"") })" /\
  bmp_debug only_e (Termination (mkTerm (Some []) (Some 3))) = txt "Termination(BmpMessageTermination { str0: Some(""""), reason: Some(3) })" /\
  bmp_debug only_e StatisticsReport = txt "StatisticsReport" /\ bmp_debug only_e RouteMirroring = txt "RouteMirroring" /\
  bmp_debug only_e (PeerDown (mkDown (mkPeer 0 128 (mkRD 1 2) (IPv4 167772161) 65001 167772162 7) (AdminClosed (mkNotif 6 2 0)))) =
    txt "PeerDownNotification(BmpMessagePeerDown { peer: BmpMessagePeerHeader { peertype: 0, flags: 128, peerdistinguisher: BgpRD { rdh: 1, rdl: 2 }, peeraddress: 10.0.0.1, asnum: 65001, routerid: 10.0.0.2, timestamp: 7 }, reason: AdministrativelyClosed(BgpNotificationMessage { error_code: 6, error_subcode: 2, data: 0 }) })" /\
  map reason_debug [LocalState 5; RemoteNotif (mkNotif 6 4 1); RemoteClosed; BmpDisabled] =
    [txt "LocalSystemState(5)"; txt "RemoteNotification(BgpNotificationMessage { error_code: 6, error_subcode: 4, data: 1 })"; txt "Remote"; txt "BmpDisabled"] /\
  bmp_debug only_e (RouteMonitoring (mkRmon (mkPeer 0 0 (mkRD 0 0) (IPv6 1) 1 1 1) (mkUpd ANone ANone []))) =
    txt "RouteMonitoring(BmpMessageRouteMonitoring { peer: BmpMessagePeerHeader { peertype: 0, flags: 0, peerdistinguisher: BgpRD { rdh: 0, rdl: 0 }, peeraddress: ::1, asnum: 1, routerid: 0.0.0.1, timestamp: 1 }, update: BgpUpdateMessage { updates: None, withdraws: None, attrs: [] } })" /\
  bmp_debug only_e (PeerUp (mkUp (mkPeer 0 0 (mkRD 0 0) (IPv4 1) 1 1 1) (IPv4 2) 179 40000 (mkOpen 1 2 3 []) (mkOpen 4 5 6 [CapRR]))) =
    txt "PeerUpNotification(BmpMessagePeerUp { peer: BmpMessagePeerHeader { peertype: 0, flags: 0, peerdistinguisher: BgpRD { rdh: 0, rdl: 0 }, peeraddress: 0.0.0.1, asnum: 1, routerid: 0.0.0.1, timestamp: 1 }, localaddress: 0.0.0.2, localport: 179, remoteport: 40000, msg1: BgpOpenMessage { as_num: 1, hold_time: 2, router_id: 0.0.0.3, caps: [] }, msg2: BgpOpenMessage { as_num: 4, hold_time: 5, router_id: 0.0.0.6, caps: [CapRR] } })" /\
  bmphdr_debug (mkBmpHdr 3 70) = txt "BmpMessageHeader { version: 3, msglength: 70 }" /\
  skey_debug (mkRD 0 5, IPv4 1) = txt "BgpSessionKey { peer_rd: BgpRD { rdh: 0, rdl: 5 }, peer_ip: 0.0.0.1 }" /\
  bmp_any (Initiation (mkInit None (Some [120]) None)) /\ bmp_any (RouteMonitoring (mkRmon (mkPeer 0 0 (mkRD 0 0) (IPv6 1) 1 1 1) (mkUpd ANone ANone []))).
Proof.
  repeat apply conj; texts; try exact I; try (now constructor); try reflexivity. exists [120]. split; [|reflexivity]. repeat constructor.
Qed.

Example C120_received_ex :
  init_decode [0; 2; 0; 2; 114; 10; 0; 1; 0; 2; 195; 169] = Ok (mkInit None (Some [195; 169]) (Some [114; 10]), 12%nat) /\
  term_decode [0; 0; 0; 1; 120; 0; 1; 0; 2; 0; 4] = Ok (mkTerm (Some [120]) (Some 4), 11%nat) /\
  open_decode open_new [4; 253; 233; 0; 90; 10; 0; 0; 1; 7; 2; 5; 73; 3; 1; 104; 0] = Ok (mkOpen 65001 90 167772161 [CapFQDN [104] []]).
Proof. repeat apply conj; vm_compute; reflexivity. Qed.

(** * C121 *)

(** Whatever peer or router sent it, a message printed with [{:?}] never contains a line break or another control character of ASCII. *)
Theorem C121_strings : forall pr s, one_line (str_debug pr s).
Proof. exact str_line. Qed.
Print Assumptions C121_strings.
Theorem C121_attribute : forall a, one_line (attr_debug a).
Proof. exact attr_line. Qed.
Print Assumptions C121_attribute.
Theorem C121_routes : forall a, one_line (addrs_debug a).
Proof. exact addrs_line. Qed.
Print Assumptions C121_routes.
Theorem C121_update : forall u, one_line (update_debug u).
Proof. exact update_line. Qed.
Print Assumptions C121_update.
Theorem C121_open : forall pr m, one_line (open_debug pr m).
Proof. exact open_line. Qed.
Print Assumptions C121_open.
Theorem C121_params : forall pr p, one_line (params_debug pr p).
Proof. exact params_line. Qed.
Print Assumptions C121_params.
Theorem C121_bmp : forall pr m, one_line (bmp_debug pr m).
Proof. exact bmp_line. Qed.
Print Assumptions C121_bmp.

(** A router that names itself with a line break and a forged log entry: both stay inside the quotation marks. *)
Example C121_ex :
  bmp_debug only_e (Initiation (mkInit None None (Some (txt "r1" ++ [10] ++ txt """ ok")))) =
    txt "Initiation(BmpMessageInitiation { str0: None, sys_descr: None, sys_name: Some(""r1\n\"" ok"") })" /\
  ~ one_line (txt "r1" ++ [10]).
Proof. split; [vm_compute; reflexivity|]. intros H. unfold one_line in H. apply Forall_app in H as [_ H]. apply Forall_inv in H. lia. Qed.
