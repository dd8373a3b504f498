(** Model of the [Debug] texts ([{:?}]) of capabilities, OPEN messages, session parameters and BMP messages: derived in /repo/src/lib.rs,
    /repo/src/message/open.rs and /repo/src/bmp/*.rs.

    What [derive(Debug)] and the [Debug] of [str] write are the standard library's and modelled after it. Which characters beyond ASCII it
    prints as they are depends on its Unicode tables: that is the parameter [pr]. *)
From Coq Require Import Ascii String.
From Verif Require Import Base M_Util M_Nlri M_Cap M_Open M_Session M_Update M_Bmp M_Text M_Text2 M_Debug.

(** ** Strings *)

(** [str::chars] of valid UTF-8 (used by [Debug] of [String], e.g. lib.rs:354, msginit.rs:59) *)
Fixpoint chars (s : list N) : list N :=
  match s with
  | [] => []
  | a :: r =>
      if a <? 128 then a :: chars r else
      match r with
      | [] => []
      | b :: r2 =>
          if a <? 224 then (64 * (a mod 32) + b mod 64) :: chars r2 else
          match r2 with
          | [] => []
          | c :: r3 =>
              if a <? 240 then (64 * (64 * (a mod 16) + b mod 64) + c mod 64) :: chars r3 else
              match r3 with
              | [] => []
              | d :: r4 => (64 * (64 * (64 * (a mod 8) + b mod 64) + c mod 64) + d mod 64) :: chars r4
              end
          end
      end
  end.
(** [char::encode_utf8] (used by [Debug] of [String], e.g. lib.rs:354, msginit.rs:59) *)
Definition char_utf8 (c : N) : text :=
  if c <? 128 then [c]
  else if c <? 2048 then [192 + c / 64; 128 + c mod 64]
  else if c <? 65536 then [224 + c / 4096; 128 + (c / 64) mod 64; 128 + c mod 64]
  else [240 + c / 262144; 128 + (c / 4096) mod 64; 128 + (c / 64) mod 64; 128 + c mod 64].
(** [char::escape_debug_ext] as [Debug] of [str] calls it: the single quotation mark is not escaped (e.g. lib.rs:354, msginit.rs:59) *)
Definition char_debug (pr : N -> bool) (c : N) : text :=
  if c =? 0 then txt "\0"
  else if c =? 9 then txt "\t"
  else if c =? 10 then txt "\n"
  else if c =? 13 then txt "\r"
  else if c =? 34 then txt "\"""
  else if c =? 92 then txt "\\"
  else if (if c <? 128 then (32 <=? c) && (c <? 127) else pr c) then char_utf8 c
  else txt "\u{" ++ fmt_hex c ++ txt "}".
(** [Debug] of [str] and [String] (e.g. lib.rs:354, msginit.rs:59) *)
Definition str_debug (pr : N -> bool) (s : list N) : text := txt """" ++ concat (map (char_debug pr) (chars s)) ++ txt """".
(** [Debug] of [Option] (e.g. msginit.rs:59) *)
Definition opt_debug {A} (f : A -> text) (o : option A) : text :=
  match o with None => d_variant (txt "None") None | Some x => d_variant (txt "Some") (Some (f x)) end.
(** derived: a variant with several fields without names (lib.rs:354) *)
Definition d_tuple (nm : text) (l : list text) : text := nm ++ txt "(" ++ commas l ++ txt ")".

(** ** lib.rs, message/open.rs *)

(** lib.rs:134-139, derived *)
Definition gr_debug (g : capGR) : text :=
  d_struct (txt "BgpCapGR") [(txt "afi", fmt_dec (gr_afi g)); (txt "safi", fmt_dec (gr_safi g)); (txt "forwarding_state", d_bool (gr_fwd g))].
(** lib.rs:198-204, derived *)
Definition ll_debug (g : capLLGR) : text :=
  d_struct (txt "BgpCapLLGR")
    [(txt "afi", fmt_dec (ll_afi g)); (txt "safi", fmt_dec (ll_safi g)); (txt "flags", fmt_dec (ll_flags g)); (txt "stale_time", fmt_dec (ll_stale g))].
(** lib.rs:249-255, derived *)
Definition ap_debug (g : capAP) : text :=
  d_struct (txt "BgpCapAddPath")
    [(txt "afi", fmt_dec (ap_afi g)); (txt "safi", fmt_dec (ap_safi g)); (txt "send", d_bool (ap_send g)); (txt "receive", d_bool (ap_receive g))].
(** the names of the variants without fields, lib.rs:302-337 *)
Definition safi_debug (s : safi) : text :=
  match s with
  | SafiIPv4u => txt "SafiIPv4u" | SafiIPv4fu => txt "SafiIPv4fu" | SafiIPv4m => txt "SafiIPv4m" | SafiIPv4mvpn => txt "SafiIPv4mvpn"
  | SafiVPNv4u => txt "SafiVPNv4u" | SafiVPNv4fu => txt "SafiVPNv4fu" | SafiVPNv4m => txt "SafiVPNv4m" | SafiIPv4lu => txt "SafiIPv4lu"
  | SafiIPv4mdt => txt "SafiIPv4mdt" | SafiIPv6u => txt "SafiIPv6u" | SafiIPv6fu => txt "SafiIPv6fu" | SafiIPv6lu => txt "SafiIPv6lu"
  | SafiIPv6mdt => txt "SafiIPv6mdt" | SafiVPNv6u => txt "SafiVPNv6u" | SafiVPNv6m => txt "SafiVPNv6m" | SafiVPLS => txt "SafiVPLS"
  | SafiEVPN => txt "SafiEVPN"
  end.
(** lib.rs:301-357, derived *)
Definition cap_debug (pr : N -> bool) (c : bgpcap) : text :=
  match c with
  | CapMP s => safi_debug s
  | CapGR state time afis =>
      d_struct (txt "CapGR") [(txt "restart_time", fmt_dec time); (txt "restart_state", d_bool state); (txt "afis", d_list (map gr_debug afis))]
  | CapASN32 n => d_variant (txt "CapASN32") (Some (fmt_dec n))
  | CapRR => d_variant (txt "CapRR") None
  | CapAddPath v => d_variant (txt "CapAddPath") (Some (d_list (map ap_debug v)))
  | CapEnhancedRR => d_variant (txt "CapEnhancedRR") None
  | CapLLGR v => d_variant (txt "CapLLGR") (Some (d_list (map ll_debug v)))
  | CapFQDN h d => d_tuple (txt "CapFQDN") [str_debug pr h; str_debug pr d]
  | CapBFD => d_variant (txt "CapBFD") None
  end.
(** open.rs:12-22, derived *)
Definition open_debug (pr : N -> bool) (m : openMsg) : text :=
  d_struct (txt "BgpOpenMessage")
    [(txt "as_num", fmt_dec (op_as m)); (txt "hold_time", fmt_dec (op_hold m)); (txt "router_id", fmt_ipv4 (op_rid m));
     (txt "caps", d_list (map (cap_debug pr) (op_caps m)))].
(** lib.rs:101-105, derived *)
Definition mode_debug (m : tmode) : text := match m with ModeV4 => txt "IPv4" | ModeV6 => txt "IPv6" end.
(** lib.rs:670-686, derived *)
Definition params_debug (pr : N -> bool) (p : params) : text :=
  d_struct (txt "BgpSessionParams")
    [(txt "as_num", fmt_dec (sp_as p)); (txt "hold_time", fmt_dec (sp_hold p)); (txt "peer_mode", mode_debug (sp_mode p));
     (txt "has_as32bit", d_bool (sp_as32 p)); (txt "router_id", fmt_ipv4 (sp_rid p)); (txt "caps", d_list (map (cap_debug pr) (sp_caps p)));
     (txt "fuzzy_pathid", d_bool (sp_fuzzy p))].
(** message/mod.rs:29-35, derived *)
Definition msgtype_debug (t : msgtype) : text :=
  match t with MOpen => txt "Open" | MUpdate => txt "Update" | MNotification => txt "Notification" | MKeepalive => txt "Keepalive" end.

(** ** bmp *)

(** afi/mod.rs:300-308, derived *)
Definition brd_debug (d : bgpRD) : text := d_struct (txt "BgpRD") [(txt "rdh", fmt_dec (rdh d)); (txt "rdl", fmt_dec (rdl d))].
(** bmputl.rs:56-72, derived *)
Definition peer_debug (h : peerhdr) : text :=
  d_struct (txt "BmpMessagePeerHeader")
    [(txt "peertype", fmt_dec (ph_type h)); (txt "flags", fmt_dec (ph_flags h)); (txt "peerdistinguisher", brd_debug (ph_rd h));
     (txt "peeraddress", ip_fmt (ph_addr h)); (txt "asnum", fmt_dec (ph_as h)); (txt "routerid", fmt_ipv4 (ph_rid h));
     (txt "timestamp", fmt_dec (ph_time h))].
(** msgterm.rs:14-20, derived *)
Definition term_debug (pr : N -> bool) (m : bmpterm) : text :=
  d_struct (txt "BmpMessageTermination") [(txt "str0", opt_debug (str_debug pr) (tm_str m)); (txt "reason", opt_debug fmt_dec (tm_reason m))].
(** msginit.rs:56-64, derived *)
Definition init_debug (pr : N -> bool) (m : bmpinit) : text :=
  d_struct (txt "BmpMessageInitiation")
    [(txt "str0", opt_debug (str_debug pr) (in_str m)); (txt "sys_descr", opt_debug (str_debug pr) (in_descr m));
     (txt "sys_name", opt_debug (str_debug pr) (in_name m))].
(** msgpeer.rs:18-26, derived *)
Definition up_debug (pr : N -> bool) (m : peerup) : text :=
  d_struct (txt "BmpMessagePeerUp")
    [(txt "peer", peer_debug (pu_peer m)); (txt "localaddress", ip_fmt (pu_local m)); (txt "localport", fmt_dec (pu_lport m));
     (txt "remoteport", fmt_dec (pu_rport m)); (txt "msg1", open_debug pr (pu_msg1 m)); (txt "msg2", open_debug pr (pu_msg2 m))].
(** notification.rs:110-118 *)
Definition notif_debug (m : notifMsg) : text := notification_debug (nt_code m) (nt_sub m) (nt_data m).
(** msgpeer.rs:28-35, derived *)
Definition reason_debug (r : downreason) : text :=
  match r with
  | AdminClosed m => d_variant (txt "AdministrativelyClosed") (Some (notif_debug m))
  | LocalState s => d_variant (txt "LocalSystemState") (Some (fmt_dec s))
  | RemoteNotif m => d_variant (txt "RemoteNotification") (Some (notif_debug m))
  | RemoteClosed => d_variant (txt "Remote") None
  | BmpDisabled => d_variant (txt "BmpDisabled") None
  end.
(** msgpeer.rs:37-41, derived *)
Definition down_debug (m : peerdown) : text :=
  d_struct (txt "BmpMessagePeerDown") [(txt "peer", peer_debug (pd_peer m)); (txt "reason", reason_debug (pd_reason m))].
(** msgrmon.rs:17-23, derived *)
Definition rmon_debug (m : rmon) : text :=
  d_struct (txt "BmpMessageRouteMonitoring") [(txt "peer", peer_debug (rm_peer m)); (txt "update", update_debug (rm_update m))].
(** mod.rs:126-132, derived *)
Definition bmphdr_debug (h : bmphdr) : text :=
  d_struct (txt "BmpMessageHeader") [(txt "version", fmt_dec (bh_version h)); (txt "msglength", fmt_dec (bh_length h))].
(** mod.rs:27-31, derived *)
Definition skey_debug (k : skey) : text :=
  d_struct (txt "BgpSessionKey") [(txt "peer_rd", brd_debug (fst k)); (txt "peer_ip", ip_fmt (snd k))].
(** mod.rs:114-123, derived *)
Definition bmp_debug (pr : N -> bool) (m : bmpmsg) : text :=
  match m with
  | RouteMonitoring m => d_variant (txt "RouteMonitoring") (Some (rmon_debug m))
  | StatisticsReport => d_variant (txt "StatisticsReport") None
  | PeerDown m => d_variant (txt "PeerDownNotification") (Some (down_debug m))
  | PeerUp m => d_variant (txt "PeerUpNotification") (Some (up_debug pr m))
  | Initiation m => d_variant (txt "Initiation") (Some (init_debug pr m))
  | Termination m => d_variant (txt "Termination") (Some (term_debug pr m))
  | RouteMirroring => d_variant (txt "RouteMirroring") None
  end.
