(** Model of the [Debug] texts ([{:?}]) of path attributes, route lists, UPDATE and NOTIFICATION messages and of the [Display] texts built from
    them: the hand-written [Debug] implementations in /repo/src/message/attributes/*.rs, /repo/src/message/notification.rs,
    /repo/src/afi/mod.rs and mac.rs, and the derived ones of every type reachable from [BgpAttrItem].

    What [Formatter::debug_struct], [debug_list], [debug_set] and the code of [derive(Debug)] write, and the [Debug] of integers, [bool],
    [Option], [String] and addresses, are the standard library's; they are modelled after it, for [{:?}] without [#]. *)
From Coq Require Import Ascii String.
From Verif Require Import Base M_Util M_Prefix M_Nlri M_Vpls M_Mvpn M_Evpn M_Flowspec M_Addrs M_Attr M_Update M_Session M_Text M_Text2 M_Serde.

(** ** The standard library's helpers *)

(** texts separated by a comma and a space ([DebugInner]; used by e.g. community.rs:113-117) *)
Fixpoint commas (l : list text) : text :=
  match l with
  | [] => []
  | [s] => s
  | s :: l' => s ++ txt ", " ++ commas l'
  end.
(** [debug_struct(nm).field(..)...finish()] (e.g. aggregatoras.rs:44-47) *)
Definition d_struct (nm : text) (fs : list (text * text)) : text :=
  match fs with
  | [] => nm
  | _ => nm ++ txt " { " ++ commas (map (fun f => fst f ++ txt ": " ++ snd f) fs) ++ txt " }"
  end.
(** [debug_list] (e.g. aspath.rs:121, [Vec]) *)
Definition d_list (l : list text) : text := txt "[" ++ commas l ++ txt "]".
(** [debug_set] (e.g. community.rs:258, [BTreeSet]) *)
Definition d_set (l : list text) : text := txt "{" ++ commas l ++ txt "}".
(** derived: a variant, with or without a field (e.g. attributes/mod.rs:62-84) *)
Definition d_variant (nm : text) (p : option text) : text :=
  match p with None => nm | Some s => nm ++ txt "(" ++ s ++ txt ")" end.
(** [bool] (e.g. flowspec.rs:127) *)
Definition d_bool (b : bool) : text := if b then txt "true" else txt "false".
(** mac.rs:81-93 *)
Definition mac_debug (m : list N) : text :=
  fmt_hex2 (nth 5 m 0) ++ txt ":" ++ fmt_hex2 (nth 4 m 0) ++ txt ":" ++ fmt_hex2 (nth 3 m 0) ++ txt ":" ++
  fmt_hex2 (nth 2 m 0) ++ txt ":" ++ fmt_hex2 (nth 1 m 0) ++ txt ":" ++ fmt_hex2 (nth 0 m 0).

(** ** What [Debug] distinguishes of a type. Values are those of M_Serde ([gval]). *)
Inductive dty :=
| YNum
| YBool
| YIp4
| YIp6
| YIp
| YMac                                          (* mac.rs:81-93 *)
| YVec (y : dty)                                (* Vec, arrays *)
| YSet (y : dty)                                (* BTreeSet *)
| YOpt (y : dty)
| YNew (nm f : text) (y : dty)                  (* a struct with one field that serde sees as the field itself *)
| YStruct (nm : text) (fs : list (text * dty))
| YEnum (vs : list (text * option dty))
| YRd (y : dty)                                 (* WithRd, afi/mod.rs:630-637 *)
| YLab (y : dty)                                (* Labeled, afi/mod.rs:500-506 *)
| YPid (y : dty)                                (* WithPathId, afi/mod.rs:692-699 *)
| YFuel.                                        (* attribute sets nested deeper than the value *)

(** afi/mod.rs:302-308, derived *)
Definition rd_debug (v : gval) : text :=
  match v with
  | GList [a; b] => d_struct (txt "BgpRD") [(txt "rdh", fmt_dec (gnum a)); (txt "rdl", fmt_dec (gnum b))]
  | _ => []
  end.
(** afi/mod.rs:398-403, derived *)
Definition labels_debug (v : gval) : text :=
  match v with
  | GList l => d_struct (txt "MplsLabels") [(txt "labels", d_list (map (fun x => fmt_dec (gnum x)) l))]
  | _ => []
  end.

(** [Debug::fmt]: derived, or afi/mod.rs:630-637, 692-699, mac.rs:81-93 and the implementations cited at the types below. (The text of values that
    do not belong to the type is empty.) *)
Fixpoint dbg (y : dty) (v : gval) {struct y} : text :=
  match y, v with
  | YNum, GNum n => fmt_dec n
  | YBool, GBool b => d_bool b
  | YIp4, GIp4 a => fmt_ipv4 a
  | YIp6, GIp6 a => fmt_ipv6 a
  | YIp, GIp a => ip_fmt a
  | YMac, GList l => mac_debug (map gnum l)
  | YVec y, GList l => d_list (map (dbg y) l)
  | YSet y, GList l => d_set (map (dbg y) l)
  | YOpt _, GNone => d_variant (txt "None") None
  | YOpt y, GSome v => d_variant (txt "Some") (Some (dbg y v))
  | YNew nm f y, v => d_struct nm [(f, dbg y v)]
  | YStruct nm fs, GList l =>
      d_struct nm ((fix go (fs : list (text * dty)) (l : list gval) {struct fs} : list (text * text) :=
                      match fs, l with
                      | (f, y) :: fs', v :: l' => (f, dbg y v) :: go fs' l'
                      | _, _ => []
                      end) fs l)
  | YEnum vs, GVariant i p =>
      (fix go (vs : list (text * option dty)) (k : nat) {struct vs} : text :=
         match vs, k with
         | (nm, Some y) :: _, O => d_variant nm (match p with Some v => Some (dbg y v) | None => None end)
         | (nm, None) :: _, O => d_variant nm None
         | _ :: vs', S k' => go vs' k'
         | [], _ => []
         end) vs i
  | YRd y, GPair a b => d_struct (txt "WithRd") [(txt "rd", rd_debug a); (txt "prefix", dbg y b)]
  | YLab y, GPair a b => d_struct (txt "Labeled") [(txt "prefix", dbg y b); (txt "labels", labels_debug a)]
  | YPid y, GPair a b => d_struct (txt "WithPathId") [(txt "pathid", fmt_dec (gnum a)); (txt "nlri", dbg y b)]
  | _, _ => []
  end.

(** ** The types of /repo *)

(** a struct: its name and fields, in the order printed (e.g. ipv4.rs:20-26) *)
Definition ystruct (nm : string) (l : list (string * dty)) : dty := YStruct (txt nm) (map (fun f => (txt (fst f), snd f)) l).
(** an enum: its variants, in the order of declaration (e.g. afi/mod.rs:52-61) *)
Definition yenum (l : list (string * option dty)) : dty := YEnum (map (fun f => (txt (fst f), snd f)) l).
(** a struct with one field, transparent to serde (e.g. community.rs:28-32) *)
Definition ynew (nm f : string) (y : dty) : dty := YNew (txt nm) (txt f) y.

(** afi/mod.rs:302-308 *)
Definition Y_RD : dty := ystruct "BgpRD" [("rdh", YNum); ("rdl", YNum)]%string.
(** afi/mod.rs:398-403 *)
Definition Y_Labels : dty := ynew "MplsLabels" "labels" (YVec YNum).
(** ipv4.rs:20-26 *)
Definition Y_V4 : dty := ystruct "BgpAddrV4" [("addr", YIp4); ("prefixlen", YNum)]%string.
(** ipv6.rs:19-25 *)
Definition Y_V6 : dty := ystruct "BgpAddrV6" [("addr", YIp6); ("prefixlen", YNum)]%string.
(** ipv4.rs:205-209 *)
Definition Y_IPv4RD : dty := ystruct "BgpIPv4RD" [("rd", Y_RD); ("addr", YIp4)]%string.
(** ipv6.rs:215-219 *)
Definition Y_IPv6RD : dty := ystruct "BgpIPv6RD" [("rd", Y_RD); ("addr", YIp6)]%string.
(** mdt.rs:20-26 *)
Definition Y_Mdt4 : dty := ystruct "BgpMdtV4" [("addr", Y_V4); ("group", YIp4)]%string.
(** mdt.rs:121-127 *)
Definition Y_Mdt6 : dty := ystruct "BgpMdtV6" [("addr", Y_V6); ("group", YIp6)]%string.
(** vpls.rs:18-25 *)
Definition Y_AddrL2 : dty :=
  ystruct "BgpAddrL2" [("rd", Y_RD); ("site", YNum); ("offset", YNum); ("range", YNum); ("labels", Y_Labels)]%string.
(** vpls.rs:67-73 *)
Definition Y_L2 : dty := ystruct "BgpL2" [("rd", Y_RD); ("site", YNum); ("offset", YNum); ("range", YNum)]%string.
(** mvpn.rs:19-23 *)
Definition Y_Mvpn1 : dty := ystruct "BgpMVPN1" [("rd", Y_RD); ("originator", YIp)]%string.
(** mvpn.rs:62-66 *)
Definition Y_Mvpn2 : dty := ystruct "BgpMVPN2" [("rd", Y_RD); ("asn", YNum)]%string.
(** mvpn.rs:96-102 *)
Definition Y_Mvpn3 : dty := ystruct "BgpMVPN3" [("rd", Y_RD); ("source", YIp); ("group", YIp); ("originator", YIp)]%string.
(** mvpn.rs:160-164 *)
Definition Y_Mvpn4 : dty := ystruct "BgpMVPN4" [("spmsi", Y_Mvpn3); ("originator", YIp)]%string.
(** mvpn.rs:202-207 *)
Definition Y_Mvpn5 : dty := ystruct "BgpMVPN5" [("rd", Y_RD); ("source", YIp); ("group", YIp)]%string.
(** mvpn.rs:256-262 *)
Definition Y_Mvpn67 : dty := ystruct "BgpMVPN67" [("rd", Y_RD); ("asn", YNum); ("rp", YIp); ("group", YIp)]%string.
(** mvpn.rs:313-322 *)
Definition Y_Mvpn : dty :=
  yenum [("T1", Some Y_Mvpn1); ("T2", Some Y_Mvpn2); ("T3", Some Y_Mvpn3); ("T4", Some Y_Mvpn4); ("T5", Some Y_Mvpn5);
         ("T6", Some Y_Mvpn67); ("T7", Some Y_Mvpn67)]%string.
(** evpn.rs:18-24 *)
Definition Y_Esi : dty := ynew "EVPNESI" "v" (YVec YNum).
(** evpn.rs:54-61 *)
Definition Y_Evpn1 : dty :=
  ystruct "BgpEVPN1" [("rd", Y_RD); ("esi_type", YNum); ("esi", Y_Esi); ("ether_tag", YNum); ("labels", Y_Labels)]%string.
(** evpn.rs:110-119 *)
Definition Y_Evpn2 : dty :=
  ystruct "BgpEVPN2" [("rd", Y_RD); ("esi_type", YNum); ("esi", Y_Esi); ("ether_tag", YNum); ("mac", YMac); ("ip", YOpt YIp);
                      ("labels", Y_Labels)]%string.
(** evpn.rs:227-232 *)
Definition Y_Evpn3 : dty := ystruct "BgpEVPN3" [("rd", Y_RD); ("ether_tag", YNum); ("ip", YIp)]%string.
(** evpn.rs:293-299 *)
Definition Y_Evpn4 : dty := ystruct "BgpEVPN4" [("rd", Y_RD); ("esi_type", YNum); ("esi", Y_Esi); ("ip", YIp)]%string.
(** evpn.rs:368-378 *)
Definition Y_Evpn5 : dty :=
  ystruct "BgpEVPN5" [("rd", Y_RD); ("esi_type", YNum); ("esi", Y_Esi); ("ether_tag", YNum); ("len", YNum); ("prefix", YIp); ("gw_ip", YIp);
                      ("labels", Y_Labels)]%string.
(** evpn.rs:470-477 *)
Definition Y_Evpn : dty :=
  yenum [("EVPN1", Some Y_Evpn1); ("EVPN2", Some Y_Evpn2); ("EVPN3", Some Y_Evpn3); ("EVPN4", Some Y_Evpn4); ("EVPN5", Some Y_Evpn5)]%string.
(** flowspec.rs:125-132 *)
Definition Y_FsVal : dty :=
  ystruct "FSOperValItem" [("and_bit", YBool); ("lt_cmp", YBool); ("gt_cmp", YBool); ("eq_cmp", YBool); ("value", YNum)]%string.
(** flowspec.rs:300-306 *)
Definition Y_FsMask : dty :=
  ystruct "FSOperMaskItem" [("and_bit", YBool); ("bit_not", YBool); ("bit_match", YBool); ("value", YNum)]%string.
(** flowspec.rs:42-46 *)
Definition Y_Fs6 : dty := ystruct "FS6" [("ipv6", Y_V6); ("offset", YNum)]%string.
(** flowspec.rs:81-87 *)
Definition Y_FsV4 : dty := ynew "FSV4U" "prefix" (YRd Y_V4).
(** flowspec.rs:232-235 *)
Definition Y_FsVec (y : dty) : dty := ynew "FSOperVec" "items" (YVec y).
(** flowspec.rs:405-420 *)
Definition Y_Flow (y : dty) : dty :=
  let v := Y_FsVec Y_FsVal in
  let m := Y_FsVec Y_FsMask in
  yenum [("PrefixDst", Some y); ("PrefixSrc", Some y); ("Proto", Some v); ("PortAny", Some v); ("PortDst", Some v); ("PortSrc", Some v);
         ("IcmpType", Some v); ("IcmpCode", Some v); ("TcpFlags", Some m); ("PacketLength", Some v); ("Dscp", Some v); ("Fragment", Some m);
         ("FlowLabel", Some v)]%string.
(** afi/mod.rs:52-61 *)
Definition Y_Addr : dty :=
  yenum [("None", None); ("V4", Some YIp4); ("V6", Some YIp6); ("V4RD", Some Y_IPv4RD); ("V6RD", Some Y_IPv6RD); ("L2", Some Y_L2);
         ("MVPN", Some Y_Mvpn)]%string.
(** afi/mod.rs:161-194 *)
Definition Y_Addrs : dty :=
  yenum [("None", None);
         ("IPV4U", Some (YVec Y_V4));
         ("IPV4M", Some (YVec Y_V4));
         ("IPV4LU", Some (YVec (YLab Y_V4)));
         ("VPNV4U", Some (YVec (YLab (YRd Y_V4))));
         ("VPNV4M", Some (YVec (YLab (YRd Y_V4))));
         ("IPV4MDT", Some (YVec (YRd Y_Mdt4)));
         ("IPV4MDTP", Some (YVec (YPid (YRd Y_Mdt4))));
         ("IPV6U", Some (YVec Y_V6));
         ("IPV6M", Some (YVec Y_V6));
         ("IPV6LU", Some (YVec (YLab Y_V6)));
         ("VPNV6U", Some (YVec (YLab (YRd Y_V6))));
         ("VPNV6M", Some (YVec (YLab (YRd Y_V6))));
         ("IPV6MDT", Some (YVec (YRd Y_Mdt6)));
         ("IPV6MDTP", Some (YVec (YPid (YRd Y_Mdt6))));
         ("L2VPLS", Some (YVec Y_AddrL2));
         ("MVPN", Some (YVec Y_Mvpn));
         ("EVPN", Some (YVec Y_Evpn));
         ("FS4U", Some (YVec (Y_Flow Y_V4)));
         ("FS6U", Some (YVec (Y_Flow Y_Fs6)));
         ("FSV4U", Some (YVec (Y_Flow Y_FsV4)));
         ("IPV4UP", Some (YVec (YPid Y_V4)));
         ("IPV4MP", Some (YVec (YPid Y_V4)));
         ("IPV4LUP", Some (YVec (YPid (YLab Y_V4))));
         ("VPNV4UP", Some (YVec (YPid (YLab (YRd Y_V4)))));
         ("VPNV4MP", Some (YVec (YPid (YLab (YRd Y_V4)))));
         ("IPV6UP", Some (YVec (YPid Y_V6)));
         ("IPV6MP", Some (YVec (YPid Y_V6)));
         ("IPV6LUP", Some (YVec (YPid (YLab Y_V6))));
         ("VPNV6UP", Some (YVec (YPid (YLab (YRd Y_V6)))));
         ("VPNV6MP", Some (YVec (YPid (YLab (YRd Y_V6)))))]%string.
(** origin.rs:18-23, 65-71 *)
Definition Y_Origin : dty := ynew "BgpOrigin" "value" (yenum [("Igp", None); ("Egp", None); ("Incomplete", None)])%string.
(** aspath.rs:19-24, derived; 118-124 *)
Definition Y_ASPath : dty := ynew "BgpASpath" "value" (YVec (ynew "BgpAS" "value" YNum)).
(** nexthop.rs:42-48 *)
Definition Y_NextHop : dty := ynew "BgpNextHop" "value" YIp.
(** med.rs:37-43 *)
Definition Y_MED : dty := ynew "BgpMED" "value" YNum.
(** localpref.rs:37-43 *)
Definition Y_LocalPref : dty := ynew "BgpLocalpref" "value" YNum.
(** atomicaggregate.rs:37-43 *)
Definition Y_AtomicAggregate : dty := ynew "BgpAtomicAggregate" "value" YIp.
(** aggregatoras.rs:42-49 *)
Definition Y_Aggregator : dty := ystruct "BgpAggregatorAS" [("asn", YNum); ("addr", YIp4)]%string.
(** community.rs:177-183, 255-261 *)
Definition Y_CommunitySet : dty := YSet (ynew "Community" "value" YNum).
(** community.rs:255-261 *)
Definition Y_CommunityList : dty := ynew "BgpCommunityList" "value" Y_CommunitySet.
(** originatorid.rs:43-49 *)
Definition Y_OriginatorID : dty := ynew "BgpOriginatorID" "value" YIp.
(** clusterlist.rs:38-44 *)
Definition Y_ClusterList : dty := ynew "BgpClusterList" "value" (YVec YIp).
(** extcommunity.rs:80-89 *)
Definition Y_ExtSet : dty := YSet (ystruct "BgpExtCommunity" [("ctype", YNum); ("subtype", YNum); ("a", YNum); ("b", YNum)])%string.
(** extcommunity.rs:205-211 *)
Definition Y_ExtList : dty := ynew "BgpExtCommunityList" "value" Y_ExtSet.
(** community.rs:82-90 *)
Definition Y_LargeSet : dty := YSet (ystruct "Community" [("ga", YNum); ("ldp1", YNum); ("ldp2", YNum)])%string.
(** community.rs:112-118 *)
Definition Y_LargeList : dty := ynew "BgpLargeCommunityList" "value" Y_LargeSet.
(** pmsitunnelattr.rs:16-67, derived; 188-197 *)
Definition Y_Pmsi : dty :=
  ystruct "BgpPMSITunnel"
    [("flags", YNum); ("tunnel_type", YNum); ("label", Y_Labels);
     ("tunnel_attribute",
       yenum [("None", None);
              ("RSVPTe", Some (ystruct "BgpPMSITaRSVP" [("ext_tunnel_id", YIp4); ("reserved", YNum); ("tunnel_id", YNum); ("p2mp_id", YIp4)]));
              ("IngressRepl", Some (ynew "BgpPMSITaIngressRepl" "endpoint" YIp4));
              ("MLDP", Some (ystruct "BgpPMSITaMLDP" [("rootnode", YIp); ("opaque", YVec YNum)]))])]%string.
(** multiproto.rs:151-158 *)
Definition Y_MPUpdates : dty := ystruct "BgpMPUpdates" [("nexthop", Y_Addr); ("addrs", Y_Addrs)]%string.
(** multiproto.rs:210-216 *)
Definition Y_MPWithdraws : dty := ystruct "BgpMPWithdraws" [("addrs", Y_Addrs)]%string.
(** connector.rs:44-52 *)
Definition Y_Connector : dty := ystruct "BgpConnector" [("asn", YNum); ("addr", YIp4); ("orig", YIp4)]%string.
(** unknown.rs:48-55, attributes/mod.rs:49-54, derived *)
Definition Y_Unknown : dty :=
  ystruct "BgpAttrUnknown" [("params", ystruct "BgpAttrParams" [("typecode", YNum); ("flags", YNum)]); ("value", YVec YNum)]%string.
(** attributes/mod.rs:62-84, derived; attrset.rs:65-72: [deep] attribute sets inside one another *)
Fixpoint Y_Attr (deep : nat) : dty :=
  yenum [("Origin", Some Y_Origin);
         ("ASPath", Some Y_ASPath);
         ("NextHop", Some Y_NextHop);
         ("MED", Some Y_MED);
         ("LocalPref", Some Y_LocalPref);
         ("AtomicAggregate", Some Y_AtomicAggregate);
         ("AggregatorAS", Some Y_Aggregator);
         ("CommunityList", Some Y_CommunityList);
         ("OriginatorID", Some Y_OriginatorID);
         ("ClusterList", Some Y_ClusterList);
         ("MPUpdates", Some Y_MPUpdates);
         ("MPWithdraws", Some Y_MPWithdraws);
         ("ExtCommunityList", Some Y_ExtList);
         ("LargeCommunityList", Some Y_LargeList);
         ("PMSITunnel", Some Y_Pmsi);
         ("AttrSet", Some (ystruct "BgpAttrSet" [("asn", YNum); ("attrs", YVec (match deep with O => YFuel | S deep' => Y_Attr deep' end))]));
         ("Connector", Some Y_Connector);
         ("Unknown", Some Y_Unknown)]%string.

(** ** The texts *)

(** [format!("{:?}", attr)] (attributes/mod.rs:62) *)
Definition attr_debug (a : attr) : text := dbg (Y_Attr (sets_deep a)) (g_attr a).
(** [format!("{:?}", addrs)] (afi/mod.rs:158-162) *)
Definition addrs_debug (a : addrs) : text := dbg Y_Addrs (g_addrs a).
(** [format!("{:?}", nexthop)] (afi/mod.rs:49-53) *)
Definition addr_debug (a : bgpaddr) : text := dbg Y_Addr (g_addr a).
(** update/mod.rs:15-23, derived *)
Definition update_debug (u : update) : text :=
  d_struct (txt "BgpUpdateMessage")
    [(txt "updates", addrs_debug (u_updates u)); (txt "withdraws", addrs_debug (u_withdraws u));
     (txt "attrs", d_list (map attr_debug (u_attrs u)))].
(** notification.rs:110-118 *)
Definition notification_debug (code sub data : N) : text :=
  d_struct (txt "BgpNotificationMessage")
    [(txt "error_code", fmt_dec code); (txt "error_subcode", fmt_dec sub); (txt "data", fmt_dec data)].
(** [Debug] of a [String] without quotes, backslashes and control characters (notification.rs:124) *)
Definition quoted (s : text) : text := txt """" ++ s ++ txt """".
(** notification.rs:119-130 *)
Definition notification_fmt (code sub data : N) : text :=
  txt "BgpNotificationMessage " ++ quoted (error_text code sub) ++ txt " code=" ++ fmt_dec code ++ txt " subcode=" ++ fmt_dec sub ++
  txt " data=" ++ fmt_dec data ++ txt ")".
(** afi/mod.rs:1080-1084 *)
Definition addrs_fmt (a : addrs) : text := txt "BgpAddrs " ++ addrs_debug a.
(** origin.rs:72-86 *)
Definition origin_fmt (o : origin) : text :=
  match o with Igp => txt "origin igp" | Egp => txt "origin egp" | Incomplete => txt "origin incomplete" end.
(** [Display] of what an attribute holds: origin.rs:72-86, aspath.rs:125-129, nexthop.rs:49-53, med.rs:44-48, localpref.rs:44-48,
    atomicaggregate.rs:44-48, aggregatoras.rs:50-54, community.rs:119-123, 262-266, originatorid.rs:50-54, clusterlist.rs:45-49,
    multiproto.rs:159-163, 217-221, extcommunity.rs:212-216, pmsitunnelattr.rs:198-206, attrset.rs:73-77, connector.rs:53-61, unknown.rs:56-64
    ([BgpAttrItem] itself has no [Display]) *)
Definition attr_fmt (a : attr) : text :=
  match a with
  | AOrigin o => origin_fmt o
  | AASPath v => txt "ASPath " ++ dbg (YVec (ynew "BgpAS" "value" YNum)) (g_nums v)
  | ANextHop a => txt "NextHop " ++ ip_fmt a
  | AMED v => txt "BgpMED " ++ fmt_dec v
  | ALocalPref v => txt "BgpLocalpref " ++ fmt_dec v
  | AAtomicAggregate a => ip_fmt a
  | AAggregatorAS asn a => txt "BgpAggregatorAS " ++ fmt_dec asn ++ txt " " ++ fmt_ipv4 a
  | ACommunityList v => txt "BgpCommunityList " ++ dbg Y_CommunitySet (g_nums v)
  | AOriginatorID a => txt "BgpOriginatorID " ++ ip_fmt a
  | AClusterList v => txt "BgpClusterList " ++ dbg (YVec YIp) (g_vec GIp v)
  | AMPUpdates n a => txt "BgpMPUpdates (" ++ addr_debug n ++ txt " " ++ addrs_debug a ++ txt ")"
  | AMPWithdraws a => txt "BgpMPWithdraws (" ++ addrs_debug a ++ txt ")"
  | AExtCommunityList v => txt "BgpExtCommunityList " ++ dbg Y_ExtSet (g_vec g_ext v)
  | ALargeCommunityList v => txt "BgpLargeCommunityList " ++ dbg Y_LargeSet (g_vec g_large v)
  | APMSITunnel t => pmsi_fmt t
  | AAttrSet asn v => txt "BgpAttrSet AS" ++ fmt_dec asn ++ txt " " ++ d_list (map attr_debug v)
  | AConnector asn a o => txt "BgpConnector(" ++ fmt_dec asn ++ txt ":" ++ fmt_ipv4 a ++ txt " @" ++ fmt_ipv4 o ++ txt ")"
  | AUnknown tc f v => txt "PA unknown(tc=" ++ fmt_dec tc ++ txt ",flg=" ++ fmt_dec f ++ txt " " ++ dbg (YVec YNum) (g_nums v) ++ txt ")"
  end.
