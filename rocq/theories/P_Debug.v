(** C90, C91: the [Debug] and [Display] texts of messages, attributes and routes. [attr_debug], [addrs_debug], ... are what [{:?}] prints;
    [attr_any], [addrs_any], ... say that every number fits its field in the Rust type (S_Serde2). *)
From Coq Require Import Ascii String.
From Verif Require Import Base M_Util S_Attr S_Nlri S_Order S_Text2 S_Serde2 S_Debug M_Prefix M_Nlri M_Evpn M_Flowspec M_Addrs M_Attr M_Update M_Order M_Text M_Text2 M_Debug F_Order F_Debug3.

(** * C90: the [Debug] text identifies the value *)

(** Attributes of every kind, attribute sets nested to any depth. *)
Theorem C90_attributes : forall a b, attr_any a -> attr_any b -> attr_debug a = attr_debug b <-> a = b.
Proof. exact attr_debug_iff. Qed.
Print Assumptions C90_attributes.

(** Route lists of all 31 families, and next hops. *)
Theorem C90_routes : forall a b, addrs_any a -> addrs_any b -> addrs_debug a = addrs_debug b <-> a = b.
Proof. exact addrs_debug_iff. Qed.
Print Assumptions C90_routes.
Theorem C90_nexthops : forall a b, addr_any a -> addr_any b -> addr_debug a = addr_debug b <-> a = b.
Proof. exact addr_debug_iff. Qed.
Print Assumptions C90_nexthops.

(** UPDATE messages with any number of routes and attributes. *)
Theorem C90_update : forall u v, update_any u -> update_any v -> update_debug u = update_debug v <-> u = v.
Proof. exact update_debug_iff. Qed.
Print Assumptions C90_update.

(** NOTIFICATION messages. *)
Theorem C90_notification : forall c s d c' s' d', notification_debug c s d = notification_debug c' s' d' <-> c = c' /\ s = s' /\ d = d'.
Proof. exact notification_debug_iff. Qed.
Print Assumptions C90_notification.

(** So route lists that are equal ([==]) need not print alike: they do not when, and only when, they differ in their labels. *)
Theorem C90_equal_differs : forall a b, addrs_any a -> addrs_any b ->
  (oeq oaddrs a b = true /\ addrs_debug a <> addrs_debug b <-> addrs_unlabel a = addrs_unlabel b /\ a <> b).
Proof. exact equal_differs. Qed.
Print Assumptions C90_equal_differs.

Example C90_attributes_ex :
  attr_debug (AMED 100) = txt "MED(BgpMED { value: 100 })" /\
  attr_debug (AOrigin Egp) = txt "Origin(BgpOrigin { value: Egp })" /\
  attr_debug (AASPath [65001; 174]) = txt "ASPath(BgpASpath { value: [BgpAS { value: 65001 }, BgpAS { value: 174 }] })" /\
  attr_debug (AUnknown 99 192 [1; 2]) = txt "Unknown(BgpAttrUnknown { params: BgpAttrParams { typecode: 99, flags: 192 }, value: [1, 2] })" /\
  attr_debug (AAttrSet 5 [AAttrSet 6 []; ALocalPref 7]) =
    txt "AttrSet(BgpAttrSet { asn: 5, attrs: [AttrSet(BgpAttrSet { asn: 6, attrs: [] }), LocalPref(BgpLocalpref { value: 7 })] })" /\
  attr_any (AAttrSet 5 [AAttrSet 6 []; ALocalPref 7]).
Proof. repeat apply conj; vm_compute; reflexivity || exact I. Qed.
Example C90_routes_ex :
  addrs_debug (IPV4LU [mkLab (mkV4 167772160 8) [16; 17]]) =
    txt "IPV4LU([Labeled { prefix: BgpAddrV4 { addr: 10.0.0.0, prefixlen: 8 }, labels: MplsLabels { labels: [16, 17] } }])" /\
  oeq oaddrs (IPV4LU [mkLab (mkV4 167772160 8) [16; 17]]) (IPV4LU [mkLab (mkV4 167772160 8) [18]]) = true.
Proof. split; vm_compute; reflexivity. Qed.
Example C90_update_ex :
  update_debug (mkUpd (IPV4U [mkV4 167772160 8]) ANone [AMED 1; ALocalPref 2]) =
    txt "BgpUpdateMessage { updates: IPV4U([BgpAddrV4 { addr: 10.0.0.0, prefixlen: 8 }]), withdraws: None, attrs: [MED(BgpMED { value: 1 }), LocalPref(BgpLocalpref { value: 2 })] }".
Proof. vm_compute. reflexivity. Qed.

(** * C91: the [Display] text identifies what is printed *)

(** Whatever two attributes hold, their texts are the same only if they are the same kind and hold the same value, but for the opaque
    value of an mLDP tunnel ([shown]) ... *)
Theorem C91_attributes_partial : forall a b, attr_any a -> attr_any b -> attr_fmt a = attr_fmt b <-> shown a = shown b.
Proof. exact attr_fmt_iff. Qed.
Print Assumptions C91_attributes_partial.
(** ... which is never printed. *)
Theorem C91_attributes_refuted : forall f t l n o o', o <> o' ->
  APMSITunnel (mkPmsi f t l (PtMLDP n o)) <> APMSITunnel (mkPmsi f t l (PtMLDP n o')) /\
  attr_fmt (APMSITunnel (mkPmsi f t l (PtMLDP n o))) = attr_fmt (APMSITunnel (mkPmsi f t l (PtMLDP n o'))).
Proof. exact attr_fmt_opaque. Qed.
Print Assumptions C91_attributes_refuted.

Theorem C91_routes : forall a b, addrs_any a -> addrs_any b -> addrs_fmt a = addrs_fmt b <-> a = b.
Proof. exact addrs_fmt_iff. Qed.
Print Assumptions C91_routes.

Theorem C91_notification : forall c s d c' s' d', notification_fmt c s d = notification_fmt c' s' d' <-> c = c' /\ s = s' /\ d = d'.
Proof. exact notification_fmt_iff. Qed.
Print Assumptions C91_notification.
(** The error text in it needs no escapes. *)
Theorem C91_notification_plain : forall c s, Forall plain (error_text c s).
Proof. exact error_plain. Qed.
Print Assumptions C91_notification_plain.

Example C91_attributes_ex :
  attr_fmt (AOrigin Igp) = txt "origin igp" /\ attr_fmt (AAtomicAggregate (IPv4 167772161)) = txt "10.0.0.1" /\
  attr_fmt (AASPath [65001]) = txt "ASPath [BgpAS { value: 65001 }]" /\
  attr_fmt (AConnector 1 167772161 167772162) = txt "BgpConnector(1:10.0.0.1 @10.0.0.2)" /\
  attr_fmt (AMPWithdraws (IPV6U [])) = txt "BgpMPWithdraws (IPV6U([]))" /\
  attr_fmt (AUnknown 99 192 [1; 2]) = txt "PA unknown(tc=99,flg=192 [1, 2])".
Proof. repeat apply conj; vm_compute; reflexivity. Qed.
Example C91_notification_ex :
  notification_fmt 4 0 7 = txt "BgpNotificationMessage ""Hold Timer Expired(0)"" code=4 subcode=0 data=7)".
Proof. vm_compute. reflexivity. Qed.
