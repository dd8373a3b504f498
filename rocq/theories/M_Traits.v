(** Model of the equality, ordering and hashing of path attributes, capabilities and OPEN messages. *)
From Verif Require Import Base M_Util M_Prefix M_Nlri M_Vpls M_Mvpn M_Cap M_Open M_Session M_Addrs M_Attr M_Serde M_Order.

(** ** Path attributes *)

(** origin.rs:16-23 [BgpAttrOrigin], the discriminant *)
Definition origin_disc (o : origin) : N := match o with Igp => 0 | Egp => 1 | Incomplete => 2 end.
(** extcommunity.rs:16-24 [BgpExtCommunity] *)
Definition oecomm : ord ecomm :=
  oview (fun x => (ec_type x, (ec_subtype x, (ec_a x, ec_b x)))) (ofields onum (ofields onum (ofields onum onum))).
(** community.rs:43-50 [BgpLargeCommunity] *)
Definition olcomm : ord lcomm := oview (fun x => (lc_ga x, (lc_1 x, lc_2 x))) (ofields onum (ofields onum onum)).
(** afi/mod.rs:49-61 [BgpAddr]; ipv4.rs:203-209 and ipv6.rs [BgpIPv4RD], [BgpIPv6RD] (rd, addr) *)
Definition obgpaddr : ord bgpaddr :=
  oview (fun x => match x with
    | BANone => inl tt | BAV4 a => inr (inl a) | BAV6 a => inr (inr (inl a))
    | BAV4RD r a => inr (inr (inr (inl (r, a)))) | BAV6RD r a => inr (inr (inr (inr (inl (r, a)))))
    | BAL2 x => inr (inr (inr (inr (inr (inl x))))) | BAMVPN r => inr (inr (inr (inr (inr (inr r))))) end)
  (ovariants ounit (ovariants onum (ovariants onum (ovariants (ofields ord_rd onum) (ovariants (ofields ord_rd onum)
    (ovariants ol2 omvpn)))))).
(** attributes/mod.rs:62-84 [BgpAttrItem], variants in declaration order with the fields of their types: aggregatoras.rs:16-24
    (asn, addr), multiproto.rs:15-23 (nexthop, addrs), attrset.rs:16-24 (asn, attrs), connector.rs:17-24 (asn, addr, orig),
    unknown.rs:16-24 (params, value) with attributes/mod.rs:48-54 (typecode, flags) *)
Definition attr_view (x : attr) :=
  match x with
  | AOrigin o => inl (origin_disc o)
  | AASPath v => inr (inl v)
  | ANextHop a => inr (inr (inl a))
  | AMED v => inr (inr (inr (inl v)))
  | ALocalPref v => inr (inr (inr (inr (inl v))))
  | AAtomicAggregate a => inr (inr (inr (inr (inr (inl a)))))
  | AAggregatorAS n a => inr (inr (inr (inr (inr (inr (inl (n, a)))))))
  | ACommunityList v => inr (inr (inr (inr (inr (inr (inr (inl v)))))))
  | AOriginatorID a => inr (inr (inr (inr (inr (inr (inr (inr (inl a))))))))
  | AClusterList v => inr (inr (inr (inr (inr (inr (inr (inr (inr (inl v)))))))))
  | AMPUpdates h a => inr (inr (inr (inr (inr (inr (inr (inr (inr (inr (inl (h, a)))))))))))
  | AMPWithdraws a => inr (inr (inr (inr (inr (inr (inr (inr (inr (inr (inr (inl a)))))))))))
  | AExtCommunityList v => inr (inr (inr (inr (inr (inr (inr (inr (inr (inr (inr (inr (inl v))))))))))))
  | ALargeCommunityList v => inr (inr (inr (inr (inr (inr (inr (inr (inr (inr (inr (inr (inr (inl v)))))))))))))
  | APMSITunnel t => inr (inr (inr (inr (inr (inr (inr (inr (inr (inr (inr (inr (inr (inr (inl t))))))))))))))
  | AAttrSet n v => inr (inr (inr (inr (inr (inr (inr (inr (inr (inr (inr (inr (inr (inr (inr (inl (n, v))))))))))))))))
  | AConnector n a r => inr (inr (inr (inr (inr (inr (inr (inr (inr (inr (inr (inr (inr (inr (inr (inr (inl (n, (a, r))))))))))))))))))
  | AUnknown c f v => inr (inr (inr (inr (inr (inr (inr (inr (inr (inr (inr (inr (inr (inr (inr (inr (inr ((c, f), v)))))))))))))))))
  end.
(** attributes/mod.rs:62-84, the derived implementations, given those of AS numbers and of attributes inside an attribute set *)
Definition oattr_layer (o_as : ord N) (inner : ord attr) : ord attr := oview attr_view
  (ovariants onum (ovariants (olist o_as) (ovariants oip
  (ovariants onum (ovariants onum (ovariants oip
  (ovariants (ofields onum onum) (ovariants (olist onum) (ovariants oip
  (ovariants (olist oip) (ovariants (ofields obgpaddr oaddrs) (ovariants oaddrs
  (ovariants (olist oecomm) (ovariants (olist olcomm) (ovariants opmsi
  (ovariants (ofields onum (olist inner)) (ovariants (ofields onum (ofields onum onum)) (ofields (ofields onum onum) (olist onum))))))))))))))))))).
(** attributes/mod.rs:62-84 for attribute sets nested at most [d] times; nothing is compared below *)
Fixpoint oattr_g (o_as : ord N) (d : nat) : ord attr :=
  oattr_layer o_as (match d with O => oview (fun _ => tt) ounit | S d => oattr_g o_as d end).
(** attributes/mod.rs:62-84 [BgpAttrItem]: deep enough for the values at hand; AS numbers as in aspath.rs:51-71 *)
Definition oattr : ord attr := mkOrd
  (fun x y => oeq (oattr_g oas (Nat.max (sets_deep x) (sets_deep y))) x y)
  (fun x y => ocmp (oattr_g oas (Nat.max (sets_deep x) (sets_deep y))) x y)
  (fun x y => opcmp (oattr_g oas (Nat.max (sets_deep x) (sets_deep y))) x y)
  (fun x => ohash (oattr_g oas (sets_deep x)) x).

(** ** Capabilities and OPEN *)

(** lib.rs:134-139 [BgpCapGR] *)
Definition ogr : ord capGR := oview (fun x => (gr_afi x, (gr_safi x, gr_fwd x))) (ofields onum (ofields onum obool)).
(** lib.rs:198-204 [BgpCapLLGR] *)
Definition ollgr : ord capLLGR :=
  oview (fun x => (ll_afi x, (ll_safi x, (ll_flags x, ll_stale x)))) (ofields onum (ofields onum (ofields onum onum))).
(** lib.rs:249-255 [BgpCapAddPath] *)
Definition oap : ord capAP :=
  oview (fun x => (ap_afi x, (ap_safi x, (ap_send x, ap_receive x)))) (ofields onum (ofields onum (ofields obool obool))).
(** [String] (lib.rs:354): compared by octets; the hasher gets the octets and 255 *)
Definition ostring : ord (list N) := mkOrd
  (list_eq N.eqb) (list_cmp N.compare) (list_pcmp (fun x y => Some (x ?= y))) (fun x => x ++ [255]).
(** lib.rs:302-336, positions in the declaration *)
Definition safi_disc (s : safi) : N :=
  match s with
  | SafiIPv4u => 0 | SafiIPv4m => 1 | SafiIPv4mvpn => 2 | SafiIPv4fu => 3 | SafiVPNv4u => 4 | SafiVPNv4fu => 5 | SafiVPNv4m => 6
  | SafiIPv4lu => 7 | SafiIPv4mdt => 8 | SafiIPv6u => 9 | SafiIPv6lu => 10 | SafiIPv6fu => 11 | SafiVPNv6u => 12
  | SafiVPNv6m => 13 | SafiIPv6mdt => 14 | SafiVPLS => 15 | SafiEVPN => 16
  end.
(** lib.rs:301-357 [BgpCapability]: discriminant, then payload; the fields of [CapGR] are restart_time, restart_state, afis *)
Definition cap_view (c : bgpcap) : N * (unit + (N * (bool * list capGR) + (N + (list capAP + (list capLLGR + list N * list N))))) :=
  match c with
  | CapMP s => (safi_disc s, inl tt)
  | CapGR st t v => (17, inr (inl (t, (st, v))))
  | CapASN32 n => (18, inr (inr (inl n)))
  | CapRR => (19, inl tt)
  | CapAddPath v => (20, inr (inr (inr (inl v))))
  | CapEnhancedRR => (21, inl tt)
  | CapLLGR v => (22, inr (inr (inr (inr (inl v)))))
  | CapFQDN h d => (23, inr (inr (inr (inr (inr (h, d))))))
  | CapBFD => (24, inl tt)
  end.
(** lib.rs:301-357 *)
Definition ocap : ord bgpcap := oview cap_view
  (ofields onum (ovariants ounit (ovariants (ofields onum (ofields obool (olist ogr))) (ovariants onum
    (ovariants (olist oap) (ovariants (olist ollgr) (ofields ostring ostring))))))).
(** open.rs:12-22 [BgpOpenMessage] *)
Definition oopen : ord openMsg :=
  oview (fun x => (op_as x, (op_hold x, (op_rid x, op_caps x)))) (ofields onum (ofields onum (ofields onum (olist ocap)))).
