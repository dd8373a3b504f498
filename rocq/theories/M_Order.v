(** Model of the equality, ordering and hashing of the library's values. *)
From Verif Require Import Base M_Util M_Prefix M_Nlri M_Vpls M_Mvpn M_Evpn M_Flowspec M_Cap M_Open M_Session M_Addrs M_Attr.

(** The implementations of [PartialEq::eq], [Ord::cmp], [PartialOrd::partial_cmp] and [Hash::hash] of a type. The hash is
    the sequence of numbers fed to the [Hasher]. (afi/mod.rs:419-440, 523-543) *)
Record ord (T : Type) := mkOrd {
  oeq : T -> T -> bool; ocmp : T -> T -> comparison; opcmp : T -> T -> option comparison; ohash : T -> list N }.
Arguments mkOrd {T}. Arguments oeq {T}. Arguments ocmp {T}. Arguments opcmp {T}. Arguments ohash {T}.

(** ** What the standard library and [#[derive]] provide *)

(** Primitive integers; [Ipv4Addr] and [Ipv6Addr] compare by their octets, i.e. by value (afi/ipv4.rs:21-26) *)
Definition onum : ord N := mkOrd N.eqb N.compare (fun x y => Some (x ?= y)) (fun x => [x]).
(** derived for [bool] fields, flowspec.rs:123-132 *)
Definition obool : ord bool :=
  mkOrd Bool.eqb (fun x y => N.b2n x ?= N.b2n y) (fun x y => Some (N.b2n x ?= N.b2n y)) (fun x => [N.b2n x]).
(** the unit variant, afi/mod.rs:162-194 [BgpAddrs::None] *)
Definition ounit : ord unit := mkOrd (fun _ _ => true) (fun _ _ => Eq) (fun _ _ => Some Eq) (fun _ => []).
(** [#[derive]] on two consecutive fields (afi/mod.rs:300-308) *)
Definition ofields {A B} (a : ord A) (b : ord B) : ord (A * B) := mkOrd
  (fun x y => oeq a (fst x) (fst y) && oeq b (snd x) (snd y))
  (fun x y => match ocmp a (fst x) (fst y) with Eq => ocmp b (snd x) (snd y) | c => c end)
  (fun x y => match opcmp a (fst x) (fst y) with Some Eq => opcmp b (snd x) (snd y) | r => r end)
  (fun x => ohash a (fst x) ++ ohash b (snd x)).
(** [#[derive]] on two consecutive variants of an enumeration; the discriminant fed to the hasher is written in unary (afi/mod.rs:65-73) *)
Definition ovariants {A B} (a : ord A) (b : ord B) : ord (A + B) := mkOrd
  (fun x y => match x, y with inl x, inl y => oeq a x y | inr x, inr y => oeq b x y | _, _ => false end)
  (fun x y => match x, y with inl x, inl y => ocmp a x y | inr x, inr y => ocmp b x y | inl _, inr _ => Lt | inr _, inl _ => Gt end)
  (fun x y => match x, y with inl x, inl y => opcmp a x y | inr x, inr y => opcmp b x y
                            | inl _, inr _ => Some Lt | inr _, inl _ => Some Gt end)
  (fun x => match x with inl x => 0 :: ohash a x | inr x => 1 :: ohash b x end).
(** The derived implementations of a type see it as the tuple or the sum of its parts, in declaration order (afi/mod.rs:300-308) *)
Definition oview {A B} (f : A -> B) (b : ord B) : ord A := mkOrd
  (fun x y => oeq b (f x) (f y)) (fun x y => ocmp b (f x) (f y)) (fun x y => opcmp b (f x) (f y)) (fun x => ohash b (f x)).
(** slices: element by element, then the lengths (afi/mod.rs:162-194) *)
Fixpoint list_eq {A} (e : A -> A -> bool) (x y : list A) : bool :=
  match x, y with [], [] => true | a :: x, b :: y => e a b && list_eq e x y | _, _ => false end.
(** [Ord] of slices, afi/mod.rs:162-194 *)
Fixpoint list_cmp {A} (c : A -> A -> comparison) (x y : list A) : comparison :=
  match x, y with
  | [], [] => Eq | [], _ => Lt | _, [] => Gt
  | a :: x, b :: y => match c a b with Eq => list_cmp c x y | r => r end
  end.
(** [PartialOrd] of slices, afi/mod.rs:162-194 *)
Fixpoint list_pcmp {A} (c : A -> A -> option comparison) (x y : list A) : option comparison :=
  match x, y with
  | [], [] => Some Eq | [], _ => Some Lt | _, [] => Some Gt
  | a :: x, b :: y => match c a b with Some Eq => list_pcmp c x y | r => r end
  end.
(** [Vec<T>], and arrays (afi/mod.rs:162-194) *)
Definition olist {A} (a : ord A) : ord (list A) := mkOrd
  (list_eq (oeq a)) (list_cmp (ocmp a)) (list_pcmp (opcmp a))
  (fun x => N.of_nat (length x) :: concat (map (ohash a) x)).
(** [Option<T>]: [None] first (evpn.rs:108-119) *)
Definition ooption {A} (a : ord A) : ord (option A) :=
  oview (fun o => match o with None => inl tt | Some x => inr x end) (ovariants ounit a).
(** [IpAddr]: [V4] before [V6] (evpn.rs:224-232) *)
Definition oip : ord ipaddr := oview (fun a => match a with IPv4 x => inl x | IPv6 x => inr x end) (ovariants onum onum).

(** ** AS numbers *)

(** aspath.rs:38-44 [BgpAS::tonumb] *)
Definition as_tonumb (v : N) : N := if N.land v 65535 =? 0 then N.shiftr v 16 else v.
(** aspath.rs:51-71 *)
Definition oas : ord N := mkOrd
  (fun x y => as_tonumb x =? as_tonumb y)
  N.compare
  (fun x y => Some (x ?= y))
  (fun x => [x]).
(** aspath.rs:26-32 [BgpASpath], derived *)
Definition oaspath : ord (list N) := olist oas.

(** ** NLRI *)

(** ipv4.rs, ipv6.rs: derived, (addr, prefixlen) *)
Definition ov4 : ord addrV4 := oview (fun x => (v4_addr x, v4_len x)) (ofields onum onum).
(** ipv6.rs:20-25 *)
Definition ov6 : ord addrV6 := oview (fun x => (v6_addr x, v6_len x)) (ofields onum onum).
(** mac.rs:16-22 [[u8; 6]], 113-119 (addr, prefixlen) *)
Definition omac : ord mac := olist onum.
(** mac.rs:113-119 *)
Definition omacpfx : ord addrMac := oview (fun x => (mc_addr x, mc_len x)) (ofields omac onum).
(** afi/mod.rs:65-73 [BgpNet] *)
Definition onet : ord bgpnet :=
  oview (fun x => match x with NetV4 p => inl p | NetV6 p => inr (inl p) | NetMac p => inr (inr p) end)
    (ovariants ov4 (ovariants ov6 omacpfx)).
(** afi/mod.rs:300-308 [BgpRD] *)
Definition ord_rd : ord bgpRD := oview (fun x => (rdh x, rdl x)) (ofields onum onum).
(** afi/mod.rs:419-440 [MplsLabels]: the labels do not count, and [partial_cmp] answers [None] *)
Definition olabels : ord (list N) :=
  mkOrd (fun _ _ => true) (fun _ _ => Eq) (fun _ _ => None) (fun _ => []).
(** afi/mod.rs:523-543 [Labeled] *)
Definition olabeled {T} (o : ord T) : ord (labeled T) := mkOrd
  (fun x y => oeq o (lab_prefix x) (lab_prefix y))
  (fun x y => ocmp o (lab_prefix x) (lab_prefix y))
  (fun x y => opcmp o (lab_prefix x) (lab_prefix y))
  (fun x => ohash o (lab_prefix x)).
(** afi/mod.rs:574-605 [WithRd]: [Eq] and [Hash] derived *)
Definition owithrd {T} (o : ord T) : ord (withRd T) := mkOrd
  (fun x y => oeq o (wrd_prefix x) (wrd_prefix y) && oeq ord_rd (wrd_rd x) (wrd_rd y))
  (fun x y => match ocmp o (wrd_prefix x) (wrd_prefix y) with
              | Lt => Lt | Gt => Gt | Eq => ocmp ord_rd (wrd_rd x) (wrd_rd y) end)
  (fun x y => match opcmp o (wrd_prefix x) (wrd_prefix y) with
              | None => opcmp ord_rd (wrd_rd x) (wrd_rd y)
              | Some Lt => Some Lt | Some Gt => Some Gt | Some Eq => opcmp ord_rd (wrd_rd x) (wrd_rd y) end)
  (fun x => ohash o (wrd_prefix x) ++ ohash ord_rd (wrd_rd x)).
(** afi/mod.rs:654-691 [WithPathId] *)
Definition owithpid {T} (o : ord T) : ord (withPathId T) := mkOrd
  (fun x y => oeq onum (pid x) (pid y) && oeq o (pid_nlri x) (pid_nlri y))
  (fun x y => match ocmp o (pid_nlri x) (pid_nlri y) with
              | Lt => Lt | Gt => Gt | Eq => ocmp onum (pid x) (pid y) end)
  (fun x y => match opcmp o (pid_nlri x) (pid_nlri y) with
              | None => opcmp onum (pid x) (pid y)
              | Some Lt => Some Lt | Some Gt => Some Gt | Some Eq => opcmp onum (pid x) (pid y) end)
  (fun x => ohash onum (pid x) ++ ohash o (pid_nlri x)).
(** mdt.rs:18-26, 119-127 (addr, group) *)
Definition omdt4 : ord mdtV4 := oview (fun x => (mdt4_addr x, mdt4_group x)) (ofields ov4 onum).
(** mdt.rs:119-127 *)
Definition omdt6 : ord mdtV6 := oview (fun x => (mdt6_addr x, mdt6_group x)) (ofields ov6 onum).
(** vpls.rs:16-25 [BgpAddrL2] (rd, site, offset, range, labels); vpls.rs:65-73 [BgpL2] *)
Definition ol2a : ord addrL2 :=
  oview (fun x => (l2a_rd x, (l2a_site x, (l2a_offset x, (l2a_range x, l2a_labels x)))))
    (ofields ord_rd (ofields onum (ofields onum (ofields onum olabels)))).
(** vpls.rs:65-73 *)
Definition ol2 : ord bgpL2 :=
  oview (fun x => (l2_rd x, (l2_site x, (l2_offset x, l2_range x)))) (ofields ord_rd (ofields onum (ofields onum onum))).
(** mvpn.rs:17-23, 60-66, 94-102, 158-164, 200-207, 254-262 *)
Definition omvpn1 : ord mvpn1 := oview (fun x => (mv1_rd x, mv1_orig x)) (ofields ord_rd oip).
(** mvpn.rs:60-66 *)
Definition omvpn2 : ord mvpn2 := oview (fun x => (mv2_rd x, mv2_asn x)) (ofields ord_rd onum).
(** mvpn.rs:94-102 *)
Definition omvpn3 : ord mvpn3 :=
  oview (fun x => (mv3_rd x, (mv3_source x, (mv3_group x, mv3_orig x)))) (ofields ord_rd (ofields oip (ofields oip oip))).
(** mvpn.rs:158-164 *)
Definition omvpn4 : ord mvpn4 := oview (fun x => (mv4_spmsi x, mv4_orig x)) (ofields omvpn3 oip).
(** mvpn.rs:200-207 *)
Definition omvpn5 : ord mvpn5 :=
  oview (fun x => (mv5_rd x, (mv5_source x, mv5_group x))) (ofields ord_rd (ofields oip oip)).
(** mvpn.rs:254-262 *)
Definition omvpn67 : ord mvpn67 :=
  oview (fun x => (mv67_rd x, (mv67_asn x, (mv67_rp x, mv67_group x)))) (ofields ord_rd (ofields onum (ofields oip oip))).
(** mvpn.rs:311-322 [BgpMVPN] *)
Definition omvpn : ord mvpn :=
  oview (fun x => match x with
    | MvT1 r => inl r | MvT2 r => inr (inl r) | MvT3 r => inr (inr (inl r)) | MvT4 r => inr (inr (inr (inl r)))
    | MvT5 r => inr (inr (inr (inr (inl r)))) | MvT6 r => inr (inr (inr (inr (inr (inl r)))))
    | MvT7 r => inr (inr (inr (inr (inr (inr r))))) end)
  (ovariants omvpn1 (ovariants omvpn2 (ovariants omvpn3 (ovariants omvpn4 (ovariants omvpn5 (ovariants omvpn67 omvpn67)))))).
(** evpn.rs:18-24 [EVPNESI]; evpn.rs:52-61, 108-119, 224-232, 291-299, 366-378 *)
Definition oesi : ord esi := olist onum.
(** evpn.rs:52-61 *)
Definition oevpn1 : ord evpn1 :=
  oview (fun x => (ev1_rd x, (ev1_esi_type x, (ev1_esi x, (ev1_tag x, ev1_labels x)))))
    (ofields ord_rd (ofields onum (ofields oesi (ofields onum olabels)))).
(** evpn.rs:108-119 *)
Definition oevpn2 : ord evpn2 :=
  oview (fun x => (ev2_rd x, (ev2_esi_type x, (ev2_esi x, (ev2_tag x, (ev2_mac x, (ev2_ip x, ev2_labels x)))))))
    (ofields ord_rd (ofields onum (ofields oesi (ofields onum (ofields omac (ofields (ooption oip) olabels)))))).
(** evpn.rs:224-232 *)
Definition oevpn3 : ord evpn3 :=
  oview (fun x => (ev3_rd x, (ev3_tag x, ev3_ip x))) (ofields ord_rd (ofields onum oip)).
(** evpn.rs:291-299 *)
Definition oevpn4 : ord evpn4 :=
  oview (fun x => (ev4_rd x, (ev4_esi_type x, (ev4_esi x, ev4_ip x)))) (ofields ord_rd (ofields onum (ofields oesi oip))).
(** evpn.rs:366-378 *)
Definition oevpn5 : ord evpn5 :=
  oview (fun x => (ev5_rd x, (ev5_esi_type x, (ev5_esi x, (ev5_tag x, (ev5_len x, (ev5_prefix x, (ev5_gw x, ev5_labels x))))))))
    (ofields ord_rd (ofields onum (ofields oesi (ofields onum (ofields onum (ofields oip (ofields oip olabels))))))).
(** evpn.rs:468-477 [BgpEVPN] *)
Definition oevpn : ord evpn :=
  oview (fun x => match x with
    | Ev1 r => inl r | Ev2 r => inr (inl r) | Ev3 r => inr (inr (inl r)) | Ev4 r => inr (inr (inr (inl r)))
    | Ev5 r => inr (inr (inr (inr r))) end)
  (ovariants oevpn1 (ovariants oevpn2 (ovariants oevpn3 (ovariants oevpn4 oevpn5)))).
(** flowspec.rs:40-46 [FS6]; [FSV4U] (flowspec.rs:81-87) is a wrapper of [WithRd] *)
Definition ofs6 : ord fs6 := oview (fun x => (fs6_ip x, fs6_offset x)) (ofields ov6 onum).
(** flowspec.rs:123-132, 298-306 *)
Definition ofsval : ord fsval :=
  oview (fun x => (fv_and x, (fv_lt x, (fv_gt x, (fv_eq x, fv_value x)))))
    (ofields obool (ofields obool (ofields obool (ofields obool onum)))).
(** flowspec.rs:298-306 *)
Definition ofsmask : ord fsmask :=
  oview (fun x => (fm_and x, (fm_not x, (fm_match x, fm_value x)))) (ofields obool (ofields obool (ofields obool onum))).
(** flowspec.rs:405-420 [BgpFlowSpec]: discriminant, then payload *)
Definition flowspec_view {T} (x : flowspec T) : N * (T + (list fsval + list fsmask)) :=
  match x with
  | FsDst a => (0, inl a) | FsSrc a => (1, inl a)
  | FsProto v => (2, inr (inl v)) | FsPortAny v => (3, inr (inl v)) | FsPortDst v => (4, inr (inl v))
  | FsPortSrc v => (5, inr (inl v)) | FsIcmpType v => (6, inr (inl v)) | FsIcmpCode v => (7, inr (inl v))
  | FsTcpFlags v => (8, inr (inr v)) | FsPacketLength v => (9, inr (inl v)) | FsDscp v => (10, inr (inl v))
  | FsFragment v => (11, inr (inr v)) | FsFlowLabel v => (12, inr (inl v))
  end.
(** flowspec.rs:405-420 *)
Definition oflowspec {T} (o : ord T) : ord (flowspec T) :=
  oview flowspec_view (ofields onum (ovariants o (ovariants (olist ofsval) (olist ofsmask)))).

(** afi/mod.rs:159-194 [BgpAddrs], variants in declaration order *)
Definition addrs_view (x : addrs) :=
  match x with
  | ANone => inl tt
  | IPV4U v => inr (inl v)
  | IPV4M v => inr (inr (inl v))
  | IPV4LU v => inr (inr (inr (inl v)))
  | VPNV4U v => inr (inr (inr (inr (inl v))))
  | VPNV4M v => inr (inr (inr (inr (inr (inl v)))))
  | IPV4MDT v => inr (inr (inr (inr (inr (inr (inl v))))))
  | IPV4MDTP v => inr (inr (inr (inr (inr (inr (inr (inl v)))))))
  | IPV6U v => inr (inr (inr (inr (inr (inr (inr (inr (inl v))))))))
  | IPV6M v => inr (inr (inr (inr (inr (inr (inr (inr (inr (inl v)))))))))
  | IPV6LU v => inr (inr (inr (inr (inr (inr (inr (inr (inr (inr (inl v))))))))))
  | VPNV6U v => inr (inr (inr (inr (inr (inr (inr (inr (inr (inr (inr (inl v)))))))))))
  | VPNV6M v => inr (inr (inr (inr (inr (inr (inr (inr (inr (inr (inr (inr (inl v))))))))))))
  | IPV6MDT v => inr (inr (inr (inr (inr (inr (inr (inr (inr (inr (inr (inr (inr (inl v)))))))))))))
  | IPV6MDTP v => inr (inr (inr (inr (inr (inr (inr (inr (inr (inr (inr (inr (inr (inr (inl v))))))))))))))
  | L2VPLS v => inr (inr (inr (inr (inr (inr (inr (inr (inr (inr (inr (inr (inr (inr (inr (inl v)))))))))))))))
  | MVPN v => inr (inr (inr (inr (inr (inr (inr (inr (inr (inr (inr (inr (inr (inr (inr (inr (inl v))))))))))))))))
  | EVPN v => inr (inr (inr (inr (inr (inr (inr (inr (inr (inr (inr (inr (inr (inr (inr (inr (inr (inl v)))))))))))))))))
  | FS4U v => inr (inr (inr (inr (inr (inr (inr (inr (inr (inr (inr (inr (inr (inr (inr (inr (inr (inr (inl v))))))))))))))))))
  | FS6U v => inr (inr (inr (inr (inr (inr (inr (inr (inr (inr (inr (inr (inr (inr (inr (inr (inr (inr (inr (inl v)))))))))))))))))))
  | FSV4U v => inr (inr (inr (inr (inr (inr (inr (inr (inr (inr (inr (inr (inr (inr (inr (inr (inr (inr (inr (inr (inl v))))))))))))))))))))
  | IPV4UP v => inr (inr (inr (inr (inr (inr (inr (inr (inr (inr (inr (inr (inr (inr (inr (inr (inr (inr (inr (inr (inr (inl v)))))))))))))))))))))
  | IPV4MP v => inr (inr (inr (inr (inr (inr (inr (inr (inr (inr (inr (inr (inr (inr (inr (inr (inr (inr (inr (inr (inr (inr (inl v))))))))))))))))))))))
  | IPV4LUP v => inr (inr (inr (inr (inr (inr (inr (inr (inr (inr (inr (inr (inr (inr (inr (inr (inr (inr (inr (inr (inr (inr (inr (inl v)))))))))))))))))))))))
  | VPNV4UP v => inr (inr (inr (inr (inr (inr (inr (inr (inr (inr (inr (inr (inr (inr (inr (inr (inr (inr (inr (inr (inr (inr (inr (inr (inl v))))))))))))))))))))))))
  | VPNV4MP v => inr (inr (inr (inr (inr (inr (inr (inr (inr (inr (inr (inr (inr (inr (inr (inr (inr (inr (inr (inr (inr (inr (inr (inr (inr (inl v)))))))))))))))))))))))))
  | IPV6UP v => inr (inr (inr (inr (inr (inr (inr (inr (inr (inr (inr (inr (inr (inr (inr (inr (inr (inr (inr (inr (inr (inr (inr (inr (inr (inr (inl v))))))))))))))))))))))))))
  | IPV6MP v => inr (inr (inr (inr (inr (inr (inr (inr (inr (inr (inr (inr (inr (inr (inr (inr (inr (inr (inr (inr (inr (inr (inr (inr (inr (inr (inr (inl v)))))))))))))))))))))))))))
  | IPV6LUP v => inr (inr (inr (inr (inr (inr (inr (inr (inr (inr (inr (inr (inr (inr (inr (inr (inr (inr (inr (inr (inr (inr (inr (inr (inr (inr (inr (inr (inl v))))))))))))))))))))))))))))
  | VPNV6UP v => inr (inr (inr (inr (inr (inr (inr (inr (inr (inr (inr (inr (inr (inr (inr (inr (inr (inr (inr (inr (inr (inr (inr (inr (inr (inr (inr (inr (inr (inl v)))))))))))))))))))))))))))))
  | VPNV6MP v => inr (inr (inr (inr (inr (inr (inr (inr (inr (inr (inr (inr (inr (inr (inr (inr (inr (inr (inr (inr (inr (inr (inr (inr (inr (inr (inr (inr (inr (inr v)))))))))))))))))))))))))))))
  end.
(** afi/mod.rs:159-194 *)
Definition oaddrs : ord addrs := oview addrs_view
  (ovariants ounit (ovariants (olist ov4) (ovariants (olist ov4) (ovariants (olist (olabeled ov4))
  (ovariants (olist (olabeled (owithrd ov4))) (ovariants (olist (olabeled (owithrd ov4)))
  (ovariants (olist (owithrd omdt4)) (ovariants (olist (owithpid (owithrd omdt4)))
  (ovariants (olist ov6) (ovariants (olist ov6) (ovariants (olist (olabeled ov6))
  (ovariants (olist (olabeled (owithrd ov6))) (ovariants (olist (olabeled (owithrd ov6)))
  (ovariants (olist (owithrd omdt6)) (ovariants (olist (owithpid (owithrd omdt6)))
  (ovariants (olist ol2a) (ovariants (olist omvpn) (ovariants (olist oevpn)
  (ovariants (olist (oflowspec ov4)) (ovariants (olist (oflowspec ofs6)) (ovariants (olist (oflowspec (owithrd ov4)))
  (ovariants (olist (owithpid ov4)) (ovariants (olist (owithpid ov4)) (ovariants (olist (owithpid (olabeled ov4)))
  (ovariants (olist (owithpid (olabeled (owithrd ov4)))) (ovariants (olist (owithpid (olabeled (owithrd ov4))))
  (ovariants (olist (owithpid ov6)) (ovariants (olist (owithpid ov6)) (ovariants (olist (owithpid (olabeled ov6)))
  (ovariants (olist (owithpid (olabeled (owithrd ov6)))) (olist (owithpid (olabeled (owithrd ov6)))))))))))))))))))))))))))))))))).

(** ** PMSI tunnel *)

(** pmsitunnelattr.rs:17-24, 35-40, 47-52, 60-67 [BgpPMSITunnelAttr] *)
Definition opmsi_tun : ord pmsi_tun :=
  oview (fun x => match x with
    | PtNone => inl tt
    | PtRSVP a b c d => inr (inl (a, (b, (c, d))))
    | PtIngress e => inr (inr (inl e))
    | PtMLDP r o => inr (inr (inr (r, o))) end)
  (ovariants ounit (ovariants (ofields onum (ofields onum (ofields onum onum))) (ovariants onum (ofields oip (olist onum))))).
(** pmsitunnelattr.rs:80-88 (flags, tunnel_type, label, tunnel_attribute) *)
Definition opmsi : ord pmsi :=
  oview (fun x => (pm_flags x, (pm_type x, (pm_label x, pm_tun x))))
    (ofields onum (ofields onum (ofields olabels opmsi_tun))).
