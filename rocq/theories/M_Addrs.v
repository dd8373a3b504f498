(** Model of [BgpAddrs], /repo/src/afi/mod.rs:159-194 and 716-1079: the dispatch of NLRI lists on
    address families ([Display] is not modelled). *)
From Verif Require Import Base M_Util M_Prefix M_Nlri M_Vpls M_Mvpn M_Evpn M_Flowspec M_Cap M_Open M_Session.

(** afi/mod.rs:162-194 *)
Inductive addrs :=
| ANone
| IPV4U (v : list addrV4)
| IPV4UP (v : list (withPathId addrV4))
| IPV4M (v : list addrV4)
| IPV4MP (v : list (withPathId addrV4))
| IPV4LU (v : list (labeled addrV4))
| IPV4LUP (v : list (withPathId (labeled addrV4)))
| IPV4MDT (v : list (withRd mdtV4))
| IPV4MDTP (v : list (withPathId (withRd mdtV4)))
| VPNV4U (v : list (labeled (withRd addrV4)))
| VPNV4UP (v : list (withPathId (labeled (withRd addrV4))))
| VPNV4M (v : list (labeled (withRd addrV4)))
| VPNV4MP (v : list (withPathId (labeled (withRd addrV4))))
| IPV6U (v : list addrV6)
| IPV6UP (v : list (withPathId addrV6))
| IPV6M (v : list addrV6)
| IPV6MP (v : list (withPathId addrV6))
| IPV6LU (v : list (labeled addrV6))
| IPV6LUP (v : list (withPathId (labeled addrV6)))
| IPV6MDT (v : list (withRd mdtV6))
| IPV6MDTP (v : list (withPathId (withRd mdtV6)))
| VPNV6U (v : list (labeled (withRd addrV6)))
| VPNV6UP (v : list (withPathId (labeled (withRd addrV6))))
| VPNV6M (v : list (labeled (withRd addrV6)))
| VPNV6MP (v : list (withPathId (labeled (withRd addrV6))))
| L2VPLS (v : list addrL2)
| MVPN (v : list mvpn)
| EVPN (v : list evpn)
| FS4U (v : list (flowspec addrV4))
| FS6U (v : list (flowspec fs6))
| FSV4U (v : list (flowspec (withRd addrV4))).

(** [Vec::is_empty] (afi/mod.rs:721-755) *)
Definition nilb {A} (l : list A) : bool := match l with [] => true | _ => false end.
(** afi/mod.rs:721-755 *)
Definition addrs_is_empty (a : addrs) : bool :=
  match a with
  | ANone => true
  | IPV4U v => nilb v
  | IPV4UP v => nilb v
  | IPV4M v => nilb v
  | IPV4MP v => nilb v
  | IPV4LU v => nilb v
  | IPV4LUP v => nilb v
  | IPV4MDT v => nilb v
  | IPV4MDTP v => nilb v
  | VPNV4U v => nilb v
  | VPNV4UP v => nilb v
  | VPNV4M v => nilb v
  | VPNV4MP v => nilb v
  | IPV6U v => nilb v
  | IPV6UP v => nilb v
  | IPV6M v => nilb v
  | IPV6MP v => nilb v
  | IPV6LU v => nilb v
  | IPV6LUP v => nilb v
  | IPV6MDT v => nilb v
  | IPV6MDTP v => nilb v
  | VPNV6U v => nilb v
  | VPNV6UP v => nilb v
  | VPNV6M v => nilb v
  | VPNV6MP v => nilb v
  | L2VPLS v => nilb v
  | MVPN v => nilb v
  | EVPN v => nilb v
  | FS4U v => nilb v
  | FS6U v => nilb v
  | FSV4U v => nilb v
  end.
(** afi/mod.rs:757-791 *)
Definition addrs_len (a : addrs) : nat :=
  match a with
  | ANone => 0%nat
  | IPV4U v => length v
  | IPV4UP v => length v
  | IPV4M v => length v
  | IPV4MP v => length v
  | IPV4LU v => length v
  | IPV4LUP v => length v
  | IPV4MDT v => length v
  | IPV4MDTP v => length v
  | VPNV4U v => length v
  | VPNV4UP v => length v
  | VPNV4M v => length v
  | VPNV4MP v => length v
  | IPV6U v => length v
  | IPV6UP v => length v
  | IPV6M v => length v
  | IPV6MP v => length v
  | IPV6LU v => length v
  | IPV6LUP v => length v
  | IPV6MDT v => length v
  | IPV6MDTP v => length v
  | VPNV6U v => length v
  | VPNV6UP v => length v
  | VPNV6M v => length v
  | VPNV6MP v => length v
  | L2VPLS v => length v
  | MVPN v => length v
  | EVPN v => length v
  | FS4U v => length v
  | FS6U v => length v
  | FSV4U v => length v
  end.
(** afi/mod.rs:793-827 *)
Definition get_afi_safi (a : addrs) : N * N :=
  match a with
  | ANone => (0, 0)
  | IPV4U _ => (1, 1)
  | IPV4UP _ => (1, 1)
  | IPV4M _ => (1, 2)
  | IPV4MP _ => (1, 2)
  | IPV4LU _ => (1, 4)
  | IPV4LUP _ => (1, 4)
  | IPV4MDT _ => (1, 66)
  | IPV4MDTP _ => (1, 66)
  | VPNV4U _ => (1, 128)
  | VPNV4UP _ => (1, 128)
  | VPNV4M _ => (1, 129)
  | VPNV4MP _ => (1, 129)
  | IPV6U _ => (2, 1)
  | IPV6UP _ => (2, 1)
  | IPV6M _ => (2, 2)
  | IPV6MP _ => (2, 2)
  | IPV6LU _ => (2, 4)
  | IPV6LUP _ => (2, 4)
  | IPV6MDT _ => (2, 66)
  | IPV6MDTP _ => (2, 66)
  | VPNV6U _ => (2, 128)
  | VPNV6UP _ => (2, 128)
  | VPNV6M _ => (2, 129)
  | VPNV6MP _ => (2, 129)
  | L2VPLS _ => (25, 65)
  | MVPN _ => (1, 5)
  | EVPN _ => (25, 70)
  | FS4U _ => (1, 133)
  | FS6U _ => (2, 133)
  | FSV4U _ => (1, 134)
  end.

(** [if peer.check_addpath_receive(afi, safi) || (peer.fuzzy_pathid && is_addpath_nlri(buf))],
    afi/mod.rs:840-841 and elsewhere *)
Definition use_pathid (p : params) (afi sf : N) (buf : list N) : bool :=
  (check_addpath_receive p afi sf || (sp_fuzzy p && is_addpath_nlri buf))%bool.
(** the two-way choice of afi/mod.rs:838-849, repeated there for each family *)
Definition dec_fam {T} (oc : bool) (ex : extractor T) (wrap : list T -> addrs) (wrapp : list (withPathId T) -> addrs)
  (p : params) (afi sf : N) (buf : list N) : res (addrs * nat) :=
  if use_pathid p afi sf buf then '(v, n) <- decode_pathid_bgpitems_from oc ex buf ;; Ok (wrapp v, n)
  else '(v, n) <- decode_bgpitems_from oc ex buf ;; Ok (wrap v, n).
(** [let r = decode_...(buf)?; Ok((BgpAddrs::X(r.0), r.1))] (afi/mod.rs:838-1037) *)
Definition dec_wrap {T} (r : res (list T * nat)) (wrap : list T -> addrs) : res (addrs * nat) :=
  '(v, n) <- r ;; Ok (wrap v, n).

(** afi/mod.rs:828-1037. The session's address mode reaches only the MVPN decoder, and there it is the
    constant IPv4 (line 876); the FlowSpec and EVPN decoders ignore it. *)
Definition addrs_decode (oc : bool) (p : params) (afi sf : N) (buf : list N) : res (addrs * nat) :=
  if afi =? 1 then
    if sf =? 1 then dec_fam oc v4_from_bits IPV4U IPV4UP p afi sf buf else
    if sf =? 2 then dec_fam oc v4_from_bits IPV4M IPV4MP p afi sf buf else
    if sf =? 4 then dec_fam oc (labeled_extract v4_from_bits) IPV4LU IPV4LUP p afi sf buf else
    if sf =? 5 then dec_wrap (decode_bgpaddritems_from (mvpn_decode ModeV4) buf) MVPN else
    if sf =? 66 then dec_fam oc (withrd_extract mdt4_extract) IPV4MDT IPV4MDTP p afi sf buf else
    if sf =? 128 then dec_fam oc (labeled_extract (withrd_extract v4_from_bits)) VPNV4U VPNV4UP p afi sf buf else
    if sf =? 129 then dec_fam oc (labeled_extract (withrd_extract v4_from_bits)) VPNV4M VPNV4MP p afi sf buf else
    if sf =? 133 then dec_wrap (decode_bgpaddritems_from (fs_decode (fs4 oc)) buf) FS4U else
    if sf =? 134 then dec_wrap (decode_bgpaddritems_from (fs_decode (fsv4 oc)) buf) FSV4U else
    Err EOther
  else if afi =? 2 then
    if sf =? 1 then dec_fam oc v6_from_bits IPV6U IPV6UP p afi sf buf else
    if sf =? 2 then dec_fam oc v6_from_bits IPV6M IPV6MP p afi sf buf else
    if sf =? 4 then dec_fam oc (labeled_extract v6_from_bits) IPV6LU IPV6LUP p afi sf buf else
    if sf =? 66 then dec_fam oc (withrd_extract mdt6_extract) IPV6MDT IPV6MDTP p afi sf buf else
    if sf =? 128 then dec_fam oc (labeled_extract (withrd_extract v6_from_bits)) VPNV6U VPNV6UP p afi sf buf else
    if sf =? 129 then dec_fam oc (labeled_extract (withrd_extract v6_from_bits)) VPNV6M VPNV6MP p afi sf buf else
    if sf =? 133 then dec_wrap (decode_bgpaddritems_from (fs_decode (fs6i oc)) buf) FS6U else
    Err EOther
  else if afi =? 25 then
    if sf =? 65 then dec_wrap (decode_long_bgpitems_from (l2a_extract oc) buf) L2VPLS else
    if sf =? 70 then dec_wrap (decode_bgpaddritems_from (evpn_decode oc) buf) EVPN else
    Err EOther
  else Err EOther.

(** afi/mod.rs:1038-1072 (the address mode handed to the item encoders is ignored by all of them) *)
Definition addrs_encode (oc : bool) (a : addrs) : Enc nat :=
  match a with
  | ANone => eret 0%nat
  | IPV4U v => encode_bgpitems_to oc v4_to_bits v
  | IPV4UP v => encode_pathid_bgpitems_to oc v4_to_bits v
  | IPV4M v => encode_bgpitems_to oc v4_to_bits v
  | IPV4MP v => encode_pathid_bgpitems_to oc v4_to_bits v
  | IPV4LU v => encode_bgpitems_to oc (labeled_set v4_to_bits) v
  | IPV4LUP v => encode_pathid_bgpitems_to oc (labeled_set v4_to_bits) v
  | IPV4MDT v => encode_bgpitems_to oc (withrd_set mdt4_set) v
  | IPV4MDTP v => encode_pathid_bgpitems_to oc (withrd_set mdt4_set) v
  | VPNV4U v => encode_bgpitems_to oc (labeled_set (withrd_set v4_to_bits)) v
  | VPNV4UP v => encode_pathid_bgpitems_to oc (labeled_set (withrd_set v4_to_bits)) v
  | VPNV4M v => encode_bgpitems_to oc (labeled_set (withrd_set v4_to_bits)) v
  | VPNV4MP v => encode_pathid_bgpitems_to oc (labeled_set (withrd_set v4_to_bits)) v
  | IPV6U v => encode_bgpitems_to oc v6_to_bits v
  | IPV6UP v => encode_pathid_bgpitems_to oc v6_to_bits v
  | IPV6M v => encode_bgpitems_to oc v6_to_bits v
  | IPV6MP v => encode_pathid_bgpitems_to oc v6_to_bits v
  | IPV6LU v => encode_bgpitems_to oc (labeled_set v6_to_bits) v
  | IPV6LUP v => encode_pathid_bgpitems_to oc (labeled_set v6_to_bits) v
  | IPV6MDT v => encode_bgpitems_to oc (withrd_set mdt6_set) v
  | IPV6MDTP v => encode_pathid_bgpitems_to oc (withrd_set mdt6_set) v
  | VPNV6U v => encode_bgpitems_to oc (labeled_set (withrd_set v6_to_bits)) v
  | VPNV6UP v => encode_pathid_bgpitems_to oc (labeled_set (withrd_set v6_to_bits)) v
  | VPNV6M v => encode_bgpitems_to oc (labeled_set (withrd_set v6_to_bits)) v
  | VPNV6MP v => encode_pathid_bgpitems_to oc (labeled_set (withrd_set v6_to_bits)) v
  | L2VPLS v => encode_long_bgpitems_to l2a_pack v
  | MVPN v => encode_bgpaddritems_to mvpn_encode v
  | EVPN v => encode_bgpaddritems_to evpn_encode v
  | FS4U v => encode_bgpaddritems_to (fs_encode (fs4 oc)) v
  | FS6U v => encode_bgpaddritems_to (fs_encode (fs6i oc)) v
  | FSV4U v => encode_bgpaddritems_to (fs_encode (fsv4 oc)) v
  end.
