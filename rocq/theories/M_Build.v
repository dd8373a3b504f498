(** Model of the public constructors that do more than fill in a record, and of the ready-made multiprotocol announcements. *)
From Verif Require Import Base M_Util M_Prefix M_Nlri M_Vpls M_Addrs M_Attr.

(** multiproto.rs:26-31 *)
Definition s4vpnv4u (rd : bgpRD) (a : N) (nlri : list (labeled (withRd addrV4))) : attr := AMPUpdates (BAV4RD rd a) (VPNV4U nlri).
(** multiproto.rs:33-38 *)
Definition s4vpnv4m (rd : bgpRD) (a : N) (nlri : list (labeled (withRd addrV4))) : attr := AMPUpdates (BAV4RD rd a) (VPNV4M nlri).
(** multiproto.rs:40-45 *)
Definition s4ip4lu (a : N) (nlri : list (labeled addrV4)) : attr := AMPUpdates (BAV4 a) (IPV4LU nlri).
(** multiproto.rs:47-52 *)
Definition s4ip6lu (a : N) (nlri : list (labeled addrV6)) : attr := AMPUpdates (BAV4 a) (IPV6LU nlri).
(** multiproto.rs:54-59 *)
Definition s4vpnv6u (rd : bgpRD) (a : N) (nlri : list (labeled (withRd addrV6))) : attr := AMPUpdates (BAV4RD rd a) (VPNV6U nlri).
(** multiproto.rs:61-66 *)
Definition s4vpnv6m (rd : bgpRD) (a : N) (nlri : list (labeled (withRd addrV6))) : attr := AMPUpdates (BAV4RD rd a) (VPNV6M nlri).

(** community.rs:156-160 *)
Definition community_from (h l : N) : N := N.lor (cast 32 (N.shiftl h 16)) l.
(** community.rs:233-237: [collect] into a [BTreeSet] *)
Definition community_from_vec (v : list N) : attr := ACommunityList (bset_of N.compare v).
(** extcommunity.rs:183-189 *)
Definition ext_from_vec (v : list ecomm) : attr := AExtCommunityList (bset_of ecomm_cmp v).
(** afi/mod.rs:509-514 with [MplsLabels::fromvec] (afi/mod.rs:410-412) *)
Definition labeled_new {T} (lbls : list N) (inner : T) : labeled T := mkLab inner lbls.
(** afi/mod.rs:516-521 with [MplsLabels::new] (afi/mod.rs:406-408) *)
Definition labeled_new_nl {T} (inner : T) : labeled T := mkLab inner [].
