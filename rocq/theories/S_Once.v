(** Missing and repeated attributes of an UPDATE (RFC 4271 section 6.3, RFC 7606 section 3). *)
From Verif Require Import Base M_Util M_Prefix M_Nlri M_Cap M_Open M_Session M_Addrs M_Attr M_Update.

(** no attribute of type [c] among those received: (flags, type, payload) *)
Definition absent (c : N) (fs : list (N * N * list N)) : Prop := forall f d, ~ In (f, c, d) fs.
(** what the getters say of two messages is the same *)
Definition same_getters (u u' : update) : Prop :=
  get_attr_origin u = get_attr_origin u' /\ get_attr_aspath u = get_attr_aspath u' /\ get_attr_communitylist u = get_attr_communitylist u' /\
  get_attr_largecommunitylist u = get_attr_largecommunitylist u' /\ get_attr_extcommunitylist u = get_attr_extcommunitylist u' /\
  get_attr_nexthop u = get_attr_nexthop u' /\ get_mpupdates u = get_mpupdates u' /\ get_mpwithdraws u = get_mpwithdraws u'.
