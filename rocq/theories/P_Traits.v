(** Equality, ordering and hashing of path attributes, capabilities and OPEN messages: C118, C119. *)
From Verif Require Import Base M_Util M_Prefix M_Nlri M_Vpls M_Mvpn M_Evpn M_Cap M_Open M_Session M_Addrs M_Attr M_Order M_Traits
  S_Order S_Sort S_Traits F_Traits.

(** ** C118: path attributes *)

(** Two attributes are equal exactly when they agree apart from label stacks and from the half in which the AS numbers of AS
    paths are stored, also inside attribute sets. *)
Theorem C118_equality : forall a b, oeq oattr a b = true <-> attr_norm as_number a = attr_norm as_number b.
Proof. exact attr_eq_iff. Qed.
Print Assumptions C118_equality.
(** [cmp] is a total order whose [Equal] ignores label stacks only; attributes that are [Equal] hash alike. *)
Theorem C118_order : (forall a b, ocmp oattr a b = Eq <-> attr_unlabel a = attr_unlabel b) /\
  (forall a b, ocmp oattr b a = CompOpp (ocmp oattr a b)) /\
  (forall a b c, ocmp oattr a b = Lt -> ocmp oattr b c = Lt -> ocmp oattr a c = Lt) /\
  (forall a b, attr_unlabel a = attr_unlabel b -> ohash oattr a = ohash oattr b).
Proof. exact (conj attr_cmp_eq (conj attr_cmp_opp (conj attr_cmp_trans attr_hash))). Qed.
Print Assumptions C118_order.
Example C118_order_ex :
  let t l := AAttrSet 7 [AOrigin Egp; AMPWithdraws (IPV4LU [mkLab (mkV4 167772160 8) l])] in
  oeq oattr (t [5]) (t [6; 7]) = true /\ ocmp oattr (t [5]) (t [6; 7]) = Eq /\ ohash oattr (t [5]) = ohash oattr (t [6; 7]) /\
  ocmp oattr (t [5]) (AAttrSet 7 [AOrigin Incomplete]) = Lt.
Proof. vm_compute. repeat split. Qed.
(** So equality, order and hash belong together for attributes whose AS numbers are all stored in the usual way ... *)
Theorem C118_lawful : forall a b, as_all plain_as a -> as_all plain_as b -> (oeq oattr a b = true <-> ocmp oattr a b = Eq).
Proof. exact attr_lawful. Qed.
Print Assumptions C118_lawful.
Example C118_lawful_ex : as_all plain_as (AAttrSet 1 [AASPath [65001; 4200000000]; AMED 5]).
Proof.
  cbn [as_all fold_right]. split; [|repeat split].
  apply Forall_cons; [right; discriminate|]. apply Forall_cons; [right; discriminate|]. apply Forall_nil.
Qed.
(** ... and never belong together for AS paths that hold a 16-bit number, in either half: the claim that equal attributes are
    [Equal] and hash alike is false. *)
Theorem C118_aspath_refuted : forall l1 x l2, 1 <= x < 65536 ->
  oeq oattr (AASPath (l1 ++ x :: l2)) (AASPath (l1 ++ (x * 65536) :: l2)) = true /\
  ocmp oattr (AASPath (l1 ++ x :: l2)) (AASPath (l1 ++ (x * 65536) :: l2)) = Lt /\
  ohash oattr (AASPath (l1 ++ x :: l2)) <> ohash oattr (AASPath (l1 ++ (x * 65536) :: l2)).
Proof. exact attr_as_refuted. Qed.
Print Assumptions C118_aspath_refuted.
Example C118_aspath_refuted_ex : 1 <= 65001 < 65536 /\ oeq oattr (AASPath [100; 65001]) (AASPath [100; 4259905536]) = true.
Proof. split; [split; [discriminate|reflexivity]|vm_compute; reflexivity]. Qed.

(** Attributes are sorted by kind, in the order of their declaration, then by their fields in order; NLRI lists, sets and paths
    element by element. *)
Theorem C118_sort_order : sorted_by oattr attr_key attr_sized /\ sorted_by obgpaddr bgpaddr_key any.
Proof. exact (conj attr_sorted bgpaddr_sorted). Qed.
Print Assumptions C118_sort_order.
Example C118_sort_order_ex : attr_sized (AAttrSet 3 [AMPUpdates (BAV4 1) (IPV4U [mkV4 0 0])]) /\
  attr_key (AAttrSet 3 [AMPUpdates (BAV4 1) (IPV4U [mkV4 0 0])]) = [15; 3; 1; 10; 1; 1; 1; 1; 0; 0; 0; 0] /\
  ocmp oattr (AMED 4294967295) (ALocalPref 0) = Lt.
Proof. vm_compute. repeat split. Qed.
(** The sets of extended and large communities are kept in the order of their elements. *)
Theorem C118_communities : (forall x y, ecomm_cmp x y = ocmp oecomm x y) /\ (forall x y, lcomm_cmp x y = ocmp olcomm x y).
Proof. exact comm_orders. Qed.
Print Assumptions C118_communities.

(** [partial_cmp] agrees with [cmp] when one of the two holds no label stack in a derived order. *)
Theorem C118_partial_cmp : forall a b, holds_labels a = false \/ holds_labels b = false -> opcmp oattr a b = Some (ocmp oattr a b).
Proof. exact attr_partial. Qed.
Print Assumptions C118_partial_cmp.
Example C118_partial_cmp_ex : holds_labels (AMPWithdraws (IPV4LU [mkLab (mkV4 0 0) [3]])) = false /\
  opcmp oattr (AAttrSet 1 [AMPWithdraws (IPV4LU [mkLab (mkV4 0 0) [3]])]) (AAttrSet 1 [AMPWithdraws (IPV4LU [mkLab (mkV4 1 0) [3]])]) = Some Lt.
Proof. vm_compute. split; reflexivity. Qed.
(** The claim that it always agrees is false: an attribute is comparable with itself exactly when no label-bearing VPLS or EVPN
    route and no PMSI tunnel is inside. *)
Theorem C118_partial_cmp_refuted : forall a, opcmp oattr a a = Some Eq <-> label_free a = true.
Proof. exact attr_self. Qed.
Print Assumptions C118_partial_cmp_refuted.
Example C118_partial_cmp_refuted_ex : label_free (AAttrSet 1 [APMSITunnel (mkPmsi 0 6 [] (PtIngress 5))]) = false.
Proof. reflexivity. Qed.
Theorem C118_pmsi_refuted : forall x y, pm_flags x = pm_flags y -> pm_type x = pm_type y -> opcmp oattr (APMSITunnel x) (APMSITunnel y) = None.
Proof. exact attr_pmsi_refuted. Qed.
Print Assumptions C118_pmsi_refuted.
Example C118_pmsi_refuted_ex : let x e := APMSITunnel (mkPmsi 0 6 [] (PtIngress e)) in
  ocmp oattr (x 1) (x 2) = Lt /\ opcmp oattr (x 1) (x 2) = None.
Proof. vm_compute. split; reflexivity. Qed.
(** Next hops are lawful without exception. *)
Theorem C118_next_hops : ord_laws obgpaddr (fun x => x) /\ partial_agrees obgpaddr.
Proof. exact (conj laws_bgpaddr pa_bgpaddr). Qed.
Print Assumptions C118_next_hops.

(** ** C119: capabilities and OPEN messages *)

(** Equality is sameness of every field, [cmp] a total order consistent with it, equal values hash alike, and [partial_cmp]
    agrees with [cmp]. *)
Theorem C119_laws : ord_laws ocap (fun x => x) /\ partial_agrees ocap /\ ord_laws oopen (fun x => x) /\ partial_agrees oopen.
Proof. exact (conj laws_cap (conj pa_cap (conj laws_open pa_open))). Qed.
Print Assumptions C119_laws.
(** Capabilities are sorted by kind, then by their fields in order; strings octet by octet. *)
Theorem C119_sort_order : sorted_by ocap cap_key any /\ sorted_by oopen open_key any.
Proof. exact (conj cap_sorted open_sorted). Qed.
Print Assumptions C119_sort_order.
Example C119_sort_order_ex : ocmp ocap (CapGR true 5 []) (CapGR false 6 []) = Lt /\ ocmp ocap (CapFQDN [97; 98] []) (CapFQDN [97] [255]) = Gt /\
  ocmp oopen (mkOpen 1 2 3 [CapRR]) (mkOpen 1 2 3 [CapRR; CapRR]) = Lt.
Proof. repeat split; reflexivity. Qed.
(** The comparison by which capability negotiation searches the peer's capabilities is this equality. *)
Theorem C119_negotiation : forall a b, cap_eqb a b = oeq ocap a b.
Proof. exact cap_eq_used. Qed.
Print Assumptions C119_negotiation.
