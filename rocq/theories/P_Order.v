(** Equality, ordering and hashing: C45, C46, C66. *)
From Verif Require Import Base M_Util M_Prefix M_Nlri M_Vpls M_Mvpn M_Evpn M_Flowspec M_Cap M_Open M_Session M_Addrs M_Attr
  M_Order S_Order F_Order.

(** ** C45: AS numbers *)

(** The claim "equal AS values compare Equal and hash alike" fails for every 16-bit AS number: written in the low half and
    in the high half of the value it is equal to itself, but ordered and hashed apart. *)
Theorem C45_as_refuted : forall x, 1 <= x < 65536 ->
  oeq oas x (x * 65536) = true /\ ocmp oas x (x * 65536) = Lt /\ ohash oas x <> ohash oas (x * 65536).
Proof. exact as_refuted. Qed.
Print Assumptions C45_as_refuted.
Example C45_as_refuted_ex : oeq oas 65001 4259905536 = true /\ ocmp oas 65001 4259905536 = Lt.
Proof. split; reflexivity. Qed.

(** These are the only pairs for which it fails. *)
Theorem C45_as_exact : forall x y, x < 2 ^ 32 -> y < 2 ^ 32 ->
  (oeq oas x y = true /\ (ocmp oas x y <> Eq \/ ohash oas x <> ohash oas y) <-> as_upper x y \/ as_upper y x).
Proof. exact as_exact. Qed.
Print Assumptions C45_as_exact.
Theorem C45_as_eq : forall x y, x < 2 ^ 32 -> y < 2 ^ 32 ->
  (oeq oas x y = true <-> x = y \/ as_upper x y \/ as_upper y x).
Proof. exact as_eq_iff. Qed.
Print Assumptions C45_as_eq.
Example C45_as_eq_ex : 65536 < 2 ^ 32 /\ as_upper 65536 1 /\ ~ as_upper 65537 1.
Proof. unfold as_upper. split; [reflexivity|]. split; [split; [split; [discriminate|reflexivity]|reflexivity]|]. intros [_ H]. discriminate H. Qed.

(** Equality is an equivalence. *)
Theorem C45_as_equivalence : (forall x, oeq oas x x = true) /\ (forall x y, oeq oas x y = oeq oas y x) /\
  (forall x y z, oeq oas x y = true -> oeq oas y z = true -> oeq oas x z = true).
Proof. exact as_equiv. Qed.
Print Assumptions C45_as_equivalence.

(** The defect carries over to AS paths, at any position. *)
Theorem C45_aspath_refuted : forall l1 x l2, 1 <= x < 65536 ->
  oeq oaspath (l1 ++ x :: l2) (l1 ++ (x * 65536) :: l2) = true /\
  ocmp oaspath (l1 ++ x :: l2) (l1 ++ (x * 65536) :: l2) = Lt.
Proof. exact aspath_refuted. Qed.
Print Assumptions C45_aspath_refuted.
Example C45_aspath_refuted_ex : oeq oaspath [100; 200; 300] [100; 13107200; 300] = true.
Proof. reflexivity. Qed.

(** ** C46: Labeled, WithRd, WithPathId *)

(** The wrappers preserve the laws of what they wrap. Labels are ignored. *)
Theorem C46_labeled : forall T K (o : ord T) (k : T -> K), ord_laws o k -> partial_agrees o ->
  ord_laws (olabeled o) (fun x => k (lab_prefix x)) /\ partial_agrees (olabeled o).
Proof. exact (fun T K o k H P => conj (laws_labeled o k H) (pa_labeled o P)). Qed.
Print Assumptions C46_labeled.
Theorem C46_withrd : forall T K (o : ord T) (k : T -> K), ord_laws o k -> partial_but_equal o ->
  ord_laws (owithrd o) (fun x => (k (wrd_prefix x), wrd_rd x)) /\ partial_agrees (owithrd o).
Proof. exact (fun T K o k H P => conj (laws_withrd o k H) (pa_withrd o P)). Qed.
Print Assumptions C46_withrd.
Theorem C46_withpathid : forall T K (o : ord T) (k : T -> K), ord_laws o k -> partial_but_equal o ->
  ord_laws (owithpid o) (fun x => (pid x, k (pid_nlri x))) /\ partial_agrees (owithpid o).
Proof. exact (fun T K o k H P => conj (laws_withpid o k H) (pa_withpid o P)). Qed.
Print Assumptions C46_withpathid.

(** Prefixes themselves. *)
Theorem C46_prefixes : ord_laws ov4 (fun x => x) /\ partial_agrees ov4 /\ ord_laws ov6 (fun x => x) /\ partial_agrees ov6 /\
  ord_laws onet (fun x => x) /\ partial_agrees onet /\ ord_laws ord_rd (fun x => x) /\ partial_agrees ord_rd /\
  ord_laws omdt4 (fun x => x) /\ partial_agrees omdt4 /\ ord_laws omdt6 (fun x => x) /\ partial_agrees omdt6.
Proof.
  exact (conj laws_v4 (conj pa_v4 (conj laws_v6 (conj pa_v6 (conj laws_net (conj pa_net (conj laws_rd (conj pa_rd
    (conj laws_mdt4 (conj pa_mdt4 (conj laws_mdt6 pa_mdt6))))))))))).
Qed.
Print Assumptions C46_prefixes.

(** The VPNv4 route with path identifier, all wrappers together: equality is sameness of path identifier, RD, address and
    length. *)
Theorem C46_vpnv4 : ord_laws (owithpid (olabeled (owithrd ov4))) pid_unlabel /\ partial_agrees (owithpid (olabeled (owithrd ov4))).
Proof.
  exact (conj (laws_pidlabeled _ (laws_withrdid _ laws_v4))
    (pa_withpid _ (pa_pbe _ (pa_labeled _ (pa_withrd _ (pa_pbe _ pa_v4)))))).
Qed.
Print Assumptions C46_vpnv4.
Example C46_vpnv4_ex :
  let r l pi := mkPid pi (mkLab (mkWRD (mkV4 167772160 8) (mkRD 1 2)) l) in
  let o := owithpid (olabeled (owithrd ov4)) in
  oeq o (r [5] 7) (r [6; 9] 7) = true /\ ocmp o (r [5] 7) (r [5] 8) = Lt /\ opcmp o (r [1] 9) (r [5] 8) = Some Gt.
Proof. repeat split; reflexivity. Qed.

(** ** C66: every NLRI list *)

(** Equality, [cmp] and [Hash] of whole NLRI lists are lawful; labels are ignored everywhere. *)
Theorem C66_addrs_laws : ord_laws oaddrs addrs_unlabel.
Proof. exact laws_addrs. Qed.
Print Assumptions C66_addrs_laws.
(** [partial_cmp] agrees with [cmp] unless both lists are VPLS or both are EVPN. *)
Theorem C66_addrs_partial_cmp : forall a b, derived_labels a = false \/ derived_labels b = false ->
  opcmp oaddrs a b = Some (ocmp oaddrs a b).
Proof.
  exact (fun a b H => pa_addrs a b (match H with
    | or_introl E => eq_trans (f_equal (fun t => negb t || _) E) eq_refl
    | or_intror E => eq_trans (f_equal (fun t => _ || negb t) E) (orb_true_r _) end)).
Qed.
Print Assumptions C66_addrs_partial_cmp.
Example C66_addrs_partial_cmp_ex : opcmp oaddrs (IPV4LU [mkLab (mkV4 1 32) [3]]) (IPV4LU [mkLab (mkV4 2 32) [3]]) = Some Lt /\
  opcmp oaddrs (EVPN []) (FS4U []) = Some Lt.
Proof. split; reflexivity. Qed.
(** For single routes: [None] is answered exactly for equal label-bearing routes, for which [cmp] says [Equal]. *)
Theorem C66_evpn_partial_cmp : forall x y,
  opcmp oevpn x y = if oeq oevpn x y && evpn_has_labels x then None else Some (ocmp oevpn x y).
Proof. exact evpn_partial. Qed.
Print Assumptions C66_evpn_partial_cmp.
Theorem C66_vpls_partial_cmp : forall x y, opcmp ol2a x y = if oeq ol2a x y then None else Some (ocmp ol2a x y).
Proof. exact l2a_partial. Qed.
Print Assumptions C66_vpls_partial_cmp.
(** Hence the claim that [partial_cmp] agrees with [cmp] is false: an NLRI list is comparable with itself only if it holds
    no label-bearing VPLS or EVPN route ... *)
Theorem C66_self_partial_cmp_refuted : forall a, opcmp oaddrs a a = Some Eq <->
  match a with L2VPLS v => v = [] | EVPN v => forallb (fun r => negb (evpn_has_labels r)) v = true | _ => True end.
Proof. exact addrs_self. Qed.
Print Assumptions C66_self_partial_cmp_refuted.
(** ... lists that begin with the same label-bearing route are never comparable, whatever follows ... *)
Theorem C66_evpn_list_refuted : forall x v y w, oeq oevpn x y = true -> evpn_has_labels x = true ->
  opcmp oaddrs (EVPN (x :: v)) (EVPN (y :: w)) = None.
Proof. exact evpn_list_partial. Qed.
Print Assumptions C66_evpn_list_refuted.
Example C66_evpn_list_refuted_ex :
  let r l := Ev1 (mkEvpn1 (mkRD 1 2) 0 [0;0;0;0;0;0;0;0;0] 5 l) in
  oeq oevpn (r [16]) (r []) = true /\ evpn_has_labels (r [16]) = true /\
  ocmp oaddrs (EVPN [r [16]]) (EVPN [r []; r []]) = Lt /\ opcmp oaddrs (EVPN [r [16]]) (EVPN [r []; r []]) = None.
Proof. repeat split; reflexivity. Qed.
(** ... and PMSI tunnel attributes of the same flags and type are never comparable, although [cmp] orders them by their
    tunnel. *)
Theorem C66_pmsi_refuted : forall x y, pm_flags x = pm_flags y -> pm_type x = pm_type y -> opcmp opmsi x y = None.
Proof. exact pmsi_partial. Qed.
Print Assumptions C66_pmsi_refuted.
Theorem C66_pmsi_laws : ord_laws opmsi (fun x => (pm_flags x, pm_type x, pm_tun x)).
Proof. exact laws_pmsi. Qed.
Print Assumptions C66_pmsi_laws.
Example C66_pmsi_refuted_ex :
  let x e := mkPmsi 0 6 [] (PtIngress e) in ocmp opmsi (x 1) (x 2) = Lt /\ opcmp opmsi (x 1) (x 2) = None.
Proof. split; reflexivity. Qed.
(** The other route types are lawful. *)
Theorem C66_others : ord_laws omvpn (fun x => x) /\ partial_agrees omvpn /\
  ord_laws (oflowspec ov4) (fun x => x) /\ partial_agrees (oflowspec ov4) /\
  ord_laws (oflowspec ofs6) (fun x => x) /\ partial_agrees (oflowspec ofs6) /\
  ord_laws (oflowspec (owithrd ov4)) (fun x => x) /\ partial_agrees (oflowspec (owithrd ov4)).
Proof.
  exact (conj laws_mvpn (conj pa_mvpn (conj (laws_flowspec _ laws_v4) (conj (pa_flowspec _ pa_v4)
    (conj (laws_flowspec _ laws_fs6) (conj (pa_flowspec _ pa_fs6) (conj (laws_flowspec _ (laws_withrdid _ laws_v4))
    (pa_flowspec _ (pa_withrd _ (pa_pbe _ pa_v4)))))))))).
Qed.
Print Assumptions C66_others.
