(** Specification of lawful equality, ordering and hashing. *)
From Verif Require Import Base M_Util M_Prefix M_Nlri M_Vpls M_Mvpn M_Evpn M_Flowspec M_Cap M_Open M_Session M_Addrs M_Attr M_Order.

(** What Rust's documentation requires of [Eq], [Ord] and [Hash], for values identified by [key]: equality is sameness of
    keys (hence an equivalence), [cmp] is a total order whose [Equal] is that equality, and equal values hash alike. *)
Record ord_laws {T K : Type} (o : ord T) (key : T -> K) : Prop := {
  law_eq : forall x y, oeq o x y = true <-> key x = key y;
  law_cmp_eq : forall x y, ocmp o x y = Eq <-> key x = key y;
  law_cmp_opp : forall x y, ocmp o y x = CompOpp (ocmp o x y);
  law_cmp_trans : forall x y z, ocmp o x y = Lt -> ocmp o y z = Lt -> ocmp o x z = Lt;
  law_hash : forall x y, key x = key y -> ohash o x = ohash o y }.
(** What it requires of [PartialOrd] for a type that is [Ord]. *)
Definition partial_agrees {T} (o : ord T) : Prop := forall x y, opcmp o x y = Some (ocmp o x y).
(** A weaker agreement: [None] is answered for equal values only. *)
Definition partial_but_equal {T} (o : ord T) : Prop := forall x y,
  opcmp o x y = Some (ocmp o x y) \/ (opcmp o x y = None /\ ocmp o x y = Eq).

(** Labels do not identify a route: the same value without them. *)
Definition unlabel {T} (x : labeled T) : labeled T := mkLab (lab_prefix x) [].
Definition pid_unlabel {T} (x : withPathId (labeled T)) : withPathId (labeled T) := mkPid (pid x) (unlabel (pid_nlri x)).
Definition l2_unlabel (x : addrL2) : addrL2 := mkL2A (l2a_rd x) (l2a_site x) (l2a_offset x) (l2a_range x) [].
Definition evpn_unlabel (x : evpn) : evpn :=
  match x with
  | Ev1 r => Ev1 (mkEvpn1 (ev1_rd r) (ev1_esi_type r) (ev1_esi r) (ev1_tag r) [])
  | Ev2 r => Ev2 (mkEvpn2 (ev2_rd r) (ev2_esi_type r) (ev2_esi r) (ev2_tag r) (ev2_mac r) (ev2_ip r) [])
  | Ev3 r => Ev3 r
  | Ev4 r => Ev4 r
  | Ev5 r => Ev5 (mkEvpn5 (ev5_rd r) (ev5_esi_type r) (ev5_esi r) (ev5_tag r) (ev5_len r) (ev5_prefix r) (ev5_gw r) [])
  end.
(** The EVPN routes that carry labels. *)
Definition evpn_has_labels (x : evpn) : bool := match x with Ev1 _ | Ev2 _ | Ev5 _ => true | Ev3 _ | Ev4 _ => false end.
Definition addrs_unlabel (a : addrs) : addrs :=
  match a with
  | IPV4LU v => IPV4LU (map unlabel v) | IPV4LUP v => IPV4LUP (map pid_unlabel v)
  | VPNV4U v => VPNV4U (map unlabel v) | VPNV4UP v => VPNV4UP (map pid_unlabel v)
  | VPNV4M v => VPNV4M (map unlabel v) | VPNV4MP v => VPNV4MP (map pid_unlabel v)
  | IPV6LU v => IPV6LU (map unlabel v) | IPV6LUP v => IPV6LUP (map pid_unlabel v)
  | VPNV6U v => VPNV6U (map unlabel v) | VPNV6UP v => VPNV6UP (map pid_unlabel v)
  | VPNV6M v => VPNV6M (map unlabel v) | VPNV6MP v => VPNV6MP (map pid_unlabel v)
  | L2VPLS v => L2VPLS (map l2_unlabel v)
  | EVPN v => EVPN (map evpn_unlabel v)
  | a => a
  end.
(** NLRI lists whose elements hold label stacks in a derived order. *)
Definition derived_labels (a : addrs) : bool := match a with L2VPLS _ | EVPN _ => true | _ => false end.

(** The number an AS value stands for: 16-bit numbers may be stored in the upper half. *)
Definition as_upper (x y : N) : Prop := 1 <= y < 65536 /\ x = y * 65536.
