(** C02-C07, C61, C75: prefixes as sets of addresses. *)
From Verif Require Import Base M_Util M_Prefix S_Prefix F_Prefix F_Prefix2.

(** IPv4 membership: exact, and never panics, in both build modes. *)
Theorem C02_v4_membership : forall oc p a, v4_wf p -> a < 2 ^ 32 ->
  exists b, v4_in_subnet oc p a = Ok b /\ (b = true <-> agree 32 (v4_len p) (v4_addr p) a).
Proof. exact v4_in_subnet_ok. Qed.
Print Assumptions C02_v4_membership.
Example C02_ex : v4_wf (mkV4 0xc0a80000 16) /\ v4_in_subnet true (mkV4 0xc0a80000 16) 0xc0a8ffff = Ok true
  /\ v4_in_subnet true (mkV4 0xc0a80000 16) 0xc0a90000 = Ok false.
Proof. repeat split; vm_compute; congruence. Qed.

(** IPv6 membership is refuted: the last address of every prefix is left out... *)
Theorem C03_v6_membership_refuted : forall oc p a, v6_wf p -> 1 <= v6_len p -> v6_len p < 128 ->
  member 128 (v6_len p) (v6_addr p) a -> (forall x, member 128 (v6_len p) (v6_addr p) x -> x <= a) ->
  v6_in_subnet oc p a = Ok false.
Proof. exact C03_last_l. Qed.
Print Assumptions C03_v6_membership_refuted.
Example C03_refuted_ex : v6_in_subnet true (mkV6 0x2a020000000000000000000000000000 32) 0x2a020000ffffffffffffffffffffffff = Ok false
  /\ v6_in_subnet true (mkV6 0x2a020000000000000000000000000000 32) 0x2a020000fffffffffffffffffffffffe = Ok true.
Proof. vm_compute. auto. Qed.
(** ... and that is the only deviation for lengths 1..=128: the answer is true exactly for
    members that are not the greatest member (or the length is 128). *)
Theorem C03_v6_membership_exact : forall oc p a, v6_wf p -> 1 <= v6_len p -> a < 2 ^ 128 ->
  exists b, v6_in_subnet oc p a = Ok b /\
    (b = true <-> member 128 (v6_len p) (v6_addr p) a /\
       (v6_len p = 128 \/ exists y, member 128 (v6_len p) (v6_addr p) y /\ a < y)).
Proof. exact C03_exact_l. Qed.
Print Assumptions C03_v6_membership_exact.
(** Length 0: panics with overflow checks, answers false for every address without. *)
Theorem C03_v6_membership_len0 : forall p a, v6_wf p -> v6_len p = 0 -> a < 2 ^ 128 ->
  v6_in_subnet true p a = Panic /\ v6_in_subnet false p a = Ok false.
Proof. exact C03_len0_l. Qed.
Print Assumptions C03_v6_membership_len0.
Example C03_ex : v6_in_subnet true (mkV6 0x2a020000000000000000000000000000 32) 0x2a020000000000000000000000000001 = Ok true
  /\ v6_in_subnet true (mkV6 0x2a020000000000000000000000000000 32) 0x2a010000000000000000000000000001 = Ok false.
Proof. vm_compute. auto. Qed.

(** MAC membership. *)
Theorem C04_mac_membership : forall oc p a, macp_wf p -> mac_wf a ->
  exists b, mac_in_subnet oc p a = Ok b /\
    (b = true <-> agree 48 (mc_len p) (mac_val (mc_addr p)) (mac_val a)).
Proof. exact mac_in_subnet_ok. Qed.
Print Assumptions C04_mac_membership.
Example C04_ex : macp_wf (mkMac [0;0x16;0x15;0x14;0x13;0x12] 40) /\
  mac_in_subnet true (mkMac [0;0x16;0x15;0x14;0x13;0x12] 40) [1;0x16;0x15;0x14;0x13;0x12] = Ok true /\
  mac_in_subnet true (mkMac [0;0x16;0x15;0x14;0x13;0x12] 40) [1;0x17;0x15;0x14;0x13;0x12] = Ok false.
Proof. repeat split; try (vm_compute; congruence). apply BaseFacts.bytes_okb_ok. reflexivity. Qed.

(** First and last address of a prefix. *)
Theorem C05_v4_range_first : forall oc p, v4_wf p -> 1 <= v4_len p ->
  exists f, v4_range_first oc p = Ok f /\ member 32 (v4_len p) (v4_addr p) f /\
    forall x, member 32 (v4_len p) (v4_addr p) x -> f <= x.
Proof. exact C05_v4_first_l. Qed.
Print Assumptions C05_v4_range_first.
Theorem C05_v4_range_last : forall oc p, v4_wf p ->
  exists l, v4_range_last oc p = Ok l /\ member 32 (v4_len p) (v4_addr p) l /\
    forall x, member 32 (v4_len p) (v4_addr p) x -> x <= l.
Proof. exact C05_v4_last_l. Qed.
Print Assumptions C05_v4_range_last.
Theorem C05_v6_range_first : forall oc p, v6_wf p -> 1 <= v6_len p ->
  exists f, v6_range_first oc p = Ok f /\ member 128 (v6_len p) (v6_addr p) f /\
    forall x, member 128 (v6_len p) (v6_addr p) x -> f <= x.
Proof. exact C05_v6_first_l. Qed.
Print Assumptions C05_v6_range_first.
Theorem C05_v6_range_last : forall oc p, v6_wf p ->
  exists l, v6_range_last oc p = Ok l /\ member 128 (v6_len p) (v6_addr p) l /\
    forall x, member 128 (v6_len p) (v6_addr p) x -> x <= l.
Proof. exact C05_v6_last_l. Qed.
Print Assumptions C05_v6_range_last.
Theorem C05_mac_range : forall oc p, macp_wf p ->
  exists f l, mac_range_first oc p = Ok f /\ mac_range_last oc p = Ok l /\ mac_wf f /\ mac_wf l /\
    member 48 (mc_len p) (mac_val (mc_addr p)) (mac_val f) /\
    member 48 (mc_len p) (mac_val (mc_addr p)) (mac_val l) /\
    forall x, member 48 (mc_len p) (mac_val (mc_addr p)) x -> mac_val f <= x <= mac_val l.
Proof. exact C05_mac_l. Qed.
Print Assumptions C05_mac_range.
(** Length 0 breaks range_first for IPv4 and IPv6: panic (checked) or the raw address (unchecked). *)
Theorem C05_v4_range_first_len0 : forall p, v4_wf p -> v4_len p = 0 ->
  v4_range_first true p = Panic /\ v4_range_first false p = Ok (v4_addr p).
Proof. exact C05_v4_first_len0_l. Qed.
Print Assumptions C05_v4_range_first_len0.
Theorem C05_v6_range_first_len0 : forall p, v6_wf p -> v6_len p = 0 ->
  v6_range_first true p = Panic /\ v6_range_first false p = Ok (v6_addr p).
Proof. exact C05_v6_first_len0_l. Qed.
Print Assumptions C05_v6_range_first_len0.
Theorem C05_v4_range_first_refuted : forall p, v4_wf p -> v4_len p = 0 -> v4_addr p <> 0 ->
  v4_range_first true p = Panic /\
  exists f x, v4_range_first false p = Ok f /\ member 32 (v4_len p) (v4_addr p) x /\ x < f.
Proof. exact C05_refuted_all. Qed.
Print Assumptions C05_v4_range_first_refuted.
Theorem C05_v6_range_first_refuted : forall p, v6_wf p -> v6_len p = 0 -> v6_addr p <> 0 ->
  v6_range_first true p = Panic /\
  exists f x, v6_range_first false p = Ok f /\ member 128 (v6_len p) (v6_addr p) x /\ x < f.
Proof. exact C05_v6_refuted_all. Qed.
Print Assumptions C05_v6_range_first_refuted.
Example C05_ex : v4_range_first true (mkV4 0xc0a87882 16) = Ok 0xc0a80000 /\ v4_range_last true (mkV4 0xc0a87882 16) = Ok 0xc0a8ffff
  /\ v6_range_last true (mkV6 0x2a020000000000000000000000000100 112) = Ok 0x2a02000000000000000000000000ffff.
Proof. vm_compute. auto. Qed.

(** Containment. [contains_spec] (S_Prefix): no panic; [true] implies inclusion of the address
    sets; inclusion implies [true] when lengths differ or neither prefix has host bits. *)
Theorem C06_v4_contains_partial : forall oc p a, v4_wf p -> v4_wf a ->
  contains_spec 32 (v4_len p) (v4_addr p) (v4_len a) (v4_addr a) (v4_contains oc p a).
Proof. exact C06_l. Qed.
Print Assumptions C06_v4_contains_partial.
(** Missing from the full claim, and false: equal lengths with host bits set. *)
Theorem C06_v4_contains_refuted : forall oc p a, v4_wf p -> v4_wf a -> 1 <= v4_len p -> v4_len p = v4_len a ->
  agree 32 (v4_len p) (v4_addr p) (v4_addr a) -> v4_addr p <> v4_addr a ->
  covers 32 (v4_len p) (v4_addr p) (v4_len a) (v4_addr a) /\ v4_contains oc p a = Ok false.
Proof. exact C06_refuted_all. Qed.
Print Assumptions C06_v4_contains_refuted.
(** The answer for all legal prefixes. *)
Theorem C06_v4_contains_exact : forall oc p a, v4_wf p -> v4_wf a ->
  exists b, v4_contains oc p a = Ok b /\
    (b = true <-> covers 32 (v4_len p) (v4_addr p) (v4_len a) (v4_addr a) /\
       (1 <= v4_len p -> v4_len p = v4_len a -> v4_addr p = v4_addr a)).
Proof. exact C06_exact_l. Qed.
Print Assumptions C06_v4_contains_exact.
Example C06_refuted_ex : v4_contains true (mkV4 0x0a000001 8) (mkV4 0x0a000002 8) = Ok false
  /\ 0x0a000001 / 2 ^ 24 = 0x0a000002 / 2 ^ 24.
Proof. vm_compute. auto. Qed.
Theorem C06_v4_contains_equal_len : forall oc p a, v4_wf p -> v4_wf a -> 1 <= v4_len p -> v4_len p = v4_len a ->
  v4_contains oc p a = Ok (v4_addr p =? v4_addr a).
Proof. exact C06_equal_len_l. Qed.
Print Assumptions C06_v4_contains_equal_len.
Example C06_ex : v4_contains true (mkV4 0xc0a80000 16) (mkV4 0xc0a80100 24) = Ok true
  /\ v4_contains true (mkV4 0xc0a80100 24) (mkV4 0xc0a80000 16) = Ok false.
Proof. vm_compute. auto. Qed.

Theorem C07_v6_contains_partial : forall oc p a, v6_wf p -> v6_wf a ->
  contains_spec 128 (v6_len p) (v6_addr p) (v6_len a) (v6_addr a) (v6_contains oc p a).
Proof. exact C07_v6_l. Qed.
Print Assumptions C07_v6_contains_partial.
Theorem C07_mac_contains_partial : forall oc p a, macp_wf p -> macp_wf a ->
  contains_spec 48 (mc_len p) (mac_val (mc_addr p)) (mc_len a) (mac_val (mc_addr a)) (mac_contains oc p a).
Proof. exact C07_mac_l. Qed.
Print Assumptions C07_mac_contains_partial.
Theorem C07_v6_contains_refuted : forall oc p a, v6_wf p -> v6_wf a -> 1 <= v6_len p -> v6_len p = v6_len a ->
  agree 128 (v6_len p) (v6_addr p) (v6_addr a) -> v6_addr p <> v6_addr a ->
  covers 128 (v6_len p) (v6_addr p) (v6_len a) (v6_addr a) /\ v6_contains oc p a = Ok false.
Proof. exact C07_v6_refuted_all. Qed.
Print Assumptions C07_v6_contains_refuted.
Theorem C07_mac_contains_refuted : forall oc p a, macp_wf p -> macp_wf a -> 1 <= mc_len p -> mc_len p = mc_len a ->
  agree 48 (mc_len p) (mac_val (mc_addr p)) (mac_val (mc_addr a)) -> mc_addr p <> mc_addr a ->
  covers 48 (mc_len p) (mac_val (mc_addr p)) (mc_len a) (mac_val (mc_addr a)) /\ mac_contains oc p a = Ok false.
Proof. exact C07_mac_refuted_all. Qed.
Print Assumptions C07_mac_contains_refuted.
Theorem C07_v6_contains_exact : forall oc p a, v6_wf p -> v6_wf a ->
  exists b, v6_contains oc p a = Ok b /\
    (b = true <-> covers 128 (v6_len p) (v6_addr p) (v6_len a) (v6_addr a) /\
       (1 <= v6_len p -> v6_len p = v6_len a -> v6_addr p = v6_addr a)).
Proof. exact C07_v6_exact_l. Qed.
Print Assumptions C07_v6_contains_exact.
Theorem C07_mac_contains_exact : forall oc p a, macp_wf p -> macp_wf a ->
  exists b, mac_contains oc p a = Ok b /\
    (b = true <-> covers 48 (mc_len p) (mac_val (mc_addr p)) (mc_len a) (mac_val (mc_addr a)) /\
       (1 <= mc_len p -> mc_len p = mc_len a -> mc_addr p = mc_addr a)).
Proof. exact C07_mac_exact_l. Qed.
Print Assumptions C07_mac_contains_exact.
Example C07_refuted_ex : v6_contains true (mkV6 1 64) (mkV6 2 64) = Ok false
  /\ mac_contains true (mkMac [1;0;0;0;0;2] 8) (mkMac [2;0;0;0;0;2] 8) = Ok false.
Proof. vm_compute. auto. Qed.
Example C07_ex : v6_contains true (mkV6 0x2a020000000000000000000000000000 32) (mkV6 0x2a020000000000000000000000000001 128) = Ok true
  /\ mac_contains true (mkMac [0;0;0x15;0x14;0x13;0x12] 32) (mkMac [0;0x16;0x15;0x14;0x13;0x12] 40) = Ok true.
Proof. vm_compute. auto. Qed.

(** C61: containment of prefixes of any kind is a preorder, and antisymmetric for lengths >= 1. *)
Theorem C61_contains_total : forall oc s a, net_wf s -> net_wf a -> exists b, net_contains oc s a = Ok b.
Proof. exact net_contains_total. Qed.
Print Assumptions C61_contains_total.
Theorem C61_contains_refl : forall oc s, net_wf s -> net_contains oc s s = Ok true.
Proof. exact net_contains_refl. Qed.
Print Assumptions C61_contains_refl.
Theorem C61_contains_trans : forall oc a b c, net_wf a -> net_wf b -> net_wf c ->
  net_contains oc a b = Ok true -> net_contains oc b c = Ok true -> net_contains oc a c = Ok true.
Proof. exact net_contains_trans. Qed.
Print Assumptions C61_contains_trans.
Theorem C61_contains_antisym : forall oc a b, net_wf a -> net_wf b -> 1 <= net_len a -> 1 <= net_len b ->
  net_contains oc a b = Ok true -> net_contains oc b a = Ok true -> a = b.
Proof. exact net_contains_antisym. Qed.
Print Assumptions C61_contains_antisym.
(** Only prefixes of the same kind are related, and then every address of the one is an address of the other. *)
Theorem C61_contains_kind : forall oc s a, net_wf s -> net_wf a -> net_contains oc s a = Ok true ->
  net_kind s = net_kind a /\ covers (net_bits s) (net_len s) (net_val s) (net_len a) (net_val a).
Proof. exact net_contains_kind. Qed.
Print Assumptions C61_contains_kind.
Example C61_ex : net_contains true (NetV4 (mkV4 0 0)) (NetV4 (mkV4 0x0a000000 8)) = Ok true
  /\ net_contains true (NetV4 (mkV4 0x0a000000 8)) (NetV4 (mkV4 0x0a010000 16)) = Ok true
  /\ net_contains true (NetV4 (mkV4 0x0a000000 8)) (NetV6 (mkV6 0 16)) = Ok false.
Proof. vm_compute. auto. Qed.

(** C75: [is_multicast]. Every address of 224.0.0.0/4 is recognised... *)
Theorem C75_multicast_complete_partial : forall p, v4_wf p -> member 32 4 0xe0000000 (v4_addr p) -> v4_is_multicast p = true.
Proof. exact C75_sound_l. Qed.
Print Assumptions C75_multicast_complete_partial.
(** ... but so is the reserved block 240.0.0.0/4 except the broadcast address. *)
Theorem C75_multicast_refuted : forall p, v4_wf p -> member 32 4 0xf0000000 (v4_addr p) -> v4_addr p <> 0xffffffff ->
  ~ member 32 4 0xe0000000 (v4_addr p) /\ v4_is_multicast p = true.
Proof. exact C75_refuted_l. Qed.
Print Assumptions C75_multicast_refuted.
Theorem C75_multicast_exact : forall p, v4_wf p ->
  (v4_is_multicast p = true <->
   member 32 4 0xe0000000 (v4_addr p) \/ (member 32 4 0xf0000000 (v4_addr p) /\ v4_addr p <> 0xffffffff)).
Proof. exact C75_exact_l. Qed.
Print Assumptions C75_multicast_exact.
Example C75_ex : v4_is_multicast (mkV4 0xe0000001 32) = true /\ v4_is_multicast (mkV4 0xdfffffff 32) = false
  /\ v4_is_multicast (mkV4 0xf0000001 32) = true /\ v4_is_multicast (mkV4 0xffffffff 32) = false.
Proof. vm_compute. auto. Qed.
