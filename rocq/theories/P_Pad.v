(** C143: the bits that fill the last octet of a prefix. *)
From Verif Require Import Base M_Util S_Wire M_Prefix S_Prefix M_Nlri S_Nlri M_Vpls M_Cap M_Open M_Session M_Mvpn M_Evpn M_Flowspec M_Addrs S_Pad F_Pad.

(** Different octets of an IPv4 prefix of the same length are different prefixes, also if they differ only in the bits
    behind the length, which RFC 4271 4.3 calls irrelevant; the addresses found in the two are then the same. *)
Theorem C143_v4_refuted : forall oc p bits s s', check_addpath_receive p 1 1 = false -> bits <= 32 -> length s = prefix_octets bits -> length s' = prefix_octets bits -> bytes_ok s -> bytes_ok s' -> s <> s' ->
  exists a a' n, addrs_decode oc p 1 1 (bits :: s) = Ok (IPV4U [a], n) /\ addrs_decode oc p 1 1 (bits :: s') = Ok (IPV4U [a'], n) /\ a <> a' /\ v4_len a = bits /\ v4_len a' = bits /\
    (same_bits bits s s' -> forall x, x < 2 ^ 32 -> v4_in_subnet oc a x = v4_in_subnet oc a' x).
Proof. exact padding4. Qed.
Print Assumptions C143_v4_refuted.
(** 10.1.128.0/17 and 10.1.255.0/17 *)
Example C143_v4_ex : let p := params_new 65000 180 ModeV4 1 [] in
  check_addpath_receive p 1 1 = false /\ length [10; 1; 128] = prefix_octets 17 /\ same_bits 17 [10; 1; 128] [10; 1; 255] /\
  addrs_decode true p 1 1 [17; 10; 1; 128] = Ok (IPV4U [mkV4 0x0a018000 17], 4%nat) /\ addrs_decode true p 1 1 [17; 10; 1; 255] = Ok (IPV4U [mkV4 0x0a01ff00 17], 4%nat) /\
  v4_in_subnet true (mkV4 0x0a018000 17) 0x0a018101 = Ok true /\ v4_in_subnet true (mkV4 0x0a01ff00 17) 0x0a018101 = Ok true.
Proof. cbv zeta. repeat split; vm_compute; reflexivity. Qed.
(** The same of IPv6. *)
Theorem C143_v6_refuted : forall oc p bits s s', check_addpath_receive p 2 1 = false -> bits <= 128 -> length s = prefix_octets bits -> length s' = prefix_octets bits -> bytes_ok s -> bytes_ok s' -> s <> s' ->
  exists a a' n, addrs_decode oc p 2 1 (bits :: s) = Ok (IPV6U [a], n) /\ addrs_decode oc p 2 1 (bits :: s') = Ok (IPV6U [a'], n) /\ a <> a' /\ v6_len a = bits /\ v6_len a' = bits /\
    (same_bits bits s s' -> forall x, x < 2 ^ 128 -> v6_in_subnet oc a x = v6_in_subnet oc a' x).
Proof. exact padding6. Qed.
Print Assumptions C143_v6_refuted.
(** 2000::/3 and 3f00::/3 *)
Example C143_v6_ex : let p := params_new 65000 180 ModeV4 1 [] in
  check_addpath_receive p 2 1 = false /\ same_bits 3 [0x20] [0x3f] /\
  addrs_decode true p 2 1 [3; 0x20] = Ok (IPV6U [mkV6 (0x20 * 2 ^ 120) 3], 2%nat) /\ addrs_decode true p 2 1 [3; 0x3f] = Ok (IPV6U [mkV6 (0x3f * 2 ^ 120) 3], 2%nat) /\
  v6_in_subnet true (mkV6 (0x20 * 2 ^ 120) 3) (0x2a * 2 ^ 120) = Ok true /\ v6_in_subnet true (mkV6 (0x3f * 2 ^ 120) 3) (0x2a * 2 ^ 120) = Ok true.
Proof. cbv zeta. repeat split; vm_compute; reflexivity. Qed.
