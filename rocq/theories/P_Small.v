(** * C122: [prefixlen] is the length that goes over the wire
    * C123: the multicast test of IPv6 prefixes is exact
    * C124: [util::slice] returns the part asked for or an error *)
From Verif Require Import Base M_Util M_Prefix S_Prefix M_Nlri M_Vpls M_Small S_Small F_Small.

(** * C122 *)

Theorem C122_v4_written : written_as v4_to_bits v4_prefixlen 0 (fun p => v4_len p <= 32).
Proof. exact v4_written. Qed.
Print Assumptions C122_v4_written.
Theorem C122_v6_written : written_as v6_to_bits v6_prefixlen 0 (fun p => v6_len p <= 128).
Proof. exact v6_written. Qed.
Print Assumptions C122_v6_written.
(** Labels may be stacked on, and route distinguishers put before, whatever kind of route has the property. *)
Theorem C122_labeled_written : forall T (st : setter T) len P, written_as st len 0 P -> written_as (labeled_set st) (labeled_prefixlen len) 0 (fun x => P (lab_prefix x)).
Proof. exact @labeled_written. Qed.
Print Assumptions C122_labeled_written.
Theorem C122_withrd_written : forall T (st : setter T) len k P, written_as st len k P -> written_as (withrd_set st) (withrd_prefixlen len) k (fun x => P (wrd_prefix x)).
Proof. exact @withrd_written. Qed.
Print Assumptions C122_withrd_written.
Theorem C122_read : read_as v4_from_bits v4_prefixlen 0 /\ read_as v6_from_bits v6_prefixlen 0 /\
  (forall T (ex : extractor T) len, read_as ex len 0 -> read_as (labeled_extract ex) (labeled_prefixlen len) 0) /\
  (forall T (ex : extractor T) len k, read_as ex len k -> read_as (withrd_extract ex) (withrd_prefixlen len) k).
Proof. exact (conj v4_read (conj v6_read (conj (@labeled_read) (@withrd_read)))). Qed.
Print Assumptions C122_read.
(** With overflow checks the number is the length octet itself, not just equal to it modulo 256. *)
Theorem C122_read_exact : read_exact v4_from_bits v4_prefixlen 0 /\ read_exact v6_from_bits v6_prefixlen 0 /\
  (forall T (ex : extractor T) len, read_exact ex len 0 -> read_exact (labeled_extract ex) (labeled_prefixlen len) 0) /\
  (forall T (ex : extractor T) len k, read_exact ex len k -> read_exact (withrd_extract ex) (withrd_prefixlen len) k).
Proof. exact (conj v4_exact (conj v6_exact (conj (@labeled_exact) (@withrd_exact)))). Qed.
Print Assumptions C122_read_exact.
(** The route types of the address families, written and read. *)
Theorem C122_families :
  written_as (labeled_set v4_to_bits) (labeled_prefixlen v4_prefixlen) 0 (fun x => v4_len (lab_prefix x) <= 32) /\
  written_as (labeled_set v6_to_bits) (labeled_prefixlen v6_prefixlen) 0 (fun x => v6_len (lab_prefix x) <= 128) /\
  written_as (labeled_set (withrd_set v4_to_bits)) (labeled_prefixlen (withrd_prefixlen v4_prefixlen)) 0 (fun x => v4_len (wrd_prefix (lab_prefix x)) <= 32) /\
  written_as (labeled_set (withrd_set v6_to_bits)) (labeled_prefixlen (withrd_prefixlen v6_prefixlen)) 0 (fun x => v6_len (wrd_prefix (lab_prefix x)) <= 128) /\
  read_exact (labeled_extract v4_from_bits) (labeled_prefixlen v4_prefixlen) 0 /\
  read_exact (labeled_extract v6_from_bits) (labeled_prefixlen v6_prefixlen) 0 /\
  read_exact (labeled_extract (withrd_extract v4_from_bits)) (labeled_prefixlen (withrd_prefixlen v4_prefixlen)) 0 /\
  read_exact (labeled_extract (withrd_extract v6_from_bits)) (labeled_prefixlen (withrd_prefixlen v6_prefixlen)) 0.
Proof. exact families_small. Qed.
Print Assumptions C122_families.
(** MDT routes: the octet written is never the number [prefixlen] gives; the group address behind the prefix is not counted. *)
Theorem C122_mdt_refuted : (forall oc x buf b n buf', v4_len (mdt4_addr x) <= 32 -> mdt4_set oc x buf = Ok ((b, n), buf') -> b <> mdt4_prefixlen x) /\
  (forall oc x buf b n buf', v6_len (mdt6_addr x) <= 128 -> mdt6_set oc x buf = Ok ((b, n), buf') -> b <> mdt6_prefixlen x).
Proof. exact (conj mdt4_never mdt6_never). Qed.
Print Assumptions C122_mdt_refuted.
(** What is true of them: 32 or 128 bits are missing. *)
Theorem C122_mdt : written_as mdt4_set mdt4_prefixlen 32 (fun x => v4_len (mdt4_addr x) <= 32) /\ written_as mdt6_set mdt6_prefixlen 128 (fun x => v6_len (mdt6_addr x) <= 128) /\
  read_as mdt4_extract mdt4_prefixlen 32 /\ read_as mdt6_extract mdt6_prefixlen 128 /\ read_exact mdt4_extract mdt4_prefixlen 32 /\ read_exact mdt6_extract mdt6_prefixlen 128.
Proof. exact (conj mdt4_written (conj mdt6_written (conj mdt4_read (conj mdt6_read (conj mdt4_exact mdt6_exact))))). Qed.
Print Assumptions C122_mdt.

(** 10.1.2.0/23 in VPN 1:2 with label 100: 111 bits in 14 octets, written and read back. *)
Example C122_vpn : let x := mkLab (mkWRD (mkV4 (0x0a010200) 23) (mkRD 1 2)) [100] in
  labeled_prefixlen (withrd_prefixlen v4_prefixlen) x = 111 /\
  (exists buf', labeled_set (withrd_set v4_to_bits) true x (repeat 0 14) = Ok ((111, 14%nat), buf') /\ labeled_extract (withrd_extract v4_from_bits) true 111 buf' = Ok (x, 14%nat)).
Proof. split; [reflexivity|]. eexists. split; vm_compute; reflexivity. Qed.
(** An MDT route of 32 bits writes 64. *)
Example C122_mdt_case : exists buf', mdt4_set true (mkMdt4 (mkV4 0x0a010203 32) 0xe8000001) (repeat 0 8) = Ok ((64, 8%nat), buf').
Proof. eexists. vm_compute. reflexivity. Qed.
(** Without overflow checks eleven labels make 288 bits and write the octet 32. *)
Example C122_wraps : exists buf', labeled_set v4_to_bits false (mkLab (mkV4 0x0a000000 24) (repeat 100 11)) (repeat 0 40) = Ok ((32, 36%nat), buf').
Proof. eexists. vm_compute. reflexivity. Qed.

(** * C123 *)

Theorem C123_multicast : forall p, v6_wf p -> (v6_is_multicast p = true <-> member 128 8 (255 * 2 ^ 120) (v6_addr p)).
Proof. exact v6_multicast. Qed.
Print Assumptions C123_multicast.
Example C123_in : v6_is_multicast (mkV6 (0xff02 * 2 ^ 112 + 1) 128) = true.
Proof. vm_compute. reflexivity. Qed.
Example C123_out : v6_is_multicast (mkV6 (0xfeff * 2 ^ 112 + 1) 128) = false /\ v6_wf (mkV6 (0xfeff * 2 ^ 112 + 1) 128).
Proof. split; [vm_compute; reflexivity|]. split; vm_compute; intuition congruence. Qed.

(** * C124 *)

Theorem C124_slice : forall T (buf : list T) a b s, util_slice buf a b = Ok s <-> exists l r, buf = l ++ s ++ r /\ length l = a /\ b = (a + length s)%nat.
Proof. exact @slice_exact. Qed.
Print Assumptions C124_slice.
Theorem C124_fails : forall T (buf : list T) a b, util_slice buf a b = Err EInsufficient <-> (b < a \/ length buf < b)%nat.
Proof. exact @slice_fails. Qed.
Print Assumptions C124_fails.
Example C124_case : util_slice [1; 2; 3; 4] 1 3 = Ok [2; 3] /\ util_slice [1; 2; 3; 4] 3 1 = Err EInsufficient /\ util_slice [1; 2; 3; 4] 2 5 = Err EInsufficient.
Proof. vm_compute. auto. Qed.
