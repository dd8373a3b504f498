(** The bits that fill the last octet of a prefix (RFC 4271 section 4.3: "the value of trailing bits is irrelevant"). *)
From Verif Require Import Base.

(** [s] and [s'], octets of a prefix of [bits] bits, have those bits in common *)
Definition same_bits (bits : N) (s s' : list N) : Prop :=
  length s = length s' /\ be_val s / 2 ^ (8 * N.of_nat (length s) - bits) = be_val s' / 2 ^ (8 * N.of_nat (length s) - bits).
