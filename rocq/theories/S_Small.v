(** What C122 says of a kind of route: the number given by [prefixlen] is the length octet and tells how many octets follow. *)
From Verif Require Import Base M_Nlri.

(** [k] more bits than [len] says are written *)
Definition written_as {T} (st : setter T) (len : T -> N) (k : N) (P : T -> Prop) : Prop :=
  forall oc x buf b n buf', P x -> st oc x buf = Ok ((b, n), buf') -> b = (len x + k) mod 256 /\ N.of_nat n = (len x + k + 7) / 8.
Definition read_as {T} (ex : extractor T) (len : T -> N) (k : N) : Prop :=
  forall oc bits buf x n, bits < 256 -> ex oc bits buf = Ok (x, n) -> (len x + k) mod 256 = bits.
(** with overflow checks nothing is lost *)
Definition read_exact {T} (ex : extractor T) (len : T -> N) (k : N) : Prop :=
  forall bits buf x n, bits < 256 -> ex true bits buf = Ok (x, n) -> len x + k = bits.
