(** The flags of received attributes (RFC 4271 sections 4.3 and 6.3). *)
From Verif Require Import Base M_Util M_Prefix M_Nlri M_Cap M_Open M_Session M_Addrs M_Attr S_Attr S_Update.

(** the same type and payload; flags that may differ in every bit if the type is one the library knows. The bit for the
    extended length may differ, so the one may have a length of one octet and the other of two. *)
Definition but_for_flags (x y : N * N * list N) : Prop :=
  let '(f, tc, d) := x in let '(f', tc', d') := y in tc' = tc /\ d' = d /\ (In tc known_codes \/ f' = f).
