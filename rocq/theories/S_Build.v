(** Vocabulary of C108 and C109. *)
From Verif Require Import Base M_Cap M_Open M_Session M_Attr S_Addrs.

(** the families whose entries can be built: all but flow specifications *)
Definition plain_family (s : safi) : Prop := s <> SafiIPv4fu /\ s <> SafiIPv6fu /\ s <> SafiVPNv4fu.
(** the same elements, whatever their order and number *)
Definition same_elements {A} (v w : list A) : Prop := forall x, In x v <-> In x w.
(** an announcement is sent with payload [w] from a buffer, and received as [y]; or sent with payload [w] *)
Definition sent (oc : bool) (p : params) (x : attr) (buf w : list N) : Prop :=
  exists n b, attr_encode oc p x buf = Ok (n, [144; 14] ++ be_bytes 2 (N.of_nat (length w)) ++ w ++ b).
Definition received (oc : bool) (p : params) (w : list N) (y : attr) : Prop := attr_decode oc p 14 144 (length w) w = Ok y.
(** there is room for it *)
Definition room_for (w buf : list N) : Prop := N.of_nat (length w) <= 65535 /\ (4 + length w <= length buf)%nat.
