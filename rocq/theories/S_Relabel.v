(** Routes with one label entry (RFC 8277 sections 2.2 and 2.4). *)
From Verif Require Import Base.

(** the families whose routes have labels before the prefix *)
Definition label_families : list (N * N) := [(1, 4); (1, 128); (1, 129); (2, 4); (2, 128); (2, 129)].
