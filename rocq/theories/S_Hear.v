(** What of a session has an influence on what is read and written. *)
From Verif Require Import Base M_Util M_Cap M_Open M_Session.

(** the address families in which the routes may have path identifiers: AFI and SAFI *)
Definition pid_families : list (N * N) :=
  [(1, 1); (1, 2); (1, 4); (1, 66); (1, 128); (1, 129); (2, 1); (2, 2); (2, 4); (2, 66); (2, 128); (2, 129)].
(** Two sessions which hear alike: the same transport and the same size of AS numbers; path identifiers are expected in the same families,
    and either both or none look for them in the other families, if there are others. *)
Definition hear_alike (p p' : params) : Prop :=
  sp_mode p = sp_mode p' /\ sp_as32 p = sp_as32 p' /\
  forall afi sf, In (afi, sf) pid_families ->
    check_addpath_receive p afi sf = check_addpath_receive p' afi sf /\
    (check_addpath_receive p afi sf = false -> sp_fuzzy p = sp_fuzzy p').
(** Two sessions which speak alike. *)
Definition speak_alike (p p' : params) : Prop := sp_mode p = sp_mode p' /\ sp_as32 p = sp_as32 p'.
