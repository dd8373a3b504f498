(** Builds with and without overflow checks. *)
From Verif Require Import Base M_Util M_Cap M_Open M_Session M_Attr M_Update M_Peer.

(** [r], the answer of a build with overflow checks, and [s], that of one without: the same unless the first stops *)
Definition agrees {A} (r s : res A) : Prop := r = Panic \/ r = s.
(** what has happened and how it ended; a build that stops has done the same until then *)
Definition same_until {A} (r s : list A * res unit) : Prop := r = s \/ snd r = Panic /\ exists l, fst s = fst r ++ l.
(** an answer with the state it leaves *)
Definition agrees_in {A S} (r s : res A * S) : Prop := fst r = Panic \/ r = s.
