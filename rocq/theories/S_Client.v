(** Specification of keepalives (RFC 4271, 4.2 and 4.4). *)
From Verif Require Import Base M_Util M_Cap M_Open M_Session M_Client S_Open.

(** the hold time of a session is the smaller of the two proposed *)
Definition agreed_hold (own peer : N) : N := N.min own peer.
Definition keepalive_wire : list N := repeat 255 16 ++ [0; 19; 4].
(** a KEEPALIVE leaves at second [t] *)
Definition sends_at (p : params) (t : N) : Prop :=
  exists n now log, keepalive_loop p n = Ok (now, log) /\ In (t, keepalive_wire) log.
(** a peer with hold time [h] never finds its hold timer expired *)
Definition kept_up (p : params) (h : N) : Prop := forall now, exists t, sends_at p t /\ t <= now /\ now < t + h.
(** at some time the last KEEPALIVE was [h] seconds ago or more *)
Definition expires (p : params) (h : N) : Prop := exists now, forall t, sends_at p t -> t + h <= now \/ now < t.
(** never two KEEPALIVEs in one second *)
Definition paced (p : params) : Prop := forall n now log, keepalive_loop p n = Ok (now, log) -> NoDup (map fst log).
