(** Specification of UPDATE messages (RFC 4271 4.3). *)
From Verif Require Import Base M_Util S_Wire M_Nlri S_Nlri M_Cap M_Open M_Session M_Addrs S_Addrs M_Attr S_Attr M_Update.

(** the lists that belong to the session's own address family *)
Definition session_list (p : params) (a : addrs) : bool :=
  match sp_mode p, a with
  | ModeV4, IPV4U _ | ModeV4, IPV4UP _ | ModeV6, IPV6U _ | ModeV6, IPV6UP _ => true
  | _, _ => false
  end.
Definition empty_list (p : params) : addrs :=
  match sp_mode p with
  | ModeV4 => if check_addpath_receive p 1 1 then IPV4UP [] else IPV4U []
  | ModeV6 => if check_addpath_receive p 2 1 then IPV6UP [] else IPV6U []
  end.
Definition nlri_wire (p : params) (a : addrs) : list N := if session_list p a then addrs_wire a else [].
(** what is understood; no list is understood as the empty list *)
Definition nlri_norm (p : params) (a : addrs) : addrs := if session_list p a then addrs_trunc a else empty_list p.

Definition attrs_wire (p : params) (v : list attr) : list N := flat_map (attr_full p) v.
(** length of withdrawn routes, withdrawn routes, length of path attributes, path attributes, NLRI *)
Definition update_wire (p : params) (m : update) : list N :=
  be_bytes 2 (N.of_nat (length (nlri_wire p (u_withdraws m)))) ++ nlri_wire p (u_withdraws m) ++
  be_bytes 2 (N.of_nat (length (attrs_wire p (u_attrs m)))) ++ attrs_wire p (u_attrs m) ++
  nlri_wire p (u_updates m).
(** messages that can be sent: no list but of the session's family, values of the right widths, and
    lengths that fit *)
Definition list_ok (p : params) (a : addrs) : Prop :=
  a = ANone \/ (session_list p a = true /\ addrs_wf a /\ session_form p a).
Definition attr_ok (p : params) (a : attr) : Prop :=
  attr_wf p a /\ attr_rt p a /\ N.of_nat (length (attr_wire p a)) <= len_max (attr_flags a).
Definition update_ok (p : params) (m : update) : Prop :=
  list_ok p (u_updates m) /\ list_ok p (u_withdraws m) /\ Forall (attr_ok p) (u_attrs m) /\
  N.of_nat (length (nlri_wire p (u_withdraws m))) <= 65535 /\ N.of_nat (length (attrs_wire p (u_attrs m))) <= 65535.
Definition update_norm (p : params) (m : update) : update :=
  mkUpd (nlri_norm p (u_updates m)) (nlri_norm p (u_withdraws m)) (map attr_trunc (u_attrs m)).

(** a received attribute area: complete attributes (flags, type, payload) *)
Definition frames_wire (fs : list (N * N * list N)) : list N := flat_map (fun '(f, tc, body) => frame f tc body) fs.
Definition frame_ok (x : N * N * list N) : Prop :=
  let '(f, tc, body) := x in f < 256 /\ N.of_nat (length body) <= len_max f.

(** [r] is the content of the first attribute built by [mk] in [l] *)
Definition first_of {T} (mk : T -> attr) (l : list attr) (r : option T) : Prop :=
  match r with
  | Some x => exists l1 l2, l = l1 ++ mk x :: l2 /\ Forall (fun b => forall y, b <> mk y) l1
  | None => Forall (fun b => forall y, b <> mk y) l
  end.
(** what an attribute area may end with that is not a complete attribute: one octet, or the flags and
    type of an attribute with a one-octet length *)
Definition cut_header (t : list N) : Prop := (exists f, t = [f]) \/ (exists f tc, t = [f; tc] /\ fl_extended f = false).
