(** Messages of which the end is missing. *)
From Verif Require Import Base M_Util S_Wire M_Prefix M_Nlri S_Nlri M_Cap S_Cap M_Open S_Open M_Session M_Addrs S_Addrs M_Attr S_Attr M_Update S_Update.

(** the number of octets of an OPEN up to and with the parameters that carry these capabilities *)
Definition open_upto (v : list bgpcap) : nat := (10 + length (params_wire v))%nat.
(** [k] octets of the OPEN of [m] end with a whole parameter, or one octet into the next *)
Definition between_params (m : openMsg) (k : nat) : Prop := exists v w, op_caps m = v ++ w /\ (k = open_upto v \/ k = S (open_upto v)).
(** [m] with the first of its capabilities only *)
Definition with_caps (m : openMsg) (v : list bgpcap) : openMsg := mkOpen (op_as m) (op_hold m) (op_rid m) v.
(** the number of octets of an UPDATE before its attributes, and before its announced routes *)
Definition upd_attrs_at (p : params) (m : update) : nat := (4 + length (nlri_wire p (u_withdraws m)))%nat.
Definition upd_routes_at (p : params) (m : update) : nat := (upd_attrs_at p m + length (attrs_wire p (u_attrs m)))%nat.
(** [m] with other announced routes *)
Definition with_routes (m : update) (a : addrs) : update := mkUpd a (u_withdraws m) (u_attrs m).
(** the routes [a] of a session, of which [k] octets are left, begin with the routes [b] and then ... *)
Inductive left_whole : addrs -> addrs -> nat -> Prop :=   (* ... nothing *)
| lw4 v w : left_whole (IPV4U (v ++ w)) (IPV4U v) (length (items_wire v4_wire v))
| lw6 v w : left_whole (IPV6U (v ++ w)) (IPV6U v) (length (items_wire v6_wire v))
| lw4p v w : left_whole (IPV4UP (v ++ w)) (IPV4UP v) (length (pid_items_wire v4_wire v))
| lw6p v w : left_whole (IPV6UP (v ++ w)) (IPV6UP v) (length (pid_items_wire v6_wire v)).
Inductive left_pathid : addrs -> addrs -> nat -> Prop :=   (* ... one to four octets of a path id *)
| lp4 v x w i : (1 <= i <= 4)%nat -> left_pathid (IPV4UP (v ++ x :: w)) (IPV4UP v) (length (pid_items_wire v4_wire v) + i)
| lp6 v x w i : (1 <= i <= 4)%nat -> left_pathid (IPV6UP (v ++ x :: w)) (IPV6UP v) (length (pid_items_wire v6_wire v) + i).
Inductive left_prefix : addrs -> nat -> Prop :=   (* ... a part of a prefix, and the path id if there is one *)
| lx4 v x w i : (1 <= i <= prefix_octets (v4_len x))%nat -> left_prefix (IPV4U (v ++ x :: w)) (length (items_wire v4_wire v) + i)
| lx6 v x w i : (1 <= i <= prefix_octets (v6_len x))%nat -> left_prefix (IPV6U (v ++ x :: w)) (length (items_wire v6_wire v) + i)
| lx4p v x w i : (1 <= i <= prefix_octets (v4_len (pid_nlri x)))%nat -> left_prefix (IPV4UP (v ++ x :: w)) (length (pid_items_wire v4_wire v) + 4 + i)
| lx6p v x w i : (1 <= i <= prefix_octets (v6_len (pid_nlri x)))%nat -> left_prefix (IPV6UP (v ++ x :: w)) (length (pid_items_wire v6_wire v) + 4 + i).
(** the session tells from the [k] octets left of the routes [a] whether there are path identifiers (always so without the guess of [fuzzy_pathid]) *)
Definition told (p : params) (a : addrs) (k : nat) : Prop :=
  let '(afi, sf) := get_afi_safi a in addpath_family afi sf = true -> use_pathid p afi sf (firstn k (addrs_wire a)) = with_pathid a.
