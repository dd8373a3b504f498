(** Specifications of wire formats, independent of the code's algorithms. *)
From Verif Require Import Base M_Util.

(** [bs] is the [k]-octet network-order representation of [s]. *)
Definition net_repr (k : nat) (s : N) (bs : list N) : Prop :=
  length bs = k /\ bytes_ok bs /\ be_val bs = s.

(** Range of Rust's IpAddr. *)
Definition ip_wf (a : ipaddr) : Prop :=
  match a with IPv4 a => a < 2 ^ 32 | IPv6 a => a < 2 ^ 128 end.

(** Network-order octets of an address. *)
Definition ip_bytes (a : ipaddr) : list N :=
  match a with IPv4 a => be_bytes 4 a | IPv6 a => be_bytes 16 a end.
