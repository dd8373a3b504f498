(** Specification of prefixes as sets of addresses. *)
From Verif Require Import Base M_Prefix.

(** [a] and [b] ([w]-bit addresses) agree on their first (most significant) [p] bits. *)
Definition agree (w p a b : N) : Prop :=
  forall i, w - p <= i -> i < w -> N.testbit a i = N.testbit b i.

(** Ranges guaranteed by the Rust types plus a legal prefix length. *)
Definition v4_wf (p : addrV4) : Prop := v4_addr p < 2 ^ 32 /\ v4_len p <= 32.
Definition v6_wf (p : addrV6) : Prop := v6_addr p < 2 ^ 128 /\ v6_len p <= 128.
Definition mac_wf (m : mac) : Prop := length m = 6%nat /\ bytes_ok m.
Definition macp_wf (p : addrMac) : Prop := mac_wf (mc_addr p) /\ mc_len p <= 48.

(** Numeric value of a MAC address ([m] is stored least significant byte first). *)
Definition mac_val (m : mac) : N := be_val (rev m).

(** No host bits set. *)
Definition normalised (w p a : N) : Prop := forall i, i < w - p -> N.testbit a i = false.

(** Address [x] is one of the addresses of the prefix [a/p]. *)
Definition member (w p a x : N) : Prop := x < 2 ^ w /\ agree w p a x.

(** Set inclusion of prefixes. *)
Definition covers (w ps s pa a : N) : Prop := forall x, member w pa a x -> member w ps s x.

(** What [contains] must answer on prefixes [s/ls] and [a/la]: no panic, only true
    inclusions, and every inclusion between prefixes of different lengths or
    without host bits. *)
Definition contains_spec (w ls s la a : N) (r : res bool) : Prop :=
  exists b, r = Ok b /\ (b = true -> covers w ls s la a) /\
    (ls <> la \/ (normalised w ls s /\ normalised w la a) -> covers w ls s la a -> b = true).

(** Legal prefixes of any kind. *)
Definition net_wf (n : bgpnet) : Prop :=
  match n with NetV4 p => v4_wf p | NetV6 p => v6_wf p | NetMac p => macp_wf p end.
Definition net_len (n : bgpnet) : N :=
  match n with NetV4 p => v4_len p | NetV6 p => v6_len p | NetMac p => mc_len p end.

(** kind, width and numeric value *)
Inductive kind := KV4 | KV6 | KMac.
Definition net_kind (n : bgpnet) : kind := match n with NetV4 _ => KV4 | NetV6 _ => KV6 | NetMac _ => KMac end.
Definition net_bits (n : bgpnet) : N := match n with NetV4 _ => 32 | NetV6 _ => 128 | NetMac _ => 48 end.
Definition net_val (n : bgpnet) : N :=
  match n with NetV4 p => v4_addr p | NetV6 p => v6_addr p | NetMac p => mac_val (mc_addr p) end.
