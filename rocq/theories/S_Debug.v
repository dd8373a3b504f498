(** What C90 and C91 are about. *)
From Verif Require Import Base S_Serde2 M_Attr M_Addrs M_Update S_Text2.

(** an UPDATE message whose numbers fit the fields of the Rust types *)
Definition update_any (u : update) : Prop := addrs_any (u_updates u) /\ addrs_any (u_withdraws u) /\ Forall attr_any (u_attrs u).
(** what the readable text of an attribute shows: all but the opaque value of an mLDP tunnel *)
Definition shown (a : attr) : attr := match a with APMSITunnel t => APMSITunnel (no_opaque t) | _ => a end.
(** printable ASCII without quotation mark and backslash: [Debug] of such a string only adds the quotation marks *)
Definition plain (c : N) : Prop := 32 <= c < 127 /\ c <> 34 /\ c <> 92.
