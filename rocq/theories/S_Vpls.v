(** Specification of VPLS (RFC 4761 3.2.2) and MDT (RFC 6037 7.1.1 and the library's IPv6 analogue)
    NLRI. *)
From Verif Require Import Base M_Util M_Prefix S_Prefix M_Nlri S_Nlri M_Vpls.

(** RD, VE id, VE block offset, VE block size, label base(s) *)
Definition l2a_wire (x : addrL2) : list N :=
  rd_wire (l2a_rd x) ++ be_bytes 2 (l2a_site x) ++ be_bytes 2 (l2a_offset x) ++
  be_bytes 2 (l2a_range x) ++ stack_wire (l2a_labels x).
(** fields in range; a recoverable label stack whose bit length fits one octet *)
Definition l2a_wf (x : addrL2) : Prop :=
  rd_wf (l2a_rd x) /\ l2a_site x < 65536 /\ l2a_offset x < 65536 /\ l2a_range x < 65536 /\
  stack_wf (l2a_labels x) /\ 24 * N.of_nat (length (l2a_labels x)) < 256.
(** an item preceded by its two-octet length in octets *)
Definition long_wire {T} (W : T -> list N) (x : T) : list N := be_bytes 2 (N.of_nat (length (W x))) ++ W x.

Definition l2_wf (x : bgpL2) : Prop :=
  rd_wf (l2_rd x) /\ l2_site x < 65536 /\ l2_offset x < 65536 /\ l2_range x < 65536.
Definition l2_wire (x : bgpL2) : list N :=
  rd_wire (l2_rd x) ++ be_bytes 2 (l2_site x) ++ be_bytes 2 (l2_offset x) ++ be_bytes 2 (l2_range x).

(** MDT: bit length of everything, prefix octets, group *)
Definition mdt4_wire (x : mdtV4) : N * list N :=
  (v4_len (mdt4_addr x) + 32, snd (v4_wire (mdt4_addr x)) ++ be_bytes 4 (mdt4_group x)).
Definition mdt6_wire (x : mdtV6) : N * list N :=
  (v6_len (mdt6_addr x) + 128, snd (v6_wire (mdt6_addr x)) ++ be_bytes 16 (mdt6_group x)).
Definition mdt4_wf (x : mdtV4) : Prop := v4_wf (mdt4_addr x) /\ mdt4_group x < 2 ^ 32.
Definition mdt6_wf (x : mdtV6) : Prop := v6_wf (mdt6_addr x) /\ mdt6_group x < 2 ^ 128.
Definition mdt4_trunc (x : mdtV4) : mdtV4 := mkMdt4 (v4_trunc (mdt4_addr x)) (mdt4_group x).
Definition mdt6_trunc (x : mdtV6) : mdtV6 := mkMdt6 (v6_trunc (mdt6_addr x)) (mdt6_group x).
