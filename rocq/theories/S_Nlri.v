(** Specification of NLRI on the wire (RFC 4271 4.3, RFC 8277, RFC 4364, RFC 7911),
    independent of the code's algorithms. *)
From Verif Require Import Base M_Util M_Prefix S_Prefix M_Nlri.

(** Octets needed for [len] bits. *)
Definition prefix_octets (len : N) : nat := N.to_nat ((len + 7) / 8).

(** An item on the wire: its length in bits, and its octets. *)
Definition v4_wire (p : addrV4) : N * list N :=
  (v4_len p, firstn (prefix_octets (v4_len p)) (be_bytes 4 (v4_addr p))).
Definition v6_wire (p : addrV6) : N * list N :=
  (v6_len p, firstn (prefix_octets (v6_len p)) (be_bytes 16 (v6_addr p))).

(** A list of items: each preceded by its one-octet bit length. *)
Definition items_wire {T} (W : T -> N * list N) (v : list T) : list N :=
  flat_map (fun x => fst (W x) :: snd (W x)) v.

(** The same with a 4-octet path identifier before each item (RFC 7911). *)
Definition pid_items_wire {T} (W : T -> N * list N) (v : list (withPathId T)) : list N :=
  flat_map (fun x => be_bytes 4 (pid x) ++ fst (W (pid_nlri x)) :: snd (W (pid_nlri x))) v.

(** The prefix with every bit beyond the last transmitted octet cleared. *)
Definition keep_octets (w : N) (len a : N) : N :=
  let sh := w - 8 * N.of_nat (prefix_octets len) in a / 2 ^ sh * 2 ^ sh.
Definition v4_trunc (p : addrV4) : addrV4 := mkV4 (keep_octets 32 (v4_len p) (v4_addr p)) (v4_len p).
Definition v6_trunc (p : addrV6) : addrV6 := mkV6 (keep_octets 128 (v6_len p) (v6_addr p)) (v6_len p).

(** Route distinguishers: two 32-bit halves, network order. *)
Definition rd_wf (r : bgpRD) : Prop := rdh r < 2 ^ 32 /\ rdl r < 2 ^ 32.
Definition rd_wire (r : bgpRD) : list N := be_bytes 4 (rdh r) ++ be_bytes 4 (rdl r).

(** Label stacks (RFC 8277 2.1): 20-bit label, 3 TC bits (zero), bottom-of-stack bit. *)
Fixpoint stack_wire (ls : list N) : list N :=
  match ls with
  | [] => []
  | [l] => be_bytes 3 (l * 16 + 1)
  | l :: r => be_bytes 3 (l * 16) ++ stack_wire r
  end.
(** Labels the decoder takes as the end of the stack whatever the S bit says:
    withdraw 0x80000, explicit null 0 and 2, implicit null 3. *)
Definition stack_ending (l : N) : Prop := In l [524288; 0; 2; 3].
(** A stack that can be recovered: not empty, 20-bit labels, stack-ending labels
    only at the bottom. *)
Definition stack_wf (ls : list N) : Prop :=
  ls <> [] /\ Forall (fun l => l < 2 ^ 20) ls /\ Forall (fun l => ~ stack_ending l) (removelast ls).

(** Labeled and route-distinguished items: the length counts everything. *)
Definition labeled_wire {T} (W : T -> N * list N) (x : labeled T) : N * list N :=
  (24 * N.of_nat (length (lab_labels x)) + fst (W (lab_prefix x)),
   stack_wire (lab_labels x) ++ snd (W (lab_prefix x))).
Definition withrd_wire {T} (W : T -> N * list N) (x : withRd T) : N * list N :=
  (64 + fst (W (wrd_prefix x)), rd_wire (wrd_rd x) ++ snd (W (wrd_prefix x))).

Definition labeled_wf {T} (wf : T -> Prop) (x : labeled T) : Prop :=
  stack_wf (lab_labels x) /\ wf (lab_prefix x).
Definition withrd_wf {T} (wf : T -> Prop) (x : withRd T) : Prop :=
  rd_wf (wrd_rd x) /\ wf (wrd_prefix x).
(** The total bit length fits the length octet. *)
Definition fits {T} (W : T -> N * list N) (x : T) : Prop := fst (W x) < 256.

(** The label stack at the front of [buf] is complete: [k] entries, inside the announced
    [bits] and inside the buffer, ending at the announced length, at a bottom-of-stack
    bit or at a stack-ending label. *)
Definition entry_ends (b0 b1 b2 : N) : Prop := stack_ending (be_val [b0; b1; b2] / 16) \/ N.odd b2 = true.
Inductive stack_complete : N -> list N -> nat -> Prop :=
| sc_empty buf : stack_complete 0 buf 0
| sc_last bits b0 b1 b2 rest : 24 <= bits -> entry_ends b0 b1 b2 ->
    stack_complete bits (b0 :: b1 :: b2 :: rest) 1
| sc_more bits b0 b1 b2 rest k : 24 <= bits -> ~ entry_ends b0 b1 b2 ->
    stack_complete (bits - 24) rest k -> stack_complete bits (b0 :: b1 :: b2 :: rest) (S k).

(** The label stack as a build without overflow checks reads it: the count of
    remaining bits is taken modulo 256. *)
Inductive stack_read : N -> list N -> nat -> Prop :=
| sr_empty buf : stack_read 0 buf 0
| sr_last bits b0 b1 b2 rest : 0 < bits -> entry_ends b0 b1 b2 ->
    stack_read bits (b0 :: b1 :: b2 :: rest) 1
| sr_more bits b0 b1 b2 rest k : 0 < bits -> ~ entry_ends b0 b1 b2 ->
    stack_read ((bits + 232) mod 256) rest k -> stack_read bits (b0 :: b1 :: b2 :: rest) (S k).

(** No bits set beyond the prefix length. *)
Definition v4_clean (p : addrV4) : Prop := normalised 32 (v4_len p) (v4_addr p).
Definition v6_clean (p : addrV6) : Prop := normalised 128 (v6_len p) (v6_addr p).

(** [n] octets of [l] are the length octet and the octets it announces. *)
Definition announced (l : list N) (n : nat) : Prop :=
  exists bits rest, l = bits :: rest /\ n = S (prefix_octets bits) /\ (n <= length l)%nat.
