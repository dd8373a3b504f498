(** What a decoder leaves in the object it decodes into. *)
From Verif Require Import Base S_Wire M_Cap M_Open M_Addrs M_Attr M_Update M_State.

(** the outcome and the object afterwards, as one result *)
Definition finished {S A} (run : res A * S) : res S := match fst run with Ok _ => Ok (snd run) | Err e => Err e | Panic => Panic | OutOfFuel => OutOfFuel end.
Definition failed {S A} (run : res A * S) : Prop := is_ok (fst run) = false.
(** the body of an UPDATE (RFC 4271 4.3) *)
Definition upd_body (w a n : list N) : list N := be_bytes 2 (N.of_nat (length w)) ++ w ++ be_bytes 2 (N.of_nat (length a)) ++ a ++ n.
(** the message [m] with the withdrawn routes of [r] and its attributes added *)
Definition half_done (m r : update) : update := mkUpd (u_updates m) (u_withdraws r) (u_attrs m ++ u_attrs r).
(** An OPEN whose fixed part is complete: from there on the old contents are gone. *)
Definition begun (buf : list N) : Prop := (10 <= length buf)%nat /\ nth_error buf 0 = Some 4.
Definition open_head (m : openMsg) (buf : list N) : Prop :=
  op_as m = be_val (sub buf 1 3) /\ op_hold m = be_val (sub buf 3 5) /\ op_rid m = be_val (sub buf 5 9).
