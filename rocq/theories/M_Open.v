(** Model of /repo/src/message/open.rs and notification.rs. *)
From Verif Require Import Base M_Util M_Cap.

(** open.rs:12-22 *)
Record openMsg := mkOpen { op_as : N; op_hold : N; op_rid : N; op_caps : list bgpcap }.

(** The 16-bit field of [#[repr(C, packed)] struct BgpOpenHead] (open.rs:24-30)
    overlaid on two bytes. Simplified: little-endian hosts only. *)
Definition le16 (b0 b1 : N) : N := b0 + 256 * b1.
(** open.rs:24-30: the other direction *)
Definition le16_bytes (n : N) : list N := [n mod 256; (n / 256) mod 256].

(** open.rs:58-72, the inner loop of one optional parameter. Returns the new
    position and the capabilities pushed. *)
Fixpoint open_caps_loop (fuel : nat) (buf : list N) (pos optlen : nat) : res (list bgpcap * nat) :=
  match optlen with
  | O => Ok ([], pos)
  | _ =>
    match fuel with
    | O => OutOfFuel
    | S f =>
      s <- eslice buf pos (pos + optlen) ;;
      ' (mc, used) <- from_buffer s ;;
      (* [optlen -= maybe_cap.1] underflow; proved unreachable *)
      if Nat.ltb optlen used then Panic else
      ' (v, pos') <- open_caps_loop f buf (pos + used) (optlen - used) ;;
      match mc with
      | inl cap => Ok (cap :: v, pos')
      | inr _ => Ok (v, pos')
      end
    end
  end.

(** open.rs:50-74, the outer loop. *)
Fixpoint open_params_loop (fuel : nat) (buf : list N) (pos : nat) : res (list bgpcap) :=
  if Nat.ltb (pos + 1) (length buf) then
    match fuel with
    | O => OutOfFuel
    | S f =>
      t <- idx buf pos ;;
      if negb (t =? 2) then Err EOther else
      ol <- idx buf (pos + 1) ;;
      ' (v, pos') <- open_caps_loop (length buf) buf (pos + 2) (N.to_nat ol) ;;
      v' <- open_params_loop f buf pos' ;;
      Ok (v ++ v')
    end
  else Ok [].

(** open.rs:33-77. [self] is the previous content of the object (only used by
    the code as a place to write to; kept as an argument so that this is a
    theorem, not an assumption). *)
Definition open_decode (self : openMsg) (buf : list N) : res openMsg :=
  if Nat.ltb (length buf) 10 then Err EInsufficient else
  v <- idx buf 0 ;;
  if negb (v =? 4) then Err EOther else
  ptr <- eslice buf 1 (length buf) ;;
  a0 <- idx ptr 0 ;; a1 <- idx ptr 1 ;;
  h0 <- idx ptr 2 ;; h1 <- idx ptr 3 ;;
  r0 <- idx ptr 4 ;; r1 <- idx ptr 5 ;; r2 <- idx ptr 6 ;; r3 <- idx ptr 7 ;;
  let self := mkOpen (ntoh16 (le16 a0 a1)) (ntoh16 (le16 h0 h1)) (ip4_new r0 r1 r2 r3) [] in
  caps <- open_params_loop (length buf) buf 10 ;;
  Ok (mkOpen (op_as self) (op_hold self) (op_rid self) (op_caps self ++ caps)).

(** open.rs:95-98: the sum is a u32 (not modelled: a sum of 2^32 or more). *)
Definition open_caplen (caps : list bgpcap) : N :=
  cast 8 (fold_left (fun sum i => sum + N.of_nat (bytes_len i) + 2) caps 0).

(** open.rs:99-106 *)
Fixpoint open_fill_caps (caps : list bgpcap) (pos : nat) : Enc nat :=
  match caps with
  | [] => eret pos
  | cp :: caps' =>
      let caplen := bytes_len cp in
      set_idx pos 2 ;;;
      set_idx (pos + 1) (cast 8 (N.of_nat caplen)) ;;;
      on_eslice (pos + 2) (caplen + pos + 2) (fill_buffer cp) ;;;
      open_fill_caps caps' (pos + (2 + caplen))
  end.

(** open.rs:78-108 *)
Definition open_encode (m : openMsg) : Enc nat :=
  len <~ elen ;;
  if Nat.ltb len 10 then eerr EInsufficient else
  on_eslice 1 len (eret tt) ;;;
  set_idx 0 4 ;;;
  write_at 1 (le16_bytes (ntoh16 (if op_as m <? 65536 then cast 16 (op_as m) else 23456))) ;;;
  write_at 3 (le16_bytes (ntoh16 (op_hold m))) ;;;
  write_at 5 (octets4 (op_rid m)) ;;;
  set_idx 9 (open_caplen (op_caps m)) ;;;
  open_fill_caps (op_caps m) 10.

(** open.rs:111-118 *)
Definition open_new : openMsg := mkOpen 0 180 (ip4_new 127 0 0 1) [].

(** notification.rs:12-19 *)
Record notifMsg := mkNotif { nt_code : N; nt_sub : N; nt_data : N }.

(** notification.rs:137-150 *)
Definition notif_decode (self : notifMsg) (buf : list N) : res notifMsg :=
  if Nat.ltb (length buf) 2 then Err EOther else
  c <- idx buf 0 ;; s <- idx buf 1 ;;
  let d := nt_data self in
  d <- (if Nat.eqb (length buf) 3 then idx buf 2 else Ok d) ;;
  d <- (if Nat.ltb 3 (length buf) then
          b2 <- idx buf 2 ;; b3 <- idx buf 3 ;; Ok (N.lor (N.shiftl b2 8) b3)
        else Ok d) ;;
  Ok (mkNotif c s d).

(** notification.rs:151-160 *)
Definition notif_encode (m : notifMsg) : Enc nat :=
  len <~ elen ;;
  if Nat.ltb len 4 then eerr EOther else
  set_idx 0 (nt_code m) ;;;
  set_idx 1 (nt_sub m) ;;;
  set_idx 2 (cast 8 (N.shiftr (nt_data m) 8)) ;;;
  set_idx 3 (N.land (nt_data m) 255) ;;;
  eret 4%nat.

(** notification.rs:22-28 *)
Definition notif_new : notifMsg := mkNotif 0 0 0.
