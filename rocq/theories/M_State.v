(** What [decode_from(&mut self, ..)] leaves in [self], also when it fails: /repo/src/message/open.rs, notification.rs and
    update/mod.rs once more, with the assignments to [self] where they stand. *)
From Verif Require Import Base M_Util M_Cap M_Open M_Session M_Prefix M_Nlri M_Vpls M_Mvpn M_Evpn M_Flowspec M_Addrs M_Attr M_Update.

(** a computation with [self]: the outcome and [self] afterwards (message/mod.rs:24: [&mut self]) *)
Definition St (S A : Type) := S -> res A * S.
(** message/mod.rs:24: an expression that does not touch [self] *)
Definition sdo {S A} (r : res A) : St S A := fun s => (r, s).
(** message/mod.rs:24: an assignment to a part of [self] *)
Definition sset {S} (f : S -> S) : St S unit := fun s => (Ok tt, f s).
(** message/mod.rs:24: statements in sequence; [?] and panics leave with [self] as it is *)
Definition sbind {S A B} (m : St S A) (f : A -> St S B) : St S B :=
  fun s => match m s with
           | (Ok x, s') => f x s'
           | (Err e, s') => (Err e, s')
           | (Panic, s') => (Panic, s')
           | (OutOfFuel, s') => (OutOfFuel, s')
           end.
Notation "x <== m ;; f" := (sbind m (fun x => f)) (at level 61, m at next level, right associativity).
Notation "' p <== m ;; f" := (sbind m (fun p => f)) (at level 61, p pattern, m at next level, right associativity).
Notation "m ;;== f" := (sbind m (fun _ => f)) (at level 61, right associativity).

(** open.rs:58-72 *)
Fixpoint open_caps_in (fuel : nat) (buf : list N) (pos optlen : nat) : St openMsg nat :=
  match optlen with
  | O => sdo (Ok pos)
  | _ =>
    match fuel with
    | O => sdo OutOfFuel
    | S f =>
      s <== sdo (eslice buf pos (pos + optlen)) ;;
      '(mc, used) <== sdo (from_buffer s) ;;
      if Nat.ltb optlen used then sdo Panic else
      (match mc with
       | inl cap => sset (fun m => mkOpen (op_as m) (op_hold m) (op_rid m) (op_caps m ++ [cap]))
       | inr _ => sdo (Ok tt)
       end) ;;==
      open_caps_in f buf (pos + used) (optlen - used)
    end
  end.
(** open.rs:50-74 *)
Fixpoint open_params_in (fuel : nat) (buf : list N) (pos : nat) : St openMsg unit :=
  if Nat.ltb (pos + 1) (length buf) then
    match fuel with
    | O => sdo OutOfFuel
    | S f =>
      t <== sdo (idx buf pos) ;;
      if negb (t =? 2) then sdo (Err EOther) else
      ol <== sdo (idx buf (pos + 1)) ;;
      pos' <== open_caps_in (length buf) buf (pos + 2) (N.to_nat ol) ;;
      open_params_in f buf pos'
    end
  else sdo (Ok tt).
(** open.rs:33-77 *)
Definition open_decode_in (buf : list N) : St openMsg unit :=
  if Nat.ltb (length buf) 10 then sdo (Err EInsufficient) else
  v <== sdo (idx buf 0) ;;
  if negb (v =? 4) then sdo (Err EOther) else
  ptr <== sdo (eslice buf 1 (length buf)) ;;
  a0 <== sdo (idx ptr 0) ;; a1 <== sdo (idx ptr 1) ;;
  sset (fun m => mkOpen (ntoh16 (le16 a0 a1)) (op_hold m) (op_rid m) (op_caps m)) ;;==
  h0 <== sdo (idx ptr 2) ;; h1 <== sdo (idx ptr 3) ;;
  sset (fun m => mkOpen (op_as m) (ntoh16 (le16 h0 h1)) (op_rid m) (op_caps m)) ;;==
  r0 <== sdo (idx ptr 4) ;; r1 <== sdo (idx ptr 5) ;; r2 <== sdo (idx ptr 6) ;; r3 <== sdo (idx ptr 7) ;;
  sset (fun m => mkOpen (op_as m) (op_hold m) (ip4_new r0 r1 r2 r3) (op_caps m)) ;;==
  sset (fun m => mkOpen (op_as m) (op_hold m) (op_rid m) []) ;;==
  open_params_in (length buf) buf 10.

(** notification.rs:137-150 *)
Definition notif_decode_in (buf : list N) : St notifMsg unit :=
  if Nat.ltb (length buf) 2 then sdo (Err EOther) else
  c <== sdo (idx buf 0) ;;
  sset (fun m => mkNotif c (nt_sub m) (nt_data m)) ;;==
  s <== sdo (idx buf 1) ;;
  sset (fun m => mkNotif (nt_code m) s (nt_data m)) ;;==
  (if Nat.eqb (length buf) 3 then
     d <== sdo (idx buf 2) ;; sset (fun m => mkNotif (nt_code m) (nt_sub m) d)
   else sdo (Ok tt)) ;;==
  (if Nat.ltb 3 (length buf) then
     b2 <== sdo (idx buf 2) ;; b3 <== sdo (idx buf 3) ;; sset (fun m => mkNotif (nt_code m) (nt_sub m) (N.lor (N.shiftl b2 8) b3))
   else sdo (Ok tt)).

(** update/mod.rs:152-177 *)
Fixpoint upd_attrs_in (fuel : nat) (oc : bool) (p : params) (buf : list N) (curpos pathattr_end : nat) : St update nat :=
  match fuel with
  | O => sdo OutOfFuel
  | S fuel' =>
      if Nat.ltb curpos pathattr_end then
        flags <== sdo (idx buf curpos) ;;
        tc <== sdo (idx buf (curpos + 1)) ;;
        '(attrlen, curpos) <==
          sdo (if 0 <? N.land flags 16 then
                 s <- eslice buf (curpos + 4 - 2) (curpos + 4) ;; n <- getn_u16 s ;; Ok (N.to_nat n, (curpos + 4)%nat)
               else
                 b <- idx buf (curpos + 3 - 1) ;; Ok (N.to_nat b, (curpos + 3)%nat)) ;;
        if Nat.ltb pathattr_end (curpos + attrlen) then sdo (Err EProtocol) else
        s <== sdo (eslice buf curpos (curpos + attrlen)) ;;
        a <== sdo (attr_decode oc p tc flags attrlen s) ;;
        sset (fun m => mkUpd (u_updates m) (u_withdraws m) (u_attrs m ++ [a])) ;;==
        upd_attrs_in fuel' oc p buf (curpos + attrlen) pathattr_end
      else sdo (Ok curpos)
  end.
(** update/mod.rs:112-204 *)
Definition update_decode_in (oc : bool) (p : params) (buf : list N) : St update unit :=
  s <== sdo (eslice buf 0 2) ;;
  withdraws_length <== sdo (getn_u16 s) ;;
  let withdraws_end := (2 + N.to_nat withdraws_length)%nat in
  if Nat.leb (length buf) withdraws_end then sdo (Err EInsufficient) else
  s <== sdo (eslice buf 2 withdraws_end) ;;
  withdraws <== sdo (upd_nlri_decode oc p s) ;;
  sset (fun m => mkUpd (u_updates m) withdraws (u_attrs m)) ;;==
  s <== sdo (eslice buf withdraws_end (withdraws_end + 2)) ;;
  pathattr_len <== sdo (getn_u16 s) ;;
  let pathattr_end := (withdraws_end + 2 + N.to_nat pathattr_len)%nat in
  if Nat.ltb (length buf) pathattr_end then sdo (Err EProtocol) else
  curpos <== upd_attrs_in (S (length buf)) oc p buf (withdraws_end + 2) pathattr_end ;;
  s <== sdo (eslice buf curpos (length buf)) ;;
  updates <== sdo (upd_nlri_decode oc p s) ;;
  sset (fun m => mkUpd updates (u_withdraws m) (u_attrs m)).
