(** Model of the NLRI item codecs and list codecs.
    /repo/src/afi/mod.rs, /repo/src/afi/ipv4.rs, /repo/src/afi/ipv6.rs. *)
From Verif Require Import Base M_Util M_Prefix.

(** [trait BgpItem] (afi/mod.rs:37-41), as the pair of functions used by the
    generic list codecs; [prefixlen] is not modelled here. [oc] is the build mode. *)
Definition extractor (T : Type) := bool -> N -> list N -> res (T * nat).
(** afi/mod.rs:37-41, [set_bits_to] *)
Definition setter (T : Type) := bool -> T -> Enc (N * nat).

(** ipv4.rs:132, ipv6.rs:141: [((bits + 7) / 8) as usize], bits : u8 *)
Definition bits_bytes (oc : bool) (bits : N) : res nat :=
  s <- uadd oc 8 bits 7 ;; Ok (N.to_nat (s / 8)).

(** [bf[0..bytes].clone_from_slice(&buf[0..bytes])] on a zeroed array of size [k] (ipv4.rs:131-157, ipv6.rs:140-166) *)
Definition fill_zeroed (k bytes : nat) (buf : list N) : res (list N) :=
  if (Nat.leb bytes k)%bool then s <- rslice buf 0 bytes ;; Ok (s ++ repeat 0 (k - bytes)) else Panic.

(** ipv4.rs:131-157 *)
Definition v4_from_bits (oc : bool) (bits : N) (buf : list N) : res (addrV4 * nat) :=
  bytes <- bits_bytes oc bits ;;
  if ((32 <? bits) || Nat.ltb (length buf) bytes)%bool then Err EOther else
  if bits =? 0 then a <- decode_addrv4_from (repeat 0 4) ;; Ok (mkV4 a 0, 0%nat) else
  bf <- fill_zeroed 4 bytes buf ;;
  a <- decode_addrv4_from bf ;;
  Ok (mkV4 a bits, bytes).

(** ipv4.rs:158-167 *)
Definition v4_to_bits (oc : bool) (p : addrV4) : Enc (N * nat) :=
  if v4_len p =? 0 then eret (0, 0%nat) else
  bytes <~ elift (bits_bytes oc (v4_len p)) ;;
  s <~ elift (rslice (octets4 (v4_addr p)) 0 bytes) ;;
  write_at 0 s ;;;
  eret (v4_len p, bytes).

(** ipv6.rs:140-166 *)
Definition v6_from_bits (oc : bool) (bits : N) (buf : list N) : res (addrV6 * nat) :=
  bytes <- bits_bytes oc bits ;;
  if ((128 <? bits) || Nat.ltb (length buf) bytes)%bool then Err EOther else
  if bits =? 0 then a <- decode_addrv6_from (repeat 0 16) ;; Ok (mkV6 a 0, 0%nat) else
  bf <- fill_zeroed 16 bytes buf ;;
  a <- decode_addrv6_from bf ;;
  Ok (mkV6 a bits, bytes).

(** ipv6.rs:167-176 *)
Definition v6_to_bits (oc : bool) (p : addrV6) : Enc (N * nat) :=
  if v6_len p =? 0 then eret (0, 0%nat) else
  bytes <~ elift (bits_bytes oc (v6_len p)) ;;
  s <~ elift (rslice (octets16 (v6_addr p)) 0 bytes) ;;
  write_at 0 s ;;;
  eret (v6_len p, bytes).

(** ** List codecs *)

(** afi/mod.rs:196-200 *)
Definition decode_bgpitem_from {T} (oc : bool) (ex : extractor T) (buf : list N) : res (T * nat) :=
  bits <- idx buf 0 ;;
  s <- rfrom buf 1 ;;
  '(x, n) <- ex oc bits s ;;
  Ok (x, (n + 1)%nat).

(** The loop shared by afi/mod.rs:204-208, 226-230: [while curpos < buf.len()],
    one call of [step] on [&buf[curpos..]], push, advance. *)
Fixpoint dec_loop {T} (step : list N -> res (T * nat)) (fuel : nat) (buf : list N) (curpos : nat)
  : res (list T * nat) :=
  match fuel with
  | O => OutOfFuel
  | S fuel' =>
      if Nat.ltb curpos (length buf) then
        s <- rfrom buf curpos ;;
        '(x, n) <- step s ;;
        '(v, p) <- dec_loop step fuel' buf (curpos + n) ;;
        Ok (x :: v, p)
      else Ok ([], curpos)
  end.

(** afi/mod.rs:201-210 *)
Definition decode_bgpitems_from {T} (oc : bool) (ex : extractor T) (buf : list N) : res (list T * nat) :=
  dec_loop (decode_bgpitem_from oc ex) (S (length buf)) buf 0.

(** afi/mod.rs:213-217 *)
Fixpoint enc_items {T} (oc : bool) (st : setter T) (v : list T) (curpos : nat) : Enc nat :=
  match v with
  | [] => eret curpos
  | i :: v' =>
      '(b, n) <~ on_from (curpos + 1) (st oc i) ;;
      set_idx curpos b ;;;
      enc_items oc st v' (curpos + (n + 1))
  end.
(** afi/mod.rs:211-219 *)
Definition encode_bgpitems_to {T} (oc : bool) (st : setter T) (v : list T) : Enc nat :=
  enc_items oc st v 0.

(** afi/mod.rs:650-653 *)
Record withPathId (T : Type) := mkPid { pid : N; pid_nlri : T }.
Arguments mkPid {T}. Arguments pid {T}. Arguments pid_nlri {T}.

(** afi/mod.rs:276-282: note the loop condition [curpos + 4 < buf.len()] *)
Fixpoint dec_pathid_loop {T} (oc : bool) (ex : extractor T) (fuel : nat) (buf : list N) (curpos : nat)
  : res (list (withPathId T) * nat) :=
  match fuel with
  | O => OutOfFuel
  | S fuel' =>
      if Nat.ltb (curpos + 4) (length buf) then
        s <- rfrom buf curpos ;;
        pathid <- getn_u32 s ;;
        s' <- rfrom buf (curpos + 4) ;;
        '(x, n) <- decode_bgpitem_from oc ex s' ;;
        '(v, p) <- dec_pathid_loop oc ex fuel' buf (curpos + 4 + n) ;;
        Ok (mkPid pathid x :: v, p)
      else Ok ([], curpos)
  end.
(** afi/mod.rs:271-284 *)
Definition decode_pathid_bgpitems_from {T} (oc : bool) (ex : extractor T) (buf : list N)
  : res (list (withPathId T) * nat) :=
  dec_pathid_loop oc ex (S (length buf)) buf 0.

(** afi/mod.rs:290-296 *)
Fixpoint enc_pathid_items {T} (oc : bool) (st : setter T) (v : list (withPathId T)) (curpos : nat) : Enc nat :=
  match v with
  | [] => eret curpos
  | i :: v' =>
      on_from curpos (setn_u32 (pid i)) ;;;
      '(b, n) <~ on_from (curpos + 4 + 1) (st oc (pid_nlri i)) ;;
      set_idx (curpos + 4) b ;;;
      enc_pathid_items oc st v' (curpos + 4 + (n + 1))
  end.
(** afi/mod.rs:285-298 *)
Definition encode_pathid_bgpitems_to {T} (oc : bool) (st : setter T) (v : list (withPathId T)) : Enc nat :=
  enc_pathid_items oc st v 0.

(** ** Route distinguishers *)

(** afi/mod.rs:303-308 *)
Record bgpRD := mkRD { rdh : N; rdl : N }.

(** afi/mod.rs:319-331 *)
Definition decode_rd_from (buf : list N) : res (bgpRD * nat) :=
  if Nat.leb 8 (length buf) then
    s0 <- rslice buf 0 4 ;; h <- getn_u32 s0 ;;
    s1 <- rslice buf 4 8 ;; l <- getn_u32 s1 ;;
    Ok (mkRD h l, 8%nat)
  else Err EOther.

(** afi/mod.rs:333-337 *)
Definition encode_rd_to (r : bgpRD) : Enc nat :=
  setn_u32 (rdh r) ;;; on_slice 4 8 (setn_u32 (rdl r)) ;;; eret 8%nat.

(** ** MPLS labels *)

(** afi/mod.rs:468-474: labels that end the stack *)
Definition label_ends (l : N) : bool := (l =? 524288) || (l =? 0) || (l =? 2) || (l =? 3).

(** afi/mod.rs:456-480; each iteration reads three bytes or panics, so
    [S (length buf)] iterations are enough. *)
Fixpoint labels_loop (oc : bool) (fuel : nat) (leftbits : N) (buf : list N) (curpos : nat)
  : res (list N * nat) :=
  match fuel with
  | O => OutOfFuel
  | S fuel' =>
      if 0 <? leftbits then
        b0 <- idx buf curpos ;; b1 <- idx buf (curpos + 1) ;; b2 <- idx buf (curpos + 2) ;;
        let labelval := N.lor (N.lor (cast 32 (N.shiftl b0 12)) (cast 32 (N.shiftl b1 4))) (N.shiftr b2 4) in
        leftbits' <- usub oc 8 leftbits 24 ;;
        if label_ends labelval then Ok ([labelval], (curpos + 3)%nat) else
        b <- idx buf (curpos + 3 - 1) ;;
        if negb (N.land b 1 =? 0) then Ok ([labelval], (curpos + 3)%nat) else
        '(v, p) <- labels_loop oc fuel' leftbits' buf (curpos + 3) ;;
        Ok (labelval :: v, p)
      else Ok ([], curpos)
  end.
(** afi/mod.rs:456-480 *)
Definition labels_extract (oc : bool) (bits : N) (buf : list N) : res (list N * nat) :=
  labels_loop oc (S (length buf)) bits buf 0.

(** afi/mod.rs:486-491 *)
Fixpoint labels_write (v : list N) (curpos : nat) : Enc nat :=
  match v with
  | [] => eret curpos
  | l :: v' =>
      set_idx curpos (cast 8 (N.shiftr l 12)) ;;;
      set_idx (curpos + 1) (N.land (N.shiftr l 4) 255) ;;;
      set_idx (curpos + 2) (N.land (cast 32 (N.shiftl l 4)) 255) ;;;
      labels_write v' (curpos + 3)
  end.
(** afi/mod.rs:481-494 *)
Definition labels_set (v : list N) : Enc (N * nat) :=
  match v with
  | [] => eret (0, 0%nat)
  | _ =>
      curpos <~ labels_write v 0 ;;
      upd_idx (curpos - 1) (fun b => N.lor b 1) ;;;
      eret (cast 8 (N.of_nat curpos * 8), curpos)
  end.

(** afi/mod.rs:501-506 *)
Record labeled (T : Type) := mkLab { lab_prefix : T; lab_labels : list N }.
Arguments mkLab {T}. Arguments lab_prefix {T}. Arguments lab_labels {T}.

(** afi/mod.rs:545-555 *)
Definition labeled_extract {T} (ex : extractor T) : extractor (labeled T) := fun oc bits buf =>
  '(l, ln) <- labels_extract oc bits buf ;;
  rb <- usub oc 8 bits (cast 8 (N.of_nat ln * 8)) ;;
  s <- rfrom buf ln ;;
  '(p, pn) <- ex oc rb s ;;
  Ok (mkLab p l, (ln + pn)%nat).

(** afi/mod.rs:556-560 *)
Definition labeled_set {T} (st : setter T) : setter (labeled T) := fun oc x =>
  '(lb, ln) <~ labels_set (lab_labels x) ;;
  '(pb, pn) <~ on_from ln (st oc (lab_prefix x)) ;;
  b <~ elift (uadd oc 8 lb pb) ;;
  eret (b, (ln + pn)%nat).

(** afi/mod.rs:576-579 *)
Record withRd (T : Type) := mkWRD { wrd_prefix : T; wrd_rd : bgpRD }.
Arguments mkWRD {T}. Arguments wrd_prefix {T}. Arguments wrd_rd {T}.

(** afi/mod.rs:607-620 *)
Definition withrd_extract {T} (ex : extractor T) : extractor (withRd T) := fun oc bits buf =>
  if Nat.ltb (length buf) 8 then Err EInsufficient else
  s8 <- rslice buf 0 8 ;;
  '(r, rn) <- decode_rd_from s8 ;;
  rb <- usub oc 8 bits (cast 8 (N.of_nat rn * 8)) ;;
  s <- rfrom buf rn ;;
  '(p, pn) <- ex oc rb s ;;
  Ok (mkWRD p r, (rn + pn)%nat).

(** afi/mod.rs:621-625 *)
Definition withrd_set {T} (st : setter T) : setter (withRd T) := fun oc x =>
  rn <~ encode_rd_to (wrd_rd x) ;;
  '(pb, pn) <~ on_from rn (st oc (wrd_prefix x)) ;;
  b <~ elift (uadd oc 8 (cast 8 (N.of_nat rn * 8)) pb) ;;
  eret (b, (rn + pn)%nat).
