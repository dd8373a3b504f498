(** Model of /repo/src/afi/vpls.rs, of /repo/src/afi/mdt.rs and of the remaining list codecs of
    /repo/src/afi/mod.rs. *)
From Verif Require Import Base M_Util M_Prefix M_Nlri.

(** [BgpAddrItem] lists. The transport mode is part of [dec] and [enc]. *)

(** afi/mod.rs:220-232 *)
Definition decode_bgpaddritems_from {T} (dec : list N -> res (T * nat)) (buf : list N) : res (list T * nat) :=
  dec_loop dec (S (length buf)) buf 0.

(** afi/mod.rs:238-242: the loop *)
Fixpoint enc_addritems {T} (enc : T -> Enc nat) (v : list T) (curpos : nat) : Enc nat :=
  match v with
  | [] => eret curpos
  | i :: v' => n <~ on_from curpos (enc i) ;; enc_addritems enc v' (curpos + n)
  end.
(** afi/mod.rs:233-243 *)
Definition encode_bgpaddritems_to {T} (enc : T -> Enc nat) (v : list T) : Enc nat := enc_addritems enc v 0.

(** [BgpItemLong] lists. *)

(** afi/mod.rs:248-257, one iteration *)
Definition decode_long_item {T} (ex : nat -> list N -> res T) (buf : list N) : res (T * nat) :=
  s <- rslice buf 0 2 ;;
  l <- getn_u16 s ;;
  let itemlen := N.to_nat l in
  d <- rslice buf 2 (itemlen + 2) ;;
  x <- ex itemlen d ;;
  Ok (x, (itemlen + 2)%nat).
(** afi/mod.rs:244-258 *)
Definition decode_long_bgpitems_from {T} (ex : nat -> list N -> res T) (buf : list N) : res (list T * nat) :=
  dec_loop (decode_long_item ex) (S (length buf)) buf 0.

(** afi/mod.rs:264-268; note [curpos += sz], not [sz + 2] *)
Fixpoint enc_long_items {T} (pk : T -> Enc nat) (v : list T) (curpos : nat) : Enc nat :=
  match v with
  | [] => eret curpos
  | i :: v' =>
      sz <~ on_from (curpos + 2) (pk i) ;;
      on_slice curpos (curpos + 2) (setn_u16 (cast 16 (N.of_nat sz))) ;;;
      enc_long_items pk v' (curpos + sz)
  end.
(** afi/mod.rs:259-270 *)
Definition encode_long_bgpitems_to {T} (pk : T -> Enc nat) (v : list T) : Enc nat := enc_long_items pk v 0.

(** vpls.rs:19-25 *)
Record addrL2 := mkL2A { l2a_rd : bgpRD; l2a_site : N; l2a_offset : N; l2a_range : N; l2a_labels : list N }.

(** vpls.rs:27-43. [decode_from] of an RD ignores the mode (afi/mod.rs:358-360). *)
Definition l2a_extract (oc : bool) (size : nat) (buf : list N) : res addrL2 :=
  if Nat.ltb size 17 then Err EOther else
  '(rd, _) <- decode_rd_from buf ;;
  s <- rfrom buf 14 ;;
  '(ls, _) <- labels_extract oc (cast 8 (N.of_nat (size - 14) * 8)) s ;;
  a <- rslice buf 8 10 ;; site <- getn_u16 a ;;
  b <- rslice buf 10 12 ;; offset <- getn_u16 b ;;
  c <- rslice buf 12 14 ;; range <- getn_u16 c ;;
  Ok (mkL2A rd site offset range ls).

(** vpls.rs:44-54 *)
Definition l2a_pack (x : addrL2) : Enc nat :=
  len <~ elen ;;
  if Nat.ltb len 15 then eerr EInsufficient else
  encode_rd_to (l2a_rd x) ;;;
  on_slice 8 10 (setn_u16 (l2a_site x)) ;;;
  on_slice 10 12 (setn_u16 (l2a_offset x)) ;;;
  on_slice 12 14 (setn_u16 (l2a_range x)) ;;;
  '(_, n) <~ on_from 14 (labels_set (l2a_labels x)) ;;
  eret (n + 14)%nat.

(** vpls.rs:68-73 *)
Record bgpL2 := mkL2 { l2_rd : bgpRD; l2_site : N; l2_offset : N; l2_range : N }.

(** vpls.rs:93-108 *)
Definition l2_decode (buf : list N) : res (bgpL2 * nat) :=
  if Nat.leb 14 (length buf) then
    s <- rslice buf 0 8 ;;
    '(rd, _) <- decode_rd_from s ;;
    a <- rslice buf 8 10 ;; site <- getn_u16 a ;;
    b <- rslice buf 10 12 ;; offset <- getn_u16 b ;;
    c <- rslice buf 12 14 ;; range <- getn_u16 c ;;
    Ok (mkL2 rd site offset range, 14%nat)
  else Err EOther.

(** vpls.rs:109-115 *)
Definition l2_encode (x : bgpL2) : Enc nat :=
  pos <~ encode_rd_to (l2_rd x) ;;
  on_from pos (setn_u16 (l2_site x)) ;;;
  on_from (pos + 2) (setn_u16 (l2_offset x)) ;;;
  on_from (pos + 4) (setn_u16 (l2_range x)) ;;;
  eret (pos + 6)%nat.

(** ** MDT *)

(** mdt.rs:21-26 *)
Record mdtV4 := mkMdt4 { mdt4_addr : addrV4; mdt4_group : N }.

(** mdt.rs:62-94 *)
Definition mdt4_extract (oc : bool) (bits : N) (buf : list N) : res (mdtV4 * nat) :=
  if negb ((32 <=? bits) && (bits <=? 128)) then Err EOther else
  if bits =? 32 then
    a <- decode_addrv4_from (repeat 0 4) ;;
    g <- decode_addrv4_from buf ;;
    Ok (mkMdt4 (mkV4 a 0) g, 4%nat)
  else
    b <- usub oc 8 bits 32 ;;
    bytes <- bits_bytes oc b ;;
    bf <- fill_zeroed 4 bytes buf ;;
    a <- decode_addrv4_from bf ;;
    s <- rfrom buf bytes ;;
    g <- decode_addrv4_from s ;;
    Ok (mkMdt4 (mkV4 a b) g, (bytes + 4)%nat).

(** mdt.rs:95-107 *)
Definition mdt4_set (oc : bool) (x : mdtV4) : Enc (N * nat) :=
  let p := mdt4_addr x in
  bytes <~ (if 0 <? v4_len p then
              bytes <~ elift (bits_bytes oc (v4_len p)) ;;
              s <~ elift (rslice (octets4 (v4_addr p)) 0 bytes) ;;
              write_at 0 s ;;; eret bytes
            else eret 0%nat) ;;
  write_at bytes (octets4 (mdt4_group x)) ;;;
  b <~ elift (uadd oc 8 (v4_len p) 32) ;;
  eret (b, (bytes + 4)%nat).

(** mdt.rs:122-127 *)
Record mdtV6 := mkMdt6 { mdt6_addr : addrV6; mdt6_group : N }.

(** mdt.rs:162-195 *)
Definition mdt6_extract (oc : bool) (bits : N) (buf : list N) : res (mdtV6 * nat) :=
  if negb ((128 <=? bits) && (bits <=? 254)) then Err EOther else
  if bits =? 128 then
    a <- decode_addrv6_from (repeat 0 16) ;;
    g <- decode_addrv6_from buf ;;
    Ok (mkMdt6 (mkV6 a 0) g, 16%nat)
  else
    b <- usub oc 8 bits 128 ;;
    bytes <- bits_bytes oc b ;;
    bf <- fill_zeroed 16 bytes buf ;;
    a <- decode_addrv6_from bf ;;
    s <- rfrom buf bytes ;;
    g <- decode_addrv6_from s ;;
    Ok (mkMdt6 (mkV6 a b) g, (bytes + 16)%nat).

(** mdt.rs:196-208 *)
Definition mdt6_set (oc : bool) (x : mdtV6) : Enc (N * nat) :=
  let p := mdt6_addr x in
  bytes <~ (if 0 <? v6_len p then
              bytes <~ elift (bits_bytes oc (v6_len p)) ;;
              s <~ elift (rslice (octets16 (v6_addr p)) 0 bytes) ;;
              write_at 0 s ;;; eret bytes
            else eret 0%nat) ;;
  write_at bytes (octets16 (mdt6_group x)) ;;;
  b <~ elift (uadd oc 8 (v6_len p) 128) ;;
  eret (b, (bytes + 16)%nat).
