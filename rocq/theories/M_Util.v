(** Model of /repo/src/util.rs. *)
From Verif Require Import Base.

(** std::net::IpAddr. Addresses are represented by their numeric value
    (network order); [octets()] is [be_bytes 4 _] / [be_bytes 16 _]. (util.rs:53-66) *)
Inductive ipaddr := IPv4 (a : N) | IPv6 (a : N).

(** std Ipv4Addr::octets, Ipv6Addr::octets (util.rs:25, 49) *)
Definition octets4 (a : N) : list N := be_bytes 4 a.
(** std Ipv6Addr::octets, util.rs:49 *)
Definition octets16 (a : N) : list N := be_bytes 16 a.
(** std Ipv4Addr::new (util.rs:18) *)
Definition ip4_new (b0 b1 b2 b3 : N) : N := be_val [b0; b1; b2; b3].
(** std Ipv6Addr::new: eight 16-bit groups (util.rs:29-43) *)
Definition ip6_new (g : list N) : N := fold_left (fun acc s => acc * 65536 + s) g 0.

(** util.rs:70-73 *)
Definition setn_u16 (s : N) : Enc unit :=
  set_idx 0 (cast 8 (N.shiftr s 8)) ;;; set_idx 1 (N.land s 255).

(** util.rs:74-76 *)
Definition getn_u16 (a : list N) : res N :=
  a0 <- idx a 0 ;; a1 <- idx a 1 ;;
  Ok (N.lor (N.shiftl a0 8) a1).

(** util.rs:77-79 *)
Definition getn_u32 (a : list N) : res N :=
  a0 <- idx a 0 ;; a1 <- idx a 1 ;; a2 <- idx a 2 ;; a3 <- idx a 3 ;;
  Ok (N.lor (N.lor (N.lor (N.shiftl a0 24) (N.shiftl a1 16)) (N.shiftl a2 8)) a3).

(** util.rs:80-85 *)
Definition setn_u32 (s : N) : Enc unit :=
  set_idx 0 (cast 8 (N.shiftr s 24)) ;;;
  set_idx 1 (N.land (N.shiftr s 16) 255) ;;;
  set_idx 2 (N.land (N.shiftr s 8) 255) ;;;
  set_idx 3 (N.land s 255).

(** util.rs:86-88 *)
Definition getn_u64 (a : list N) : res N :=
  h <- getn_u32 a ;; l8 <- rslice a 4 8 ;; l <- getn_u32 l8 ;;
  Ok (N.lor (N.shiftl h 32) l).

(** util.rs:89-98 *)
Definition setn_u64 (s : N) : Enc unit :=
  set_idx 0 (cast 8 (N.shiftr s 56)) ;;;
  set_idx 1 (N.land (N.shiftr s 48) 255) ;;;
  set_idx 2 (N.land (N.shiftr s 40) 255) ;;;
  set_idx 3 (N.land (N.shiftr s 32) 255) ;;;
  set_idx 4 (N.land (N.shiftr s 24) 255) ;;;
  set_idx 5 (N.land (N.shiftr s 16) 255) ;;;
  set_idx 6 (N.land (N.shiftr s 8) 255) ;;;
  set_idx 7 (N.land s 255).

(** util.rs:99-101 *)
Definition getn_u128 (a : list N) : res N :=
  h <- getn_u64 a ;; l16 <- rslice a 8 16 ;; l <- getn_u64 l16 ;;
  Ok (N.lor (N.shiftl h 64) l).

(** util.rs:67-69 *)
Definition ntoh16 (a : N) : N := N.lor (N.shiftr a 8) (cast 16 (N.shiftl (N.land a 255) 8)).

(** util.rs:14-19 *)
Definition decode_addrv4_from (buf : list N) : res N :=
  if Nat.ltb (length buf) 4 then Err EOther else
  b0 <- idx buf 0 ;; b1 <- idx buf 1 ;; b2 <- idx buf 2 ;; b3 <- idx buf 3 ;;
  Ok (ip4_new b0 b1 b2 b3).

(** util.rs:21-27 *)
Definition encode_addrv4_to (a : N) : Enc nat :=
  len <~ elen ;;
  if Nat.ltb len 4 then eerr EOther else
  write_at 0 (octets4 a) ;;; eret 4%nat.

(** util.rs:29-43 *)
Definition decode_addrv6_from (buf : list N) : res N :=
  if Nat.ltb (length buf) 16 then Err EOther else
  s0 <- rslice buf 0 2 ;; g0 <- getn_u16 s0 ;;
  s1 <- rslice buf 2 4 ;; g1 <- getn_u16 s1 ;;
  s2 <- rslice buf 4 6 ;; g2 <- getn_u16 s2 ;;
  s3 <- rslice buf 6 8 ;; g3 <- getn_u16 s3 ;;
  s4 <- rslice buf 8 10 ;; g4 <- getn_u16 s4 ;;
  s5 <- rslice buf 10 12 ;; g5 <- getn_u16 s5 ;;
  s6 <- rslice buf 12 14 ;; g6 <- getn_u16 s6 ;;
  s7 <- rslice buf 14 16 ;; g7 <- getn_u16 s7 ;;
  Ok (ip6_new [g0; g1; g2; g3; g4; g5; g6; g7]).

(** util.rs:45-51 *)
Definition encode_addrv6_to (a : N) : Enc nat :=
  len <~ elen ;;
  if Nat.ltb len 16 then eerr EOther else
  write_at 0 (octets16 a) ;;; eret 16%nat.

(** util.rs:53-59 *)
Definition decode_addr_from (buf : list N) : res ipaddr :=
  match length buf with
  | 16%nat => a <- decode_addrv6_from buf ;; Ok (IPv6 a)
  | 4%nat => a <- decode_addrv4_from buf ;; Ok (IPv4 a)
  | _ => Err EOther
  end.

(** util.rs:61-66 *)
Definition encode_addr_to (a : ipaddr) : Enc nat :=
  match a with
  | IPv4 a => encode_addrv4_to a
  | IPv6 a => encode_addrv6_to a
  end.

(** util.rs:102-108 *)
Definition is_addpath_nlri (b : list N) : bool :=
  if Nat.ltb (length b) 5 then false
  else match b with b0 :: b1 :: _ => (b0 =? 0) && (b1 =? 0) | _ => false end.
