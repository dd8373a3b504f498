(** Model of prefixes: membership, ranges, containment.
    /repo/src/afi/ipv4.rs, /repo/src/afi/ipv6.rs, /repo/src/afi/mac.rs. *)
From Verif Require Import Base M_Util.

(** afi/ipv4.rs:21-26 ([addr] by numeric value) *)
Record addrV4 := mkV4 { v4_addr : N; v4_len : N }.
(** afi/ipv6.rs:20-25 *)
Record addrV6 := mkV6 { v6_addr : N; v6_len : N }.
(** afi/mac.rs:20-22: [[u8; 6]], stored least significant byte first. *)
Definition mac := list N.
(** afi/mac.rs:114-119 *)
Record addrMac := mkMac { mc_addr : mac; mc_len : N }.

(** ** IPv4 *)

(** ipv4.rs:50 [1 << (32 - self.prefixlen)] (u32; the subtraction is on u8) *)
Definition v4_hostsize (oc : bool) (plen : N) : res N :=
  n <- usub oc 8 32 plen ;; ushl oc 32 1 n.

(** ipv4.rs:49-51 *)
Definition v4_norm_subnet (oc : bool) (p : addrV4) : res N :=
  a <- getn_u32 (octets4 (v4_addr p)) ;;
  s <- v4_hostsize oc (v4_len p) ;;
  m <- usub oc 32 s 1 ;;
  Ok (N.land a (N.lxor m 0xffffffff)).

(** ipv4.rs:59-70 *)
Definition v4_in_subnet (oc : bool) (p : addrV4) (a : N) : res bool :=
  if v4_len p =? 0 then Ok true
  else if 31 <? v4_len p then
    x <- getn_u32 (octets4 (v4_addr p)) ;; y <- getn_u32 (octets4 a) ;; Ok (x =? y)
  else
    lv <- v4_norm_subnet oc p ;;
    s <- v4_hostsize oc (v4_len p) ;; m <- usub oc 32 s 1 ;;
    lh <- uadd oc 32 lv m ;;
    va <- getn_u32 (octets4 a) ;;
    Ok ((lv <=? va) && (va <=? lh)).

(** ipv4.rs:80-85, 101-106: [Ipv4Addr::new] from a u32 *)
Definition v4_of_u32 (lv : N) : N :=
  ip4_new (cast 8 (N.shiftr lv 24)) (cast 8 (N.shiftr lv 16)) (cast 8 (N.shiftr lv 8)) (cast 8 (N.land lv 255)).

(** ipv4.rs:78-86 *)
Definition v4_range_first (oc : bool) (p : addrV4) : res N :=
  lv <- v4_norm_subnet oc p ;; Ok (v4_of_u32 lv).

(** ipv4.rs:94-108 *)
Definition v4_range_last (oc : bool) (p : addrV4) : res N :=
  if v4_len p <? 1 then Ok (ip4_new 255 255 255 255)
  else if 31 <? v4_len p then v4_range_first oc p
  else
    lv <- v4_norm_subnet oc p ;;
    s <- v4_hostsize oc (v4_len p) ;; m <- usub oc 32 s 1 ;;
    l <- uadd oc 32 lv m ;;
    Ok (v4_of_u32 l).

(** ipv4.rs:116-126 ([&&] is lazy) *)
Definition v4_contains (oc : bool) (p a : addrV4) : res bool :=
  if v4_len p <? 1 then Ok true
  else if v4_len a <? v4_len p then Ok false
  else if v4_len p =? v4_len a then Ok (v4_addr p =? v4_addr a)
  else
    f <- v4_range_first oc a ;; b1 <- v4_in_subnet oc p f ;;
    if b1 : bool then l <- v4_range_last oc a ;; v4_in_subnet oc p l else Ok false.

(** ipv4.rs:128-130 *)
Definition v4_is_multicast (p : addrV4) : bool :=
  negb (forallb (fun b => b =? 255) (octets4 (v4_addr p))) && (224 <=? hd 0 (octets4 (v4_addr p))).

(** ** IPv6 *)

(** ipv6.rs:63,69,83: [1 << (128 - prefixlen)] (u128; subtraction on u8) *)
Definition v6_hostsize (oc : bool) (plen : N) : res N :=
  n <- usub oc 8 128 plen ;; ushl oc 128 1 n.

(** ipv6.rs:67-70 *)
Definition v6_norm_subnet (oc : bool) (p : addrV6) : res N :=
  a <- getn_u128 (octets16 (v6_addr p)) ;;
  s <- v6_hostsize oc (v6_len p) ;;
  m <- usub oc 128 s 1 ;;
  Ok (N.land a (N.lxor m 0xffffffffffffffffffffffffffffffff)).

(** ipv6.rs:78-87 *)
Definition v6_in_subnet (oc : bool) (p : addrV6) (a : N) : res bool :=
  if 127 <? v6_len p then
    x <- getn_u128 (octets16 (v6_addr p)) ;; y <- getn_u128 (octets16 a) ;; Ok (x =? y)
  else
    lv <- v6_norm_subnet oc p ;;
    s <- v6_hostsize oc (v6_len p) ;; m <- usub oc 128 s 1 ;;
    lh <- uadd oc 128 lv m ;;
    va <- getn_u128 (octets16 a) ;;
    Ok ((lv <=? va) && (va <? lh)).

(** ipv6.rs:97-106, 124-133: [Ipv6Addr::new] from a u128 *)
Definition v6_of_u128 (lv : N) : N :=
  ip6_new [cast 16 (N.shiftr lv 112); cast 16 (N.shiftr lv 96); cast 16 (N.shiftr lv 80);
           cast 16 (N.shiftr lv 64); cast 16 (N.shiftr lv 48); cast 16 (N.shiftr lv 32);
           cast 16 (N.shiftr lv 16); cast 16 (N.land lv 65535)].

(** ipv6.rs:95-107 *)
Definition v6_range_first (oc : bool) (p : addrV6) : res N :=
  lv <- v6_norm_subnet oc p ;; Ok (v6_of_u128 lv).

(** ipv6.rs:115-135 *)
Definition v6_range_last (oc : bool) (p : addrV6) : res N :=
  if v6_len p <? 1 then Ok (ip6_new [65535; 65535; 65535; 65535; 65535; 65535; 65535; 65535])
  else if 127 <? v6_len p then v6_range_first oc p
  else
    lv <- v6_norm_subnet oc p ;;
    s <- v6_hostsize oc (v6_len p) ;; m <- usub oc 128 s 1 ;;
    l <- uadd oc 128 lv m ;;
    Ok (v6_of_u128 l).

(** ipv6.rs:63-64: [x & !((1 << (128 - plen)) - 1)]; [!m] on u128 is [m xor (2^128-1)] *)
Definition v6_masked (oc : bool) (plen addr : N) : res N :=
  x <- getn_u128 (octets16 addr) ;;
  s <- v6_hostsize oc plen ;; m <- usub oc 128 s 1 ;;
  Ok (N.land x (N.lxor m 0xffffffffffffffffffffffffffffffff)).

(** ipv6.rs:55-66 *)
Definition v6_contains (oc : bool) (p a : addrV6) : res bool :=
  if v6_len p <? 1 then Ok true
  else if v6_len a <? v6_len p then Ok false
  else if v6_len p =? v6_len a then Ok (v6_addr p =? v6_addr a)
  else
    x <- v6_masked oc (v6_len p) (v6_addr p) ;;
    y <- v6_masked oc (v6_len p) (v6_addr a) ;;
    Ok (x =? y).

(** ** MAC *)

(** mac.rs:31-35 *)
Definition mac_from_network_bytes (b : list N) : res mac :=
  b5 <- idx b 5 ;; b4 <- idx b 4 ;; b3 <- idx b 3 ;;
  b2 <- idx b 2 ;; b1 <- idx b 1 ;; b0 <- idx b 0 ;;
  Ok [b5; b4; b3; b2; b1; b0].

(** mac.rs:37-40: [copy_from_slice] panics unless the slice is exactly 6 long *)
Definition mac_write_to_network_bytes (m : mac) : Enc unit :=
  len <~ elen ;;
  if Nat.eqb len 6 then write_at 0 (rev m) else epanic.

(** mac.rs:42-51 *)
Definition mac_from_u64 (s : N) : mac :=
  [N.land s 255; N.land (N.shiftr s 8) 255; N.land (N.shiftr s 16) 255;
   N.land (N.shiftr s 24) 255; N.land (N.shiftr s 32) 255; N.land (N.shiftr s 40) 255].

(** mac.rs:53-60 (indices are static: the array has length 6) *)
Definition mac_to_u64 (m : mac) : N :=
  N.lor (N.lor (N.lor (N.lor (N.lor
    (N.shiftl (nth 5 m 0) 40) (N.shiftl (nth 4 m 0) 32)) (N.shiftl (nth 3 m 0) 24))
    (N.shiftl (nth 2 m 0) 16)) (N.shiftl (nth 1 m 0) 8)) (nth 0 m 0).

(** mac.rs:135,151,179: [1 << (48 - prefixlen)] on u64 *)
Definition mac_hostsize (oc : bool) (plen : N) : res N :=
  n <- usub oc 8 48 plen ;; ushl oc 64 1 n.

(** mac.rs:134-136 *)
Definition mac_norm_subnet (oc : bool) (p : addrMac) : res N :=
  s <- mac_hostsize oc (mc_len p) ;; m <- usub oc 64 s 1 ;;
  Ok (N.land (mac_to_u64 (mc_addr p)) (N.lxor m 0xffffffffffff)).

(** mac.rs:144-155 *)
Definition mac_in_subnet (oc : bool) (p : addrMac) (a : mac) : res bool :=
  if mc_len p =? 0 then Ok true
  else if 47 <? mc_len p then Ok (mac_to_u64 (mc_addr p) =? mac_to_u64 a)
  else
    lv <- mac_norm_subnet oc p ;;
    s <- mac_hostsize oc (mc_len p) ;; m <- usub oc 64 s 1 ;;
    lh <- uadd oc 64 lv m ;;
    Ok ((lv <=? mac_to_u64 a) && (mac_to_u64 a <=? lh)).

(** mac.rs:163-165 *)
Definition mac_range_first (oc : bool) (p : addrMac) : res mac :=
  lv <- mac_norm_subnet oc p ;; Ok (mac_from_u64 lv).

(** mac.rs:173-182 *)
Definition mac_range_last (oc : bool) (p : addrMac) : res mac :=
  if mc_len p <? 1 then Ok (mac_from_u64 0xffffffffffff)
  else if 47 <? mc_len p then mac_range_first oc p
  else
    lv <- mac_norm_subnet oc p ;;
    s <- mac_hostsize oc (mc_len p) ;; m <- usub oc 64 s 1 ;;
    l <- uadd oc 64 lv m ;;
    Ok (mac_from_u64 l).

(** derived PartialEq of [[u8; 6]] (mac.rs:16-22) *)
Fixpoint list_eqb (a b : list N) : bool :=
  match a, b with
  | [], [] => true
  | x :: a', y :: b' => (x =? y) && list_eqb a' b'
  | _, _ => false
  end.

(** mac.rs:190-200 *)
Definition mac_contains (oc : bool) (p a : addrMac) : res bool :=
  if mc_len p <? 1 then Ok true
  else if mc_len a <? mc_len p then Ok false
  else if mc_len p =? mc_len a then Ok (list_eqb (mc_addr p) (mc_addr a))
  else
    f <- mac_range_first oc a ;; b1 <- mac_in_subnet oc p f ;;
    if b1 : bool then l <- mac_range_last oc a ;; mac_in_subnet oc p l else Ok false.

(** afi/mod.rs:65-72 *)
Inductive bgpnet := NetV4 (p : addrV4) | NetV6 (p : addrV6) | NetMac (p : addrMac).

(** afi/mod.rs:83-98 *)
Definition net_contains (oc : bool) (s a : bgpnet) : res bool :=
  match s with
  | NetV4 s4 => match a with NetV4 a4 => v4_contains oc s4 a4 | _ => Ok false end
  | NetV6 s6 => match a with NetV6 a6 => v6_contains oc s6 a6 | _ => Ok false end
  | NetMac sm => match a with NetMac am => mac_contains oc sm am | _ => Ok false end
  end.
