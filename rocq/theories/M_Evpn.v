(** Model of /repo/src/afi/evpn.rs. The transport mode is ignored by every
    decoder and encoder there and is left out. *)
From Verif Require Import Base M_Util M_Prefix M_Nlri.

(** evpn.rs:22-24: [[u8; 9]] *)
Definition esi := list N.
(** evpn.rs:55-61 *)
Record evpn1 := mkEvpn1 { ev1_rd : bgpRD; ev1_esi_type : N; ev1_esi : esi; ev1_tag : N; ev1_labels : list N }.
(** evpn.rs:111-119 *)
Record evpn2 := mkEvpn2 { ev2_rd : bgpRD; ev2_esi_type : N; ev2_esi : esi; ev2_tag : N; ev2_mac : mac;
  ev2_ip : option ipaddr; ev2_labels : list N }.
(** evpn.rs:228-232 *)
Record evpn3 := mkEvpn3 { ev3_rd : bgpRD; ev3_tag : N; ev3_ip : ipaddr }.
(** evpn.rs:294-299 *)
Record evpn4 := mkEvpn4 { ev4_rd : bgpRD; ev4_esi_type : N; ev4_esi : esi; ev4_ip : ipaddr }.
(** evpn.rs:369-378 *)
Record evpn5 := mkEvpn5 { ev5_rd : bgpRD; ev5_esi_type : N; ev5_esi : esi; ev5_tag : N; ev5_len : N;
  ev5_prefix : ipaddr; ev5_gw : ipaddr; ev5_labels : list N }.
(** evpn.rs:471-477 *)
Inductive evpn := Ev1 (r : evpn1) | Ev2 (r : evpn2) | Ev3 (r : evpn3) | Ev4 (r : evpn4) | Ev5 (r : evpn5).

(** evpn.rs:35-37 *)
Definition esi_read (buf : list N) : res (N * esi) :=
  t <- idx buf 0 ;; v <- rslice buf 1 10 ;; Ok (t, v).
(** [getn_u32(&buf[a..b])] (evpn.rs:63-81) *)
Definition u32_at (buf : list N) (a b : nat) : res N := s <- rslice buf a b ;; getn_u32 s.
(** [MplsLabels::extract_bits_from((8 * (buf.len() - pos)) as u8, &buf[pos..])] (evpn.rs:63-81, 121-170) *)
Definition labels_at (oc : bool) (buf : list N) (pos : nat) : res (list N * nat) :=
  if Nat.ltb (length buf) pos then Panic else
  s <- rfrom buf pos ;;
  labels_extract oc (cast 8 (8 * N.of_nat (length buf - pos))) s.
(** [IpAddr::V4(decode_addrv4_from(&buf[pos..])?)] and the IPv6 form (evpn.rs:121-170, 380-418) *)
Definition v4_at (buf : list N) (pos : nat) : res ipaddr :=
  s <- rfrom buf pos ;; a <- decode_addrv4_from s ;; Ok (IPv4 a).
(** evpn.rs:121-170, 380-418 *)
Definition v6_at (buf : list N) (pos : nat) : res ipaddr :=
  s <- rfrom buf pos ;; a <- decode_addrv6_from s ;; Ok (IPv6 a).

(** the ESI block of each encoder: [buf[pos] = type; buf[pos+1..pos+10].copy_from_slice(v)]
    (evpn.rs:84-90; the length test is on a fixed-size array) *)
Definition esi_write (pos : nat) (t : N) (v : esi) : Enc unit :=
  set_idx pos t ;;;
  if Nat.eqb (length v) 9 then write_at (pos + 1) v else epanic.
(** an address with its bit length (evpn.rs:190-205, 267-280, 342-355);
    [lim] is true where the slice is exactly the address *)
Definition ip_write (lim : bool) (pos : nat) (a : ipaddr) : Enc nat :=
  match a with
  | IPv4 v =>
      set_idx pos 32 ;;;
      (if lim then on_slice (pos + 1) (pos + 5) (encode_addrv4_to v) else on_from (pos + 1) (encode_addrv4_to v)) ;;;
      eret (pos + 5)%nat
  | IPv6 v =>
      set_idx pos 128 ;;;
      (if lim then on_slice (pos + 1) (pos + 17) (encode_addrv6_to v) else on_from (pos + 1) (encode_addrv6_to v)) ;;;
      eret (pos + 17)%nat
  end.

(** evpn.rs:63-81 *)
Definition evpn1_decode (oc : bool) (buf : list N) : res (evpn1 * nat) :=
  '(rd, p) <- decode_rd_from buf ;;
  s <- rfrom buf p ;;
  '(et, e) <- esi_read s ;;
  tag <- u32_at buf (p + 10) (p + 14) ;;
  '(ls, n) <- labels_at oc buf (p + 14) ;;
  Ok (mkEvpn1 rd et e tag ls, (p + 14 + n)%nat).
(** evpn.rs:82-95 *)
Definition evpn1_encode (r : evpn1) : Enc nat :=
  pos <~ encode_rd_to (ev1_rd r) ;;
  esi_write pos (ev1_esi_type r) (ev1_esi r) ;;;
  on_slice (pos + 10) (pos + 14) (setn_u32 (ev1_tag r)) ;;;
  '(_, n) <~ on_from (pos + 14) (labels_set (ev1_labels r)) ;;
  eret (pos + 14 + n)%nat.

(** evpn.rs:121-170 *)
Definition evpn2_decode (oc : bool) (buf : list N) : res (evpn2 * nat) :=
  '(rd, p) <- decode_rd_from buf ;;
  s <- rfrom buf p ;;
  '(et, e) <- esi_read s ;;
  tag <- u32_at buf (p + 10) (p + 14) ;;
  ml <- idx buf (p + 14) ;;
  if negb (ml =? 48) then Err EOther else
  ms <- rslice buf (p + 15) (p + 21) ;;
  mc <- mac_from_network_bytes ms ;;
  at_ <- idx buf (p + 21) ;;
  '(ip, sz) <- (if at_ =? 0 then Ok (None, (p + 22)%nat)
                else if at_ =? 32 then a <- v4_at buf (p + 22) ;; Ok (Some a, (p + 26)%nat)
                else if at_ =? 128 then a <- v6_at buf (p + 22) ;; Ok (Some a, (p + 38)%nat)
                else Err EOther) ;;
  '(ls, n) <- labels_at oc buf sz ;;
  Ok (mkEvpn2 rd et e tag mc ip ls, (sz + n)%nat).
(** evpn.rs:171-209 *)
Definition evpn2_encode (r : evpn2) : Enc nat :=
  pos <~ encode_rd_to (ev2_rd r) ;;
  esi_write pos (ev2_esi_type r) (ev2_esi r) ;;;
  on_slice (pos + 10) (pos + 14) (setn_u32 (ev2_tag r)) ;;;
  set_idx (pos + 14) 48 ;;;
  on_slice (pos + 15) (pos + 21) (mac_write_to_network_bytes (ev2_mac r)) ;;;
  pos <~ (match ev2_ip r with
          | None => set_idx (pos + 21) 0 ;;; eret (pos + 22)%nat
          | Some a => ip_write true (pos + 21) a
          end) ;;
  '(_, n) <~ on_from pos (labels_set (ev2_labels r)) ;;
  eret (pos + n)%nat.

(** evpn.rs:234-262 *)
Definition evpn3_decode (buf : list N) : res (evpn3 * nat) :=
  '(rd, p) <- decode_rd_from buf ;;
  tag <- u32_at buf p (p + 4) ;;
  l <- idx buf (p + 4) ;;
  if l =? 32 then a <- v4_at buf (p + 5) ;; Ok (mkEvpn3 rd tag a, (p + 9)%nat)
  else if l =? 128 then a <- v6_at buf (p + 5) ;; Ok (mkEvpn3 rd tag a, (p + 21)%nat)
  else Err EOther.
(** evpn.rs:263-283 *)
Definition evpn3_encode (r : evpn3) : Enc nat :=
  pos <~ encode_rd_to (ev3_rd r) ;;
  on_slice pos (pos + 4) (setn_u32 (ev3_tag r)) ;;;
  ip_write false (pos + 4) (ev3_ip r).

(** evpn.rs:301-332 *)
Definition evpn4_decode (buf : list N) : res (evpn4 * nat) :=
  '(rd, p) <- decode_rd_from buf ;;
  s <- rfrom buf p ;;
  '(et, e) <- esi_read s ;;
  l <- idx buf (p + 10) ;;
  if l =? 32 then a <- v4_at buf (p + 11) ;; Ok (mkEvpn4 rd et e a, (p + 15)%nat)
  else if l =? 128 then a <- v6_at buf (p + 11) ;; Ok (mkEvpn4 rd et e a, (p + 27)%nat)
  else Err EOther.
(** evpn.rs:333-358 *)
Definition evpn4_encode (r : evpn4) : Enc nat :=
  pos <~ encode_rd_to (ev4_rd r) ;;
  esi_write pos (ev4_esi_type r) (ev4_esi r) ;;;
  ip_write false (pos + 10) (ev4_ip r).

(** evpn.rs:380-418: both branches read IPv4 addresses *)
Definition evpn5_decode (oc : bool) (buf : list N) : res (evpn5 * nat) :=
  '(rd, p) <- decode_rd_from buf ;;
  s <- rfrom buf p ;;
  '(et, e) <- esi_read s ;;
  s' <- rfrom buf (p + 10) ;; tag <- getn_u32 s' ;;
  len <- idx buf (p + 14) ;;
  '(pfx, gw, pos) <- (
    if Nat.eqb (length buf) 34 then
      a <- v4_at buf (p + 15) ;; g <- v4_at buf (p + 19) ;; Ok (a, g, (p + 23)%nat)
    else if Nat.eqb (length buf) 58 then
      a <- v4_at buf (p + 15) ;; g <- v4_at buf (p + 31) ;; Ok (a, g, (p + 47)%nat)
    else Err EOther) ;;
  '(ls, n) <- labels_at oc buf pos ;;
  Ok (mkEvpn5 rd et e tag len pfx gw ls, (pos + n)%nat).
(** evpn.rs:419-453: the IPv6 branch advances by 16 only *)
Definition evpn5_encode (r : evpn5) : Enc nat :=
  pos <~ encode_rd_to (ev5_rd r) ;;
  esi_write pos (ev5_esi_type r) (ev5_esi r) ;;;
  on_slice (pos + 10) (pos + 14) (setn_u32 (ev5_tag r)) ;;;
  set_idx (pos + 14) (ev5_len r) ;;;
  pos <~ (match ev5_prefix r, ev5_gw r with
          | IPv4 a, IPv4 g =>
              on_from (pos + 15) (encode_addrv4_to a) ;;; on_from (pos + 19) (encode_addrv4_to g) ;;; eret (pos + 23)%nat
          | IPv6 a, IPv6 g =>
              on_from (pos + 15) (encode_addrv6_to a) ;;; on_from (pos + 31) (encode_addrv6_to g) ;;; eret (pos + 31)%nat
          | _, _ => eerr EOther
          end) ;;
  '(_, n) <~ on_from pos (labels_set (ev5_labels r)) ;;
  eret (pos + n)%nat.

(** one arm of the match: decode [&buf[2..2+routelen]] and wrap (evpn.rs:490-526) *)
Definition evpn_arm {T} (dec : list N -> res (T * nat)) (wrap : T -> evpn) (buf : list N) (routelen : nat)
  : res (evpn * nat) :=
  s <- rslice buf 2 (2 + routelen) ;;
  '(r, n) <- dec s ;;
  Ok (wrap r, (n + 2)%nat).
(** evpn.rs:490-526 *)
Definition evpn_decode (oc : bool) (buf : list N) : res (evpn * nat) :=
  t <- idx buf 0 ;;
  l <- idx buf 1 ;;
  let routelen := N.to_nat l in
  if Nat.ltb (length buf) (routelen + 2) then Err EOther
  else if t =? 1 then evpn_arm (evpn1_decode oc) Ev1 buf routelen
  else if t =? 2 then evpn_arm (evpn2_decode oc) Ev2 buf routelen
  else if t =? 3 then evpn_arm evpn3_decode Ev3 buf routelen
  else if t =? 4 then evpn_arm evpn4_decode Ev4 buf routelen
  else if t =? 5 then evpn_arm (evpn5_decode oc) Ev5 buf routelen
  else Err EOther.
(** evpn.rs:527-557 *)
Definition evpn_encode (r : evpn) : Enc nat :=
  pos <~ (match r with
          | Ev1 r => set_idx 0 1 ;;; on_from 2 (evpn1_encode r)
          | Ev2 r => set_idx 0 2 ;;; on_from 2 (evpn2_encode r)
          | Ev3 r => set_idx 0 3 ;;; on_from 2 (evpn3_encode r)
          | Ev4 r => set_idx 0 4 ;;; on_from 2 (evpn4_encode r)
          | Ev5 r => set_idx 0 5 ;;; on_from 2 (evpn5_encode r)
          end) ;;
  (if Nat.leb pos 255 then set_idx 1 (N.of_nat pos) else eerr ETooMany) ;;;
  eret (pos + 2)%nat.
