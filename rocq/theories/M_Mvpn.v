(** Model of /repo/src/afi/mvpn.rs. *)
From Verif Require Import Base M_Util M_Prefix M_Nlri M_Session.

(** mvpn.rs:20-23 *)
Record mvpn1 := mkMvpn1 { mv1_rd : bgpRD; mv1_orig : ipaddr }.
(** mvpn.rs:63-66 *)
Record mvpn2 := mkMvpn2 { mv2_rd : bgpRD; mv2_asn : N }.
(** mvpn.rs:97-102 *)
Record mvpn3 := mkMvpn3 { mv3_rd : bgpRD; mv3_source : ipaddr; mv3_group : ipaddr; mv3_orig : ipaddr }.
(** mvpn.rs:161-164 *)
Record mvpn4 := mkMvpn4 { mv4_spmsi : mvpn3; mv4_orig : ipaddr }.
(** mvpn.rs:203-207 *)
Record mvpn5 := mkMvpn5 { mv5_rd : bgpRD; mv5_source : ipaddr; mv5_group : ipaddr }.
(** mvpn.rs:257-262 *)
Record mvpn67 := mkMvpn67 { mv67_rd : bgpRD; mv67_asn : N; mv67_rp : ipaddr; mv67_group : ipaddr }.
(** mvpn.rs:314-322 *)
Inductive mvpn :=
| MvT1 (r : mvpn1) | MvT2 (r : mvpn2) | MvT3 (r : mvpn3) | MvT4 (r : mvpn4)
| MvT5 (r : mvpn5) | MvT6 (r : mvpn67) | MvT7 (r : mvpn67).

(** [decode_addr_from(&buf[a..b])?] (mvpn.rs:30-51, 113-147) *)
Definition addr_at (buf : list N) (a b : nat) : res ipaddr :=
  s <- rslice buf a b ;; decode_addr_from s.

(** mvpn.rs:30-51 *)
Definition mvpn1_decode (mode : tmode) (buf : list N) : res (mvpn1 * nat) :=
  '(rd, n) <- decode_rd_from buf ;;
  match mode with
  | ModeV4 =>
      if Nat.leb 12 (length buf) then
        a <- addr_at buf n (n + 4) ;; Ok (mkMvpn1 rd a, (n + 4)%nat)
      else Err EOther
  | ModeV6 =>
      if Nat.leb 24 (length buf) then
        a <- addr_at buf n (n + 16) ;; Ok (mkMvpn1 rd a, (n + 16)%nat)
      else Err EOther
  end.
(** mvpn.rs:52-56 *)
Definition mvpn1_encode (r : mvpn1) : Enc nat :=
  p1 <~ encode_rd_to (mv1_rd r) ;;
  p2 <~ on_from p1 (encode_addr_to (mv1_orig r)) ;;
  eret (p1 + p2)%nat.

(** mvpn.rs:73-85 *)
Definition mvpn2_decode (buf : list N) : res (mvpn2 * nat) :=
  if Nat.leb 12 (length buf) then
    '(rd, n) <- decode_rd_from buf ;;
    s <- rslice buf 8 12 ;; asn <- getn_u32 s ;;
    Ok (mkMvpn2 rd asn, (n + 4)%nat)
  else Err EOther.
(** mvpn.rs:86-90 *)
Definition mvpn2_encode (r : mvpn2) : Enc nat :=
  p1 <~ encode_rd_to (mv2_rd r) ;;
  on_from p1 (setn_u32 (mv2_asn r)) ;;;
  eret (p1 + 4)%nat.

(** [if buf[i] != k || buf[j] != k { return Err }] (mvpn.rs:113-147, 214-243) *)
Definition check_lens (buf : list N) (i j : nat) (k : N) : res unit :=
  x <- idx buf i ;;
  if negb (x =? k) then Err EOther else
  y <- idx buf j ;;
  if negb (y =? k) then Err EOther else Ok tt.

(** mvpn.rs:113-147 *)
Definition mvpn3_decode (mode : tmode) (buf : list N) : res (mvpn3 * nat) :=
  '(rd, _) <- decode_rd_from buf ;;
  match mode with
  | ModeV4 =>
      if Nat.leb 22 (length buf) then
        _ <- check_lens buf 8 13 32 ;;
        s <- addr_at buf 9 13 ;; g <- addr_at buf 14 18 ;; o <- addr_at buf 18 22 ;;
        Ok (mkMvpn3 rd s g o, 22%nat)
      else Err EOther
  | ModeV6 =>
      if Nat.leb 58 (length buf) then
        _ <- check_lens buf 8 25 128 ;;
        s <- addr_at buf 9 25 ;; g <- addr_at buf 26 42 ;; o <- addr_at buf 42 58 ;;
        Ok (mkMvpn3 rd s g o, 58%nat)
      else Err EOther
  end.
(** mvpn.rs:148-154; the two prefix length octets are not written *)
Definition mvpn3_encode (r : mvpn3) : Enc nat :=
  p1 <~ encode_rd_to (mv3_rd r) ;;
  a <~ on_from p1 (encode_addr_to (mv3_source r)) ;;
  b <~ on_from (p1 + a) (encode_addr_to (mv3_group r)) ;;
  c <~ on_from (p1 + a + b) (encode_addr_to (mv3_orig r)) ;;
  eret (p1 + a + b + c)%nat.

(** mvpn.rs:171-191 *)
Definition mvpn4_decode (mode : tmode) (buf : list N) : res (mvpn4 * nat) :=
  x <- idx buf 0 ;;
  if negb (x =? 3) then Err EOther else
  y <- idx buf 1 ;;
  if negb (y =? 22) then Err EOther else
  s <- rfrom buf 2 ;;
  match mvpn3_decode mode s with
  | Err _ => Err EOther
  | Ok (sp, n) =>
      s' <- rfrom buf (2 + n) ;;
      o <- decode_addr_from s' ;;
      Ok (mkMvpn4 sp o, (n + 6)%nat)
  | Panic => Panic
  | OutOfFuel => OutOfFuel
  end.
(** mvpn.rs:192-196; the inner route header is not written *)
Definition mvpn4_encode (r : mvpn4) : Enc nat :=
  p1 <~ mvpn3_encode (mv4_spmsi r) ;;
  a <~ on_from p1 (encode_addr_to (mv4_orig r)) ;;
  eret (p1 + a)%nat.

(** mvpn.rs:214-243; note the slice [9..15] in the IPv6 branch *)
Definition mvpn5_decode (mode : tmode) (buf : list N) : res (mvpn5 * nat) :=
  '(rd, _) <- decode_rd_from buf ;;
  match mode with
  | ModeV4 =>
      if Nat.leb 18 (length buf) then
        _ <- check_lens buf 8 13 32 ;;
        s <- addr_at buf 9 13 ;; g <- addr_at buf 14 18 ;;
        Ok (mkMvpn5 rd s g, 18%nat)
      else Err EOther
  | ModeV6 =>
      if Nat.leb 42 (length buf) then
        _ <- check_lens buf 8 25 128 ;;
        s <- addr_at buf 9 15 ;; g <- addr_at buf 26 42 ;;
        Ok (mkMvpn5 rd s g, 42%nat)
      else Err EOther
  end.
(** mvpn.rs:244-249 *)
Definition mvpn5_encode (r : mvpn5) : Enc nat :=
  p1 <~ encode_rd_to (mv5_rd r) ;;
  a <~ on_from p1 (encode_addr_to (mv5_source r)) ;;
  b <~ on_from (p1 + a) (encode_addr_to (mv5_group r)) ;;
  eret (p1 + a + b)%nat.

(** mvpn.rs:269-300 *)
Definition mvpn67_decode (mode : tmode) (buf : list N) : res (mvpn67 * nat) :=
  '(rd, _) <- decode_rd_from buf ;;
  match mode with
  | ModeV4 =>
      if Nat.leb 22 (length buf) then
        _ <- check_lens buf 12 17 32 ;;
        n <- rslice buf 8 12 ;; asn <- getn_u32 n ;;
        s <- addr_at buf 13 17 ;; g <- addr_at buf 18 22 ;;
        Ok (mkMvpn67 rd asn s g, 22%nat)
      else Err EOther
  | ModeV6 =>
      if Nat.leb 46 (length buf) then
        _ <- check_lens buf 12 29 128 ;;
        n <- rslice buf 8 12 ;; asn <- getn_u32 n ;;
        s <- addr_at buf 13 29 ;; g <- addr_at buf 30 46 ;;
        Ok (mkMvpn67 rd asn s g, 46%nat)
      else Err EOther
  end.
(** mvpn.rs:301-308 *)
Definition mvpn67_encode (r : mvpn67) : Enc nat :=
  p1 <~ encode_rd_to (mv67_rd r) ;;
  on_from p1 (setn_u32 (mv67_asn r)) ;;;
  a <~ on_from (p1 + 4) (encode_addr_to (mv67_rp r)) ;;
  b <~ on_from (p1 + 4 + a) (encode_addr_to (mv67_group r)) ;;
  eret (p1 + 4 + a + b)%nat.

(** one arm of the match: decode [&buf[2..2+routelen]] and wrap (mvpn.rs:337-374) *)
Definition mvpn_arm {T} (dec : list N -> res (T * nat)) (wrap : T -> mvpn) (buf : list N) (routelen : nat)
  : res (mvpn * nat) :=
  s <- rslice buf 2 (2 + routelen) ;;
  '(r, n) <- dec s ;;
  Ok (wrap r, (n + 2)%nat).

(** mvpn.rs:337-374 *)
Definition mvpn_decode (mode : tmode) (buf : list N) : res (mvpn * nat) :=
  t <- idx buf 0 ;;
  l <- idx buf 1 ;;
  let routelen := N.to_nat l in
  if t =? 1 then mvpn_arm (mvpn1_decode mode) MvT1 buf routelen
  else if t =? 2 then mvpn_arm mvpn2_decode MvT2 buf routelen
  else if t =? 3 then mvpn_arm (mvpn3_decode mode) MvT3 buf routelen
  else if t =? 4 then mvpn_arm (mvpn4_decode mode) MvT4 buf routelen
  else if t =? 5 then mvpn_arm (mvpn5_decode mode) MvT5 buf routelen
  else if t =? 6 then mvpn_arm (mvpn67_decode mode) MvT6 buf routelen
  else if t =? 7 then mvpn_arm (mvpn67_decode mode) MvT7 buf routelen
  else Err EOther.

(** mvpn.rs:375-408 *)
Definition mvpn_encode (r : mvpn) : Enc nat :=
  sz <~ (match r with
         | MvT1 r => set_idx 0 1 ;;; on_from 2 (mvpn1_encode r)
         | MvT2 r => set_idx 0 2 ;;; on_from 2 (mvpn2_encode r)
         | MvT3 r => set_idx 0 3 ;;; on_from 2 (mvpn3_encode r)
         | MvT4 r => set_idx 0 4 ;;; on_from 2 (mvpn4_encode r)
         | MvT5 r => set_idx 0 5 ;;; on_from 2 (mvpn5_encode r)
         | MvT6 r => set_idx 0 6 ;;; on_from 2 (mvpn67_encode r)
         | MvT7 r => set_idx 0 7 ;;; on_from 2 (mvpn67_encode r)
         end) ;;
  set_idx 1 (cast 8 (N.of_nat sz)) ;;;
  eret (sz + 2)%nat.
