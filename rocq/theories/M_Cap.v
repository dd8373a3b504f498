(** Model of the capability part of /repo/src/lib.rs. *)
From Verif Require Import Base M_Util.

(** lib.rs:134-139 *)
Record capGR := mkGR { gr_afi : N; gr_safi : N; gr_fwd : bool }.
(** lib.rs:198-204 *)
Record capLLGR := mkLLGR { ll_afi : N; ll_safi : N; ll_flags : N; ll_stale : N }.
(** lib.rs:249-255 *)
Record capAP := mkAP { ap_afi : N; ap_safi : N; ap_send : bool; ap_receive : bool }.

(** The seventeen payload-free address-family constructors of
    [enum BgpCapability], lib.rs:302-336 (grouped here under [CapMP]). *)
Inductive safi :=
| SafiIPv4u | SafiIPv4fu | SafiIPv4m | SafiIPv4mvpn | SafiVPNv4u | SafiVPNv4fu
| SafiVPNv4m | SafiIPv4lu | SafiIPv4mdt | SafiIPv6u | SafiIPv6fu | SafiIPv6lu
| SafiIPv6mdt | SafiVPNv6u | SafiVPNv6m | SafiVPLS | SafiEVPN.

(** [enum BgpCapability], lib.rs:302-357. [String]s are represented by their
    UTF-8 bytes. *)
Inductive bgpcap :=
| CapMP (s : safi)
| CapGR (restart_state : bool) (restart_time : N) (afis : list capGR)
| CapASN32 (n : N)
| CapRR
| CapAddPath (v : list capAP)
| CapEnhancedRR
| CapLLGR (v : list capLLGR)
| CapFQDN (hostname domainname : list N)
| CapBFD.

(** lib.rs:141-160 *)
Definition afisafi_from_cap (c : bgpcap) : res (N * N) :=
  match c with
  | CapMP SafiIPv4u => Ok (1, 1)
  | CapMP SafiIPv4m => Ok (1, 4)
  | CapMP SafiIPv4mvpn => Ok (1, 5)
  | CapMP SafiIPv4mdt => Ok (1, 66)
  | CapMP SafiVPNv4u => Ok (1, 128)
  | CapMP SafiVPNv4m => Ok (1, 129)
  | CapMP SafiIPv4lu => Ok (1, 2)
  | CapMP SafiIPv6u => Ok (2, 1)
  | CapMP SafiIPv6lu => Ok (2, 4)
  | CapMP SafiIPv6mdt => Ok (2, 66)
  | CapMP SafiVPNv6u => Ok (2, 128)
  | CapMP SafiVPNv6m => Ok (2, 129)
  | CapMP SafiVPLS => Ok (25, 65)
  | CapMP SafiEVPN => Ok (25, 70)
  | _ => Err EOther
  end.

(** lib.rs:163-173 *)
Definition gr_new_from_cap (c : bgpcap) (fwd : bool) : res capGR :=
  ' (afi, sf) <- afisafi_from_cap c ;; Ok (mkGR afi sf fwd).

(** [x.leading_zeros() < 8] for a u32, lib.rs:213, 227 *)
Definition exceeds24 (x : N) : bool := 2 ^ 24 <=? x.

(** lib.rs:207-222 *)
Definition llgr_new_from_cap (c : bgpcap) (flags stale : N) : res capLLGR :=
  ' (afi, sf) <- afisafi_from_cap c ;;
  if exceeds24 stale then Err EOther else Ok (mkLLGR afi sf flags stale).

(** lib.rs:265-278 *)
Definition ap_new_from_cap (c : bgpcap) (send receive : bool) : res capAP :=
  ' (afi, sf) <- afisafi_from_cap c ;; Ok (mkAP afi sf send receive).

(** lib.rs:257-264 *)
Definition ap_response (src : capAP) : capAP :=
  mkAP (ap_afi src) (ap_safi src) (ap_receive src) (ap_send src).

(** lib.rs:174-185 *)
Definition gr_encode (c : capGR) : Enc unit :=
  len <~ elen ;;
  if Nat.ltb len 4 then eerr EInsufficient else
  on_slice 0 2 (setn_u16 (gr_afi c)) ;;;
  set_idx 2 (gr_safi c) ;;;
  set_idx 3 0 ;;;
  (if gr_fwd c then upd_idx 3 (fun x => N.lor x 128) else eret tt).

(** lib.rs:186-195 *)
Definition gr_decode (buf : list N) : res capGR :=
  if Nat.ltb (length buf) 4 then Err EInsufficient else
  s <- rslice buf 0 2 ;; afi <- getn_u16 s ;;
  sf <- idx buf 2 ;; f <- idx buf 3 ;;
  Ok (mkGR afi sf (negb (N.land f 128 =? 0))).

(** lib.rs:223-235 *)
Definition llgr_encode (c : capLLGR) : Enc unit :=
  len <~ elen ;;
  if Nat.ltb len 7 then eerr EInsufficient else
  if exceeds24 (ll_stale c) then eerr EOther else
  on_slice 0 2 (setn_u16 (ll_afi c)) ;;;
  set_idx 2 (ll_safi c) ;;;
  set_idx 3 (ll_flags c) ;;;
  write_at 4 (skipn 1 (be_bytes 4 (ll_stale c))).

(** lib.rs:236-246. The u32 addition cannot overflow (24-bit operands). *)
Definition llgr_decode (buf : list N) : res capLLGR :=
  if Nat.ltb (length buf) 7 then Err EInsufficient else
  s <- rslice buf 0 2 ;; afi <- getn_u16 s ;;
  sf <- idx buf 2 ;; fl <- idx buf 3 ;;
  b4 <- idx buf 4 ;; s5 <- rslice buf 5 7 ;; lo <- getn_u16 s5 ;;
  Ok (mkLLGR afi sf fl (N.shiftl b4 16 + lo)).

(** lib.rs:279-287 *)
Definition ap_encode (c : capAP) : Enc unit :=
  len <~ elen ;;
  if Nat.ltb len 4 then eerr EInsufficient else
  on_slice 0 2 (setn_u16 (ap_afi c)) ;;;
  set_idx 2 (ap_safi c) ;;;
  set_idx 3 (N.lor (N.b2n (ap_receive c)) (N.shiftl (N.b2n (ap_send c)) 1)).

(** lib.rs:288-298 *)
Definition ap_decode (buf : list N) : res capAP :=
  if Nat.ltb (length buf) 4 then Err EInsufficient else
  s <- rslice buf 0 2 ;; afi <- getn_u16 s ;;
  sf <- idx buf 2 ;; f <- idx buf 3 ;;
  Ok (mkAP afi sf (0 <? N.land f 2) (0 <? N.land f 1)).

(** lib.rs:361-391 *)
Definition bytes_len (c : bgpcap) : nat :=
  match c with
  | CapMP _ => 6
  | CapGR _ _ afis => 4 + length afis * 4
  | CapASN32 _ => 6
  | CapRR => 2
  | CapAddPath v => 2 + length v * 4
  | CapEnhancedRR => 2
  | CapLLGR v => 2 + length v * 7
  | CapFQDN h d => 4 + length h + length d
  | CapBFD => 2
  end.

(** [buf.clone_from_slice(bs)] on the whole buffer: panics unless the lengths
    are equal. (lib.rs:398-450) *)
Definition clone_from_slice (bs : list N) : Enc unit :=
  fun buf => if Nat.eqb (length buf) (length bs) then Ok (tt, bs) else Panic.

(** The byte literals of lib.rs:398-450. *)
Definition safi_bytes (s : safi) : list N :=
  match s with
  | SafiIPv4u => [1; 4; 0; 1; 0; 1]
  | SafiIPv4fu => [1; 4; 0; 1; 0; 133]
  | SafiIPv4m => [1; 4; 0; 1; 0; 4]
  | SafiIPv4mvpn => [1; 4; 0; 1; 0; 5]
  | SafiVPNv4u => [1; 4; 0; 1; 0; 128]
  | SafiVPNv4fu => [1; 4; 0; 1; 0; 134]
  | SafiVPNv4m => [1; 4; 0; 1; 0; 129]
  | SafiIPv4lu => [1; 4; 0; 1; 0; 2]
  | SafiIPv4mdt => [1; 4; 0; 1; 0; 66]
  | SafiIPv6u => [1; 4; 0; 2; 0; 1]
  | SafiIPv6fu => [1; 4; 0; 2; 0; 133]
  | SafiIPv6lu => [1; 4; 0; 2; 0; 4]
  | SafiIPv6mdt => [1; 4; 0; 2; 0; 66]
  | SafiVPNv6u => [1; 4; 0; 2; 0; 128]
  | SafiVPNv6m => [1; 4; 0; 2; 0; 129]
  | SafiVPLS => [1; 4; 0; 25; 0; 65]
  | SafiEVPN => [1; 4; 0; 25; 0; 70]
  end.

(** The loops [for cap in afis { cap.encode_to(&mut buf[cp..cp + k])?; cp += k }]
    of lib.rs:464-468, 486-490, 499-503. *)
Fixpoint fill_entries {T} (k : nat) (enc : T -> Enc unit) (v : list T) (cp : nat) : Enc unit :=
  match v with
  | [] => eret tt
  | c :: v' => on_slice cp (cp + k) (enc c) ;;; fill_entries k enc v' (cp + k)
  end.

(** lib.rs:393-518 *)
Definition fill_buffer (c : bgpcap) : Enc unit :=
  len <~ elen ;;
  if Nat.ltb len (bytes_len c) then eerr EInsufficient else
  match c with
  | CapMP s => clone_from_slice (safi_bytes s)
  | CapGR restart_state restart_time afis =>
      set_idx 0 64 ;;;
      set_idx 1 (cast 8 (2 + 4 * N.of_nat (length afis))) ;;;
      (if 4096 <=? restart_time then eerr EOther else
       on_slice 2 4 (setn_u16 restart_time) ;;;
       (if restart_state then upd_idx 2 (fun x => N.lor x 128) else eret tt) ;;;
       fill_entries 4 gr_encode afis 4)
  | CapASN32 as_num =>
      clone_from_slice [65; 4; cast 8 (N.shiftr as_num 24);
                        N.land (N.shiftr as_num 16) 255;
                        N.land (N.shiftr as_num 8) 255;
                        N.land as_num 255]
  | CapRR => clone_from_slice [2; 0]
  | CapAddPath vap =>
      set_idx 0 69 ;;;
      set_idx 1 (cast 8 (4 * N.of_nat (length vap))) ;;;
      fill_entries 4 ap_encode vap 2
  | CapEnhancedRR => clone_from_slice [70; 0]
  | CapLLGR v =>
      set_idx 0 71 ;;;
      set_idx 1 (cast 8 (7 * N.of_nat (length v))) ;;;
      fill_entries 7 llgr_encode v 2
  | CapFQDN hostname domainname =>
      set_idx 0 73 ;;;
      set_idx 1 (cast 8 (N.of_nat (length hostname))) ;;;
      let pos := 1%nat in
      write_at pos hostname ;;;
      let pos := (pos + length hostname)%nat in
      set_idx pos (cast 8 (N.of_nat (length domainname))) ;;;
      let pos := (pos + 1)%nat in
      write_at pos domainname
  | CapBFD => clone_from_slice [74; 0]
  end.

(** [std::str::from_utf8]: the well-formed byte sequences of the Unicode
    standard, table 3-7. (lib.rs:618, 628) *)
Definition cont (b : N) : bool := (128 <=? b) && (b <=? 191).
(** [std::str::from_utf8], lib.rs:618, 628: whether a byte string is well formed *)
Fixpoint utf8_ok (l : list N) : bool :=
  match l with
  | [] => true
  | b :: l1 =>
      if b <? 128 then utf8_ok l1 else
      match l1 with
      | [] => false
      | c :: l2 =>
          if (194 <=? b) && (b <=? 223) then cont c && utf8_ok l2 else
          match l2 with
          | [] => false
          | d :: l3 =>
              if b =? 224 then (160 <=? c) && (c <=? 191) && cont d && utf8_ok l3 else
              if b =? 237 then (128 <=? c) && (c <=? 159) && cont d && utf8_ok l3 else
              if (225 <=? b) && (b <=? 239) then cont c && cont d && utf8_ok l3 else
              match l3 with
              | [] => false
              | e :: l4 =>
                  if b =? 240 then (144 <=? c) && (c <=? 191) && cont d && cont e && utf8_ok l4 else
                  if (241 <=? b) && (b <=? 243) then cont c && cont d && cont e && utf8_ok l4 else
                  if b =? 244 then (128 <=? c) && (c <=? 143) && cont d && cont e && utf8_ok l4 else
                  false
              end
          end
      end
  end.
(** [std::str::from_utf8(..)?], lib.rs:618, 628 *)
Definition from_utf8 (l : list N) : res (list N) :=
  if utf8_ok l then Ok l else Err EOther.

(** The loops [while cp < data.len() { v.push(T::decode_from(&data[cp..cp + k])?);
    cp += k }] of lib.rs:563-566, 586-589, 604-607. *)
Fixpoint entries_loop {T} (k : nat) (dec : list N -> res T) (fuel : nat)
    (data : list N) (cp : nat) : res (list T) :=
  if Nat.ltb cp (length data) then
    match fuel with
    | O => OutOfFuel
    | S f => s <- rslice data cp (cp + k) ;; c <- dec s ;;
             v <- entries_loop k dec f data (cp + k) ;; Ok (c :: v)
    end
  else Ok [].

(** The match on the four payload bytes, lib.rs:527-546. *)
Definition safi_of_bytes (b0 b1 b2 b3 : N) : option safi :=
  if negb ((b0 =? 0) && (b2 =? 0)) then None else
  if b1 =? 1 then
    (if b3 =? 1 then Some SafiIPv4u else
     if b3 =? 133 then Some SafiIPv4fu else
     if b3 =? 4 then Some SafiIPv4m else
     if b3 =? 5 then Some SafiIPv4mvpn else
     if b3 =? 128 then Some SafiVPNv4u else
     if b3 =? 134 then Some SafiVPNv4fu else
     if b3 =? 129 then Some SafiVPNv4m else
     if b3 =? 2 then Some SafiIPv4lu else
     if b3 =? 66 then Some SafiIPv4mdt else None)
  else if b1 =? 2 then
    (if b3 =? 1 then Some SafiIPv6u else
     if b3 =? 133 then Some SafiIPv6fu else
     if b3 =? 4 then Some SafiIPv6lu else
     if b3 =? 66 then Some SafiIPv6mdt else
     if b3 =? 128 then Some SafiVPNv6u else
     if b3 =? 129 then Some SafiVPNv6m else None)
  else if b1 =? 25 then
    (if b3 =? 65 then Some SafiVPLS else
     if b3 =? 70 then Some SafiEVPN else None)
  else None.

(** [if !data.is_empty() { return Err } ; c] : lib.rs:549-553, 592-596, 638-642 *)
Definition empty_cap (data : list N) (c : bgpcap) : res (option bgpcap) :=
  match data with [] => Ok (Some c) | _ => Err EOther end.

(** lib.rs:520-644 *)
Definition from_type_and_data (captype : N) (data : list N) : res (option bgpcap) :=
  if captype =? 1 then
    (if negb (Nat.eqb (length data) 4) then Err EOther else
     match data with
     | [b0; b1; b2; b3] =>
         match safi_of_bytes b0 b1 b2 b3 with
         | Some s => Ok (Some (CapMP s))
         | None => Ok None
         end
     | _ => Panic (* TryFrom::unwrap, lib.rs:526 *)
     end)
  else if captype =? 2 then empty_cap data CapRR
  else if captype =? 64 then
    (if (Nat.ltb (length data) 2 || negb (Nat.eqb ((length data - 2) mod 4) 0))%bool
     then Err EOther else
     d0 <- idx data 0 ;;
     s <- rslice data 0 2 ;; t <- getn_u16 s ;;
     afis <- entries_loop 4 gr_decode (length data) data 2 ;;
     Ok (Some (CapGR (negb (N.land d0 128 =? 0)) (N.land t 4095) afis)))
  else if captype =? 65 then
    (if negb (Nat.eqb (length data) 4) then Err EOther else
     n <- getn_u32 data ;; Ok (Some (CapASN32 n)))
  else if captype =? 69 then
    (if negb (Nat.eqb (Nat.land (length data) 3) 0) then Err EOther else
     v <- entries_loop 4 ap_decode (length data) data 0 ;;
     Ok (Some (CapAddPath v)))
  else if captype =? 70 then empty_cap data CapEnhancedRR
  else if captype =? 71 then
    (if negb (Nat.eqb (length data mod 7) 0) then Err EOther else
     v <- entries_loop 7 llgr_decode (length data) data 0 ;;
     Ok (Some (CapLLGR v)))
  else if captype =? 73 then
    (s <- rfrom data 0 ;;
     match s with [] => Err EOther | _ =>
     h <- idx data 0 ;;
     let hlen := N.to_nat h in
     s <- rfrom data 1 ;;
     if Nat.ltb (length s) hlen then Err EOther else
     hs <- rslice data 1 (1 + hlen) ;;
     hostname <- from_utf8 hs ;;
     let pos := (1 + hlen)%nat in
     s <- rfrom data pos ;;
     match s with [] => Err EOther | _ =>
     d <- idx data pos ;;
     let dlen := N.to_nat d in
     let pos := (pos + 1)%nat in
     s <- rfrom data pos ;;
     if Nat.ltb (length s) dlen then Err EOther else
     ds <- rslice data pos (pos + dlen) ;;
     domainname <- from_utf8 ds ;;
     s <- rfrom data pos ;;
     match s with [] => Ok (Some (CapFQDN hostname domainname)) | _ => Err EOther end
     end end)
  else if captype =? 74 then empty_cap data CapBFD
  else Ok None.

(** lib.rs:648-666. [inl] is the inner [Ok(cap)], [inr] the inner
    [Err((captype, data))]. *)
Definition from_buffer (buf : list N) : res ((bgpcap + N * list N) * nat) :=
  if Nat.ltb (length buf) 2 then Err EInsufficient else
  captype <- idx buf 0 ;;
  dl <- idx buf 1 ;;
  let datalength := N.to_nat dl in
  if Nat.ltb (length buf) (datalength + 2) then Err EInsufficient else
  data <- rslice buf 2 (2 + datalength) ;;
  o <- from_type_and_data captype data ;;
  match o with
  | Some cap => Ok (inl cap, 2 + datalength)%nat
  | None => Ok (inr (captype, data), 2 + datalength)%nat
  end.
