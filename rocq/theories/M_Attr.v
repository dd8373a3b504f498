(** Model of /repo/src/message/attributes: path attributes. [Display], [Debug], serialization and log
    lines are not modelled. A [BTreeSet] is the strictly ascending list of its elements. *)
From Verif Require Import Base M_Util M_Prefix M_Nlri M_Vpls M_Mvpn M_Cap M_Open M_Session M_Addrs.

(** ** [std::collections::BTreeSet] *)

(** [BTreeSet::insert]: nothing changes when an equal element is present (community.rs:102-110, 245-253, extcommunity.rs:190-198) *)
Fixpoint bset_insert {A} (cmp : A -> A -> comparison) (x : A) (l : list A) : list A :=
  match l with
  | [] => [x]
  | y :: l' => match cmp x y with Lt => x :: l | Eq => l | Gt => y :: bset_insert cmp x l' end
  end.
(** inserting one after the other into an empty set (community.rs:102-110, 245-253, extcommunity.rs:190-198) *)
Definition bset_of {A} (cmp : A -> A -> comparison) (l : list A) : list A :=
  fold_left (fun s x => bset_insert cmp x s) l [].
(** derived [Ord] compares the fields in order (community.rs:43, extcommunity.rs:16) *)
Definition cmp_then (a b : comparison) : comparison := match a with Eq => b | _ => a end.

(** ** Values *)

(** origin.rs:19-23 *)
Inductive origin := Igp | Egp | Incomplete.
(** extcommunity.rs:19-24 and the order derived at line 16 *)
Record ecomm := mkEC { ec_type : N; ec_subtype : N; ec_a : N; ec_b : N }.
(** extcommunity.rs:16, derived [Ord] *)
Definition ecomm_cmp (x y : ecomm) : comparison :=
  cmp_then (ec_type x ?= ec_type y) (cmp_then (ec_subtype x ?= ec_subtype y)
    (cmp_then (ec_a x ?= ec_a y) (ec_b x ?= ec_b y))).
(** community.rs:46-50 and the order derived at line 43 *)
Record lcomm := mkLC { lc_ga : N; lc_1 : N; lc_2 : N }.
(** community.rs:43, derived [Ord] *)
Definition lcomm_cmp (x y : lcomm) : comparison :=
  cmp_then (lc_ga x ?= lc_ga y) (cmp_then (lc_1 x ?= lc_1 y) (lc_2 x ?= lc_2 y)).
(** afi/mod.rs:53-61 *)
Inductive bgpaddr :=
| BANone
| BAV4 (a : N)
| BAV6 (a : N)
| BAV4RD (rd : bgpRD) (a : N)
| BAV6RD (rd : bgpRD) (a : N)
| BAL2 (x : bgpL2)
| BAMVPN (r : mvpn).
(** pmsitunnelattr.rs:62-67, 19-24, 38-40, 49-52 *)
Inductive pmsi_tun :=
| PtNone
| PtRSVP (ext_tunnel_id reserved tunnel_id p2mp_id : N)
| PtIngress (endpoint : N)
| PtMLDP (rootnode : ipaddr) (opaque : list N).
(** pmsitunnelattr.rs:83-88 *)
Record pmsi := mkPmsi { pm_flags : N; pm_type : N; pm_label : list N; pm_tun : pmsi_tun }.

(** attributes/mod.rs:65-84 *)
Inductive attr :=
| AOrigin (o : origin)
| AASPath (v : list N)
| ANextHop (a : ipaddr)
| AMED (v : N)
| ALocalPref (v : N)
| AAtomicAggregate (a : ipaddr)
| AAggregatorAS (asn addr : N)
| ACommunityList (v : list N)
| AOriginatorID (a : ipaddr)
| AClusterList (v : list ipaddr)
| AMPUpdates (nexthop : bgpaddr) (a : addrs)
| AMPWithdraws (a : addrs)
| AExtCommunityList (v : list ecomm)
| ALargeCommunityList (v : list lcomm)
| APMSITunnel (t : pmsi)
| AAttrSet (asn : N) (v : list attr)
| AConnector (asn addr orig : N)
| AUnknown (tc flags : N) (v : list N).

(** the [attr] method of each type: type code and flags. origin.rs:89, aspath.rs:131, nexthop.rs:55, med.rs:50,
    localpref.rs:50, atomicaggregate.rs:50, aggregatoras.rs:56, community.rs:282 and 125, originatorid.rs:56,
    clusterlist.rs:51, multiproto.rs:165 and 223, extcommunity.rs:218, pmsitunnelattr.rs:208, attrset.rs:79,
    connector.rs:63, unknown.rs:66 *)
Definition attr_params (a : attr) : N * N :=
  match a with
  | AOrigin _ => (1, 64)
  | AASPath _ => (2, 80)
  | ANextHop _ => (3, 64)
  | AMED _ => (4, 128)
  | ALocalPref _ => (5, 64)
  | AAtomicAggregate _ => (6, 64)
  | AAggregatorAS _ _ => (7, 64)
  | ACommunityList _ => (8, 208)
  | AOriginatorID _ => (9, 128)
  | AClusterList _ => (10, 128)
  | AMPUpdates _ _ => (14, 144)
  | AMPWithdraws _ => (15, 144)
  | AExtCommunityList _ => (16, 192)
  | AConnector _ _ _ => (20, 192)
  | APMSITunnel _ => (22, 192)
  | ALargeCommunityList _ => (32, 240)
  | AAttrSet _ _ => (128, 224)
  | AUnknown tc flags _ => (tc, flags)
  end.

(** ** Scalar and address attributes *)

(** origin.rs:46-63 *)
Definition origin_decode (buf : list N) : res origin :=
  match buf with
  | [] => Err EInsufficient
  | b :: _ => if b =? 0 then Ok Igp else if b =? 1 then Ok Egp else if b =? 2 then Ok Incomplete else Err EOther
  end.
(** origin.rs:95-114 *)
Definition origin_encode (o : origin) : Enc nat :=
  len <~ elen ;;
  if Nat.eqb len 0 then eerr EInsufficient else
  set_idx 0 (match o with Igp => 0 | Egp => 1 | Incomplete => 2 end) ;;; eret 1%nat.

(** aspath.rs:101-109, one iteration *)
Definition as_step (as32 : bool) (b : list N) : res (N * nat) :=
  if as32 then s <- rslice b 0 4 ;; v <- getn_u32 s ;; Ok (v, 4%nat)
  else s <- rslice b 0 2 ;; v <- getn_u16 s ;; Ok (v, 2%nat).
(** aspath.rs:90-111: decoding starts at the remainder of the length, not after the segment header *)
Definition aspath_decode (p : params) (buf : list N) : res (list N) :=
  if Nat.ltb (length buf) 2 then Ok [] else
  let pos := if sp_as32 p then Nat.modulo (length buf) 4 else Nat.modulo (length buf) 2 in
  '(v, _) <- dec_loop (as_step (sp_as32 p)) (S (length buf)) buf pos ;;
  Ok v.
(** aspath.rs:157-165 *)
Fixpoint as_write (as32 : bool) (v : list N) (pos : nat) : Enc nat :=
  match v with
  | [] => eret pos
  | i :: v' =>
      if as32 then on_slice pos (pos + 4) (setn_u32 i) ;;; as_write as32 v' (pos + 4)
      else on_slice pos (pos + 2) (setn_u16 (cast 16 i)) ;;; as_write as32 v' (pos + 2)
  end.
(** aspath.rs:137-167 *)
Definition aspath_encode (p : params) (v : list N) : Enc nat :=
  match v with
  | [] => eret 0%nat
  | _ =>
      len <~ elen ;;
      if Nat.ltb len (2 + length v * (if sp_as32 p then 4 else 2)) then eerr EInsufficient else
      set_idx 0 2 ;;;
      set_idx 1 (cast 8 (N.of_nat (length v))) ;;;
      as_write (sp_as32 p) v 2
  end.

(** nexthop.rs:28-40 *)
Definition nexthop_decode (p : params) (buf : list N) : res ipaddr :=
  match sp_mode p with
  | ModeV6 => if Nat.leb 16 (length buf) then a <- decode_addrv6_from buf ;; Ok (IPv6 a) else Err EOther
  | ModeV4 => if Nat.leb 4 (length buf) then a <- decode_addrv4_from buf ;; Ok (IPv4 a) else Err EOther
  end.
(** nexthop.rs:61-73 *)
Definition nexthop_encode (p : params) (a : ipaddr) : Enc nat :=
  len <~ elen ;;
  match a, sp_mode p with
  | IPv6 v, ModeV6 => if Nat.leb 16 len then encode_addrv6_to v else eerr EOther
  | IPv4 v, ModeV4 => if Nat.leb 4 len then encode_addrv4_to v else eerr EOther
  | _, _ => eerr EOther
  end.

(** med.rs:27-35, localpref.rs:27-35 *)
Definition u32_decode (buf : list N) : res N :=
  if Nat.leb 4 (length buf) then getn_u32 buf else Err EOther.
(** med.rs:56-63, localpref.rs:56-63 *)
Definition u32_encode (v : N) : Enc nat :=
  len <~ elen ;;
  if Nat.leb 4 len then setn_u32 v ;;; eret 4%nat else eerr EOther.

(** atomicaggregate.rs:24-35; the encoder (line 56) is [encode_addr_to] *)
Definition atomic_decode (buf : list N) : res ipaddr :=
  match buf with [] => Ok (IPv4 0) | _ => decode_addr_from buf end.

(** aggregatoras.rs:26-40 *)
Definition aggregator_decode (buf : list N) : res (N * N) :=
  if Nat.eqb (length buf) 8 then
    asn <- getn_u32 buf ;; s <- rslice buf 4 8 ;; a <- decode_addrv4_from s ;; Ok (asn, a)
  else if Nat.eqb (length buf) 6 then
    asn <- getn_u16 buf ;; s <- rslice buf 2 6 ;; a <- decode_addrv4_from s ;; Ok (asn, a)
  else Err EOther.
(** aggregatoras.rs:62-64: nothing is written *)
Definition aggregator_encode (p : params) : Enc nat := eret (if sp_as32 p then 4%nat else 2%nat).

(** originatorid.rs:28-41 *)
Definition originator_decode (p : params) (buf : list N) : res ipaddr :=
  match sp_mode p with
  | ModeV4 => s <- rslice buf 0 4 ;; decode_addr_from s
  | ModeV6 =>
      if Nat.ltb (length buf) 16 then s <- rslice buf 0 4 ;; decode_addr_from s
      else s <- rslice buf 0 16 ;; decode_addr_from s
  end.
(** originatorid.rs:62-79 *)
Definition originator_encode (p : params) (a : ipaddr) : Enc nat :=
  match sp_mode p, a with
  | ModeV4, IPv4 v => encode_addrv4_to v
  | ModeV6, IPv6 v => encode_addrv6_to v
  | _, _ => eerr EOther
  end.

(** the loops [while (pos + k) <= buf.len() { v.push(dec(&buf[pos..(pos + k)])?); pos += k }] of
    clusterlist.rs:31-34 and (with [pos + 7 < buf.len()]) extcommunity.rs:193-196 *)
Fixpoint win_loop {A} (k : nat) (dec : list N -> res A) (fuel : nat) (buf : list N) (pos : nat) : res (list A) :=
  match fuel with
  | O => OutOfFuel
  | S fuel' =>
      if Nat.leb (pos + k) (length buf) then
        s <- rslice buf pos (pos + k) ;;
        x <- dec s ;;
        v <- win_loop k dec fuel' buf (pos + k) ;;
        Ok (x :: v)
      else Ok []
  end.
(** clusterlist.rs:24-36; the encoder (57-63) is the loop of [encode_bgpaddritems_to] *)
Definition cluster_decode (p : params) (buf : list N) : res (list ipaddr) :=
  win_loop (match sp_mode p with ModeV4 => 4%nat | ModeV6 => 16%nat end) decode_addr_from (S (length buf)) buf 0.

(** connector.rs:29-42 *)
Definition connector_decode (buf : list N) : res (N * N * N) :=
  if Nat.leb 14 (length buf) then
    t <- getn_u16 buf ;;
    if negb (t =? 1) then Err EOther else
    s <- rslice buf 2 6 ;; asn <- getn_u32 s ;;
    s <- rslice buf 6 10 ;; a <- decode_addrv4_from s ;;
    s <- rslice buf 10 14 ;; o <- decode_addrv4_from s ;;
    Ok (asn, a, o)
  else Err EOther.
(** connector.rs:69-79 *)
Definition connector_encode (asn a o : N) : Enc nat :=
  len <~ elen ;;
  if Nat.leb 14 len then
    setn_u16 1 ;;;
    on_slice 2 6 (setn_u32 asn) ;;;
    on_slice 6 10 (encode_addrv4_to a) ;;;
    on_slice 10 14 (encode_addrv4_to o) ;;;
    eret 14%nat
  else eerr EOther.

(** ** Communities *)

(** community.rs:161-168, and the slice of line 249 *)
Definition comm_step (b : list N) : res (N * nat) :=
  s <- rslice b 0 4 ;;
  if Nat.eqb (length s) 4 then v <- getn_u32 s ;; Ok (v, 4%nat) else Err EOther.
(** community.rs:169-175 *)
Definition comm_encode (v : N) : Enc nat :=
  len <~ elen ;;
  if Nat.ltb len 4 then eerr EInsufficient else setn_u32 v ;;; eret 4%nat.
(** community.rs:245-253 *)
Definition community_decode (buf : list N) : res (list N) :=
  '(v, _) <- dec_loop comm_step (S (length buf)) buf 0 ;; Ok (bset_of N.compare v).
(** community.rs:288-298 *)
Definition community_encode (v : list N) : Enc nat :=
  len <~ elen ;;
  if Nat.ltb len (length v * 4) then eerr EInsufficient else encode_bgpaddritems_to comm_encode v.

(** community.rs:60-71, and the slice of line 106 *)
Definition lcomm_step (b : list N) : res (lcomm * nat) :=
  s <- rslice b 0 12 ;;
  if Nat.eqb (length s) 12 then
    a <- rslice s 0 4 ;; ga <- getn_u32 a ;;
    a <- rslice s 4 8 ;; d1 <- getn_u32 a ;;
    a <- rslice s 8 12 ;; d2 <- getn_u32 a ;;
    Ok (mkLC ga d1 d2, 12%nat)
  else Err EOther.
(** community.rs:72-80 *)
Definition lcomm_encode (x : lcomm) : Enc nat :=
  len <~ elen ;;
  if Nat.ltb len 12 then eerr EInsufficient else
  setn_u32 (lc_ga x) ;;; on_slice 4 8 (setn_u32 (lc_1 x)) ;;; on_slice 8 12 (setn_u32 (lc_2 x)) ;;; eret 12%nat.
(** community.rs:102-110; the encoder (131-137) is the loop of [encode_bgpaddritems_to] *)
Definition large_decode (buf : list N) : res (list lcomm) :=
  '(v, _) <- dec_loop lcomm_step (S (length buf)) buf 0 ;; Ok (bset_of lcomm_cmp v).

(** extcommunity.rs:45-55 *)
Definition ecomm_decode (s : list N) : res ecomm :=
  if Nat.eqb (length s) 8 then
    t <- idx s 0 ;; st <- idx s 1 ;;
    a <- rslice s 2 4 ;; va <- getn_u16 a ;;
    b <- rslice s 4 8 ;; vb <- getn_u32 b ;;
    Ok (mkEC t st va vb)
  else Err EOther.
(** extcommunity.rs:56-65 *)
Definition ecomm_encode (x : ecomm) : Enc nat :=
  len <~ elen ;;
  if Nat.ltb len 8 then eerr EInsufficient else
  set_idx 0 (ec_type x) ;;; set_idx 1 (ec_subtype x) ;;;
  on_slice 2 4 (setn_u16 (ec_a x)) ;;; on_slice 4 8 (setn_u32 (ec_b x)) ;;; eret 8%nat.
(** extcommunity.rs:190-198; the encoder (224-231) is the loop of [encode_bgpaddritems_to] *)
Definition ext_decode (buf : list N) : res (list ecomm) :=
  v <- win_loop 8 ecomm_decode (S (length buf)) buf 0 ;; Ok (bset_of ecomm_cmp v).

(** extcommunity.rs:27-34 *)
Definition rt_asn (asn val : N) : ecomm := mkEC 0 2 asn val.
(** extcommunity.rs:36-44 *)
Definition rt_ipn (ipa val : N) : res ecomm :=
  let octs := octets4 ipa in
  o0 <- idx octs 0 ;; o1 <- idx octs 1 ;; o2 <- idx octs 2 ;; o3 <- idx octs 3 ;;
  Ok (mkEC 1 2 (N.lor (cast 16 (N.shiftl o0 8)) o1)
    (N.lor (N.lor (cast 32 (N.shiftl o2 24)) (cast 32 (N.shiftl o3 16))) val)).
(** extcommunity.rs:67-74 *)
Definition get_ipv4 (x : ecomm) : N :=
  ip4_new (N.land (N.shiftr (ec_a x) 8) 255) (N.land (ec_a x) 255)
          (N.land (N.shiftr (ec_b x) 24) 255) (N.land (N.shiftr (ec_b x) 16) 255).
(** extcommunity.rs:76-78 *)
Definition get_num (x : ecomm) : N := N.land (ec_b x) 65535.
(** extcommunity.rs:157-167 *)
Definition ecomm_from_u64 (v : N) : res ecomm :=
  let buf := be_bytes 8 v in
  t <- idx buf 0 ;; st <- idx buf 1 ;;
  a <- rslice buf 2 4 ;; va <- getn_u16 a ;;
  b <- rslice buf 4 8 ;; vb <- getn_u32 b ;;
  Ok (mkEC t st va vb).

(** ** Multiprotocol NLRI *)

(** ipv4.rs:225-240 *)
Definition v4rd_decode (buf : list N) : res (bgpRD * N * nat) :=
  if Nat.leb 12 (length buf) then
    s <- rslice buf 0 8 ;; '(rd, n) <- decode_rd_from s ;;
    s <- rslice buf n (n + 4) ;; a <- decode_addr_from s ;;
    match a with IPv4 v => Ok (rd, v, (n + 4)%nat) | _ => Err EOther end
  else Err EOther.
(** ipv4.rs:241-245 *)
Definition v4rd_encode (rd : bgpRD) (a : N) : Enc nat :=
  pos <~ encode_rd_to rd ;; p2 <~ on_from pos (encode_addrv4_to a) ;; eret (pos + p2)%nat.
(** ipv6.rs:230-246 *)
Definition v6rd_decode (buf : list N) : res (bgpRD * N * nat) :=
  if Nat.leb 24 (length buf) then
    s <- rslice buf 0 8 ;; '(rd, n) <- decode_rd_from s ;;
    s <- rslice buf n (n + 16) ;; a <- decode_addr_from s ;;
    match a with IPv6 v => Ok (rd, v, (n + 16)%nat) | _ => Err EOther end
  else Err EOther.
(** ipv6.rs:247-251 *)
Definition v6rd_encode (rd : bgpRD) (a : N) : Enc nat :=
  pos <~ encode_rd_to rd ;; p2 <~ on_from pos (encode_addrv6_to a) ;; eret (pos + p2)%nat.

(** multiproto.rs:73-136: the next hop; [curpos] is 4 before *)
Definition mp_nexthop (afi sf : N) (nhlen : nat) (buf : list N) : res (bgpaddr * nat) :=
  if afi =? 1 then
    if (sf =? 1) || (sf =? 2) || (sf =? 4) || (sf =? 5) || (sf =? 66) || (sf =? 133) then
      s <- rslice buf 4 (4 + nhlen) ;; a <- decode_addrv4_from s ;; Ok (BAV4 a, (4 + nhlen)%nat)
    else if (sf =? 128) || (sf =? 129) || (sf =? 134) then
      s <- rfrom buf 4 ;; '(rd, a, n) <- v4rd_decode s ;; Ok (BAV4RD rd a, (4 + n)%nat)
    else Err EOther
  else if afi =? 2 then
    if (sf =? 1) || (sf =? 2) || (sf =? 4) || (sf =? 66) then
      s <- rslice buf 4 (4 + nhlen) ;; a <- decode_addrv6_from s ;; Ok (BAV6 a, (4 + nhlen)%nat)
    else if (sf =? 128) || (sf =? 129) then
      s <- rfrom buf 4 ;; '(rd, a, n) <- v6rd_decode s ;; Ok (BAV6RD rd a, (4 + n)%nat)
    else Err EOther
  else if afi =? 25 then
    if (sf =? 65) || (sf =? 70) then
      s <- rfrom buf 4 ;; a <- decode_addrv4_from s ;; Ok (BAV4 a, (4 + nhlen)%nat)
    else Err EOther
  else Err EOther.
(** multiproto.rs:139-142 *)
Fixpoint snpa_skip (count : nat) (buf : list N) (curpos : nat) : res nat :=
  match count with
  | O => Ok curpos
  | S count' => l <- idx buf curpos ;; snpa_skip count' buf (curpos + (1 + N.to_nat l))
  end.
(** multiproto.rs:67-148 *)
Definition mpupdates_decode (oc : bool) (p : params) (buf : list N) : res (bgpaddr * addrs) :=
  afi <- getn_u16 buf ;;
  sf <- idx buf 2 ;;
  nhlen <- idx buf 3 ;;
  '(nh, curpos) <- mp_nexthop afi sf (N.to_nat nhlen) buf ;;
  snpa_count <- idx buf curpos ;;
  curpos <- snpa_skip (N.to_nat snpa_count) buf (curpos + 1) ;;
  s <- rfrom buf curpos ;;
  '(a, _) <- addrs_decode oc p afi sf s ;;
  Ok (nh, a).
(** multiproto.rs:176-183 *)
Definition mp_put_nexthop (nh : bgpaddr) : Enc nat :=
  match nh with
  | BANone => eret 0%nat
  | BAV4 a => on_from 4 (encode_addrv4_to a)
  | BAV6 a => on_from 4 (encode_addrv6_to a)
  | BAV4RD rd a => on_from 4 (v4rd_encode rd a)
  | BAV6RD rd a => on_from 4 (v6rd_encode rd a)
  | _ => eerr EOther
  end.
(** multiproto.rs:171-191 *)
Definition mpupdates_encode (oc : bool) (nh : bgpaddr) (a : addrs) : Enc nat :=
  on_slice 0 2 (setn_u16 (fst (get_afi_safi a))) ;;;
  set_idx 2 (snd (get_afi_safi a)) ;;;
  nhl <~ mp_put_nexthop nh ;;
  set_idx 3 (cast 8 (N.of_nat nhl)) ;;;
  set_idx (4 + nhl) 0 ;;;
  ps <~ on_from (4 + nhl + 1) (addrs_encode oc a) ;;
  eret (4 + nhl + 1 + ps)%nat.
(** multiproto.rs:203-208 *)
Definition mpwithdraws_decode (oc : bool) (p : params) (buf : list N) : res addrs :=
  afi <- getn_u16 buf ;;
  sf <- idx buf 2 ;;
  s <- rfrom buf 3 ;;
  '(a, _) <- addrs_decode oc p afi sf s ;;
  Ok a.
(** multiproto.rs:229-237 *)
Definition mpwithdraws_encode (oc : bool) (a : addrs) : Enc nat :=
  on_slice 0 2 (setn_u16 (fst (get_afi_safi a))) ;;;
  set_idx 2 (snd (get_afi_safi a)) ;;;
  ps <~ on_from 3 (addrs_encode oc a) ;;
  eret (3 + ps)%nat.

(** ** PMSI tunnel *)

(** [std::net::Ipv4Addr::new(buf[i], buf[i + 1], buf[i + 2], buf[i + 3])] (util.rs:18) *)
Definition ip4_at (buf : list N) (i : nat) : res N :=
  b0 <- idx buf i ;; b1 <- idx buf (i + 1) ;; b2 <- idx buf (i + 2) ;; b3 <- idx buf (i + 3) ;;
  Ok (ip4_new b0 b1 b2 b3).
(** pmsitunnelattr.rs:111-184 *)
Definition pmsi_tunnel (t : N) (curpos : nat) (buf : list N) : res pmsi_tun :=
  if t =? 0 then Ok PtNone
  else if t =? 1 then
    e <- ip4_at buf curpos ;;
    s <- rfrom buf (curpos + 4) ;; r <- getn_u16 s ;;
    s <- rfrom buf (curpos + 6) ;; i <- getn_u16 s ;;
    q <- ip4_at buf (curpos + 8) ;;
    Ok (PtRSVP e r i q)
  else if t =? 2 then
    k <- idx buf 5 ;;
    if negb (k =? 6) then Err EOther else
    if Nat.ltb (length buf) 16 then Err EOther else
    s <- rslice buf 6 8 ;; f <- getn_u16 s ;;
    if negb (f =? 1) then Err EOther else
    l <- idx buf 8 ;;
    if negb (l =? 4) then Err EOther else
    s <- rslice buf 9 13 ;; root <- decode_addr_from s ;;
    s <- rslice buf 13 15 ;; ol <- getn_u16 s ;;
    if Nat.ltb (length buf) (15 + N.to_nat ol) then Err EOther else
    o <- rslice buf 15 (15 + N.to_nat ol) ;;
    Ok (PtMLDP root o)
  else if t =? 6 then e <- ip4_at buf curpos ;; Ok (PtIngress e)
  else Err EOther.
(** pmsitunnelattr.rs:101-186 *)
Definition pmsi_decode (oc : bool) (buf : list N) : res pmsi :=
  if Nat.ltb (length buf) 5 then Err EOther else
  s <- rfrom buf 2 ;;
  '(lbl, n) <- labels_extract oc 24 s ;;
  f <- idx buf 0 ;;
  t <- idx buf 1 ;;
  tun <- pmsi_tunnel t (2 + n) buf ;;
  Ok (mkPmsi f t lbl tun).

(** ** Dispatch *)

(** attrset.rs:37-58 *)
Fixpoint attrset_loop (dec : N -> N -> nat -> list N -> res attr) (fuel : nat) (buf : list N) (curpos : nat)
  : res (list attr) :=
  match fuel with
  | O => OutOfFuel
  | S fuel' =>
      if Nat.ltb curpos (length buf) then
        flags <- idx buf curpos ;;
        tc <- idx buf (curpos + 1) ;;
        '(attrlen, curpos) <-
          (if 0 <? N.land flags 16 then
             s <- rslice buf (curpos + 4 - 2) (curpos + 4) ;; l <- getn_u16 s ;; Ok (N.to_nat l, (curpos + 4)%nat)
           else l <- idx buf (curpos + 3 - 1) ;; Ok (N.to_nat l, (curpos + 3)%nat)) ;;
        if Nat.ltb (length buf) (curpos + attrlen) then Err EOther else
        s <- rslice buf curpos (curpos + attrlen) ;;
        a <- dec tc flags attrlen s ;;
        v <- attrset_loop dec fuel' buf (curpos + attrlen) ;;
        Ok (a :: v)
      else Ok []
  end.
(** attrset.rs:26-63; the decoder of the inner attributes is a parameter *)
Definition attrset_decode (dec : N -> N -> nat -> list N -> res attr) (p : params) (buf : list N) : res attr :=
  if negb (sp_as32 p) then Err EOther else
  if Nat.ltb (length buf) 4 then Err EOther else
  v <- attrset_loop dec (S (length buf)) buf 4 ;;
  asn <- getn_u32 buf ;;
  Ok (AAttrSet asn v).

(** unknown.rs:35-46 on [&buf[0..attrlen]] *)
Definition unknown_decode (tc flags : N) (attrlen : nat) (buf : list N) : res attr :=
  s <- rslice buf 0 attrlen ;; Ok (AUnknown tc flags s).

(** attributes/mod.rs:87-156. The fuel bounds the nesting of attribute sets. *)
Fixpoint attr_decode_n (fuel : nat) (oc : bool) (p : params) (tc flags : N) (attrlen : nat) (buf : list N) : res attr :=
  match fuel with
  | O => OutOfFuel
  | S fuel' =>
      if tc =? 1 then o <- origin_decode buf ;; Ok (AOrigin o)
      else if tc =? 2 then v <- aspath_decode p buf ;; Ok (AASPath v)
      else if tc =? 3 then a <- nexthop_decode p buf ;; Ok (ANextHop a)
      else if tc =? 4 then v <- u32_decode buf ;; Ok (AMED v)
      else if tc =? 5 then v <- u32_decode buf ;; Ok (ALocalPref v)
      else if tc =? 6 then a <- atomic_decode buf ;; Ok (AAtomicAggregate a)
      else if tc =? 7 then '(asn, a) <- aggregator_decode buf ;; Ok (AAggregatorAS asn a)
      else if tc =? 8 then v <- community_decode buf ;; Ok (ACommunityList v)
      else if tc =? 9 then a <- originator_decode p buf ;; Ok (AOriginatorID a)
      else if tc =? 10 then v <- cluster_decode p buf ;; Ok (AClusterList v)
      else if tc =? 14 then '(nh, a) <- mpupdates_decode oc p buf ;; Ok (AMPUpdates nh a)
      else if tc =? 15 then a <- mpwithdraws_decode oc p buf ;; Ok (AMPWithdraws a)
      else if tc =? 16 then v <- ext_decode buf ;; Ok (AExtCommunityList v)
      else if tc =? 22 then t <- pmsi_decode oc buf ;; Ok (APMSITunnel t)
      else if tc =? 20 then '(asn, a, o) <- connector_decode buf ;; Ok (AConnector asn a o)
      else if tc =? 32 then v <- large_decode buf ;; Ok (ALargeCommunityList v)
      else if tc =? 128 then attrset_decode (attr_decode_n fuel' oc p) p buf
      else unknown_decode tc flags attrlen buf
  end.
(** attributes/mod.rs:87-156 with fuel that suffices *)
Definition attr_decode (oc : bool) (p : params) (tc flags : N) (attrlen : nat) (buf : list N) : res attr :=
  attr_decode_n (S (length buf)) oc p tc flags attrlen buf.

(** the [encode_to] method of each type. attrset.rs:85-87 and pmsitunnelattr.rs:214-216 are [unimplemented!()];
    unknown.rs:72-75: [buf[0..n].clone_from_slice] *)
Definition attr_put (oc : bool) (p : params) (a : attr) : Enc nat :=
  match a with
  | AOrigin o => origin_encode o
  | AASPath v => aspath_encode p v
  | ANextHop a => nexthop_encode p a
  | AMED v => u32_encode v
  | ALocalPref v => u32_encode v
  | AAtomicAggregate a => encode_addr_to a
  | AAggregatorAS _ _ => aggregator_encode p
  | ACommunityList v => community_encode v
  | AOriginatorID a => originator_encode p a
  | AClusterList v => encode_bgpaddritems_to encode_addr_to v
  | AMPUpdates nh a => mpupdates_encode oc nh a
  | AMPWithdraws a => mpwithdraws_encode oc a
  | AExtCommunityList v => encode_bgpaddritems_to ecomm_encode v
  | ALargeCommunityList v => encode_bgpaddritems_to lcomm_encode v
  | APMSITunnel _ => epanic
  | AAttrSet _ _ => epanic
  | AConnector asn a o => connector_encode asn a o
  | AUnknown _ _ v => write_at 0 v ;;; eret (length v)
  end.
(** attributes/mod.rs:157-184 and 185-206 *)
Definition attr_encode (oc : bool) (p : params) (a : attr) : Enc nat :=
  let '(tc, flags) := attr_params a in
  let ext := 0 <? N.land flags 16 in
  set_idx 0 flags ;;;
  set_idx 1 tc ;;;
  let curpos := if ext then 4%nat else 3%nat in
  attrlen <~ on_from curpos (attr_put oc p a) ;;
  (if ext then
     if 65535 <? N.of_nat attrlen then eerr EOther else on_slice 2 4 (setn_u16 (cast 16 (N.of_nat attrlen)))
   else
     if 255 <? N.of_nat attrlen then eerr EOther else set_idx 2 (cast 8 (N.of_nat attrlen))) ;;;
  eret (curpos + attrlen)%nat.
