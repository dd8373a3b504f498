(** Model of the BGP Monitoring Protocol, /repo/src/bmp. Strings are their UTF-8 octets. *)
From Verif Require Import Base M_Util M_Prefix M_Nlri M_Vpls M_Mvpn M_Evpn M_Flowspec M_Cap M_Open M_Session M_Addrs M_Attr M_Update M_Order.

(** ** bmputl.rs *)

(** bmputl.rs:15-36 *)
Definition bmp_addr_decode (buf : list N) : res ipaddr :=
  if Nat.ltb (length buf) 16 then Err EInsufficient else
  h <- rslice buf 0 12 ;;
  if forallb (fun b => b =? 0) h then
    s <- rfrom buf 12 ;; a <- decode_addrv4_from s ;; Ok (IPv4 a)
  else a <- decode_addrv6_from buf ;; Ok (IPv6 a).
(** bmputl.rs:43-45: every byte of the buffer *)
Definition zero_all : Enc unit := fun buf => Ok (tt, repeat 0 (length buf)).
(** bmputl.rs:37-53 *)
Definition bmp_addr_encode (a : ipaddr) : Enc nat :=
  len <~ elen ;;
  if Nat.ltb len 16 then eerr EInsufficient else
  match a with
  | IPv4 v4 => zero_all ;;; on_from 12 (encode_addrv4_to v4) ;;; eret 16%nat
  | IPv6 v6 => encode_addrv6_to v6 ;;; eret 16%nat
  end.

(** bmputl.rs:56-72 *)
Record peerhdr := mkPeer { ph_type : N; ph_flags : N; ph_rd : bgpRD; ph_addr : ipaddr; ph_as : N; ph_rid : N; ph_time : N }.
(** bmputl.rs:75-91 *)
Definition peerhdr_decode (buf : list N) : res (peerhdr * nat) :=
  if Nat.ltb (length buf) 42 then Err EInsufficient else
  t <- idx buf 0 ;;
  f <- idx buf 1 ;;
  s <- rfrom buf 2 ;; '(rd, _) <- decode_rd_from s ;;
  s <- rfrom buf 10 ;; a <- bmp_addr_decode s ;;
  s <- rfrom buf 26 ;; n <- getn_u32 s ;;
  s <- rfrom buf 30 ;; rid <- decode_addrv4_from s ;;
  s <- rfrom buf 34 ;; ts <- getn_u64 s ;;
  Ok (mkPeer t f rd a n rid ts, 42%nat).
(** bmputl.rs:92-105 *)
Definition peerhdr_encode (h : peerhdr) : Enc nat :=
  len <~ elen ;;
  if Nat.ltb len 42 then eerr EInsufficient else
  set_idx 0 (ph_type h) ;;;
  set_idx 1 (ph_flags h) ;;;
  on_from 2 (encode_rd_to (ph_rd h)) ;;;
  on_from 10 (bmp_addr_encode (ph_addr h)) ;;;
  on_from 26 (setn_u32 (ph_as h)) ;;;
  on_from 30 (encode_addrv4_to (ph_rid h)) ;;;
  on_from 34 (setn_u64 (ph_time h)) ;;;
  eret 42%nat.
(** bmputl.rs:107-183: [partial_cmp], [cmp] and [eq] are written out by hand and leave the timestamp out; there is no
    [Hash] *)
Definition peerhdr_eq (x y : peerhdr) : bool :=
  (ph_type x =? ph_type y) && (ph_flags x =? ph_flags y) && oeq ord_rd (ph_rd x) (ph_rd y) &&
  oeq oip (ph_addr x) (ph_addr y) && (ph_as x =? ph_as y) && (ph_rid x =? ph_rid y).
(** bmputl.rs:107-183 [Ord] *)
Definition peerhdr_cmp (x y : peerhdr) : comparison :=
  match ph_type x ?= ph_type y with Lt => Lt | Gt => Gt | Eq =>
  match ph_flags x ?= ph_flags y with Lt => Lt | Gt => Gt | Eq =>
  match ocmp ord_rd (ph_rd x) (ph_rd y) with Lt => Lt | Gt => Gt | Eq =>
  match ocmp oip (ph_addr x) (ph_addr y) with Lt => Lt | Gt => Gt | Eq =>
  match ph_as x ?= ph_as y with Lt => Lt | Gt => Gt | Eq => ph_rid x ?= ph_rid y end end end end end.
(** bmputl.rs:107-183 [PartialOrd] *)
Definition peerhdr_pcmp (x y : peerhdr) : option comparison :=
  let rid := opcmp onum (ph_rid x) (ph_rid y) in
  let asn := match opcmp onum (ph_as x) (ph_as y) with Some Lt => Some Lt | Some Gt => Some Gt | _ => rid end in
  let ip := match opcmp oip (ph_addr x) (ph_addr y) with Some Lt => Some Lt | Some Gt => Some Gt | _ => asn end in
  let rd := match opcmp ord_rd (ph_rd x) (ph_rd y) with Some Lt => Some Lt | Some Gt => Some Gt | _ => ip end in
  let fl := match opcmp onum (ph_flags x) (ph_flags y) with Some Lt => Some Lt | Some Gt => Some Gt | _ => rd end in
  match opcmp onum (ph_type x) (ph_type y) with Some Lt => Some Lt | Some Gt => Some Gt | _ => fl end.
(** bmputl.rs:107-183, together; [Hash] is not implemented *)
Definition opeerhdr : ord peerhdr := mkOrd peerhdr_eq peerhdr_cmp peerhdr_pcmp (fun _ => []).
(** lib.rs:107-115 *)
Definition mode_of (a : ipaddr) : tmode := match a with IPv4 _ => ModeV4 | IPv6 _ => ModeV6 end.
(** bmputl.rs:184-195 *)
Definition params_of_peer (h : peerhdr) : params := params_new (ph_as h) 0 (mode_of (ph_addr h)) (ph_rid h) [].

(** ** msgterm.rs *)

(** msgterm.rs:15-20 *)
Record bmpterm := mkTerm { tm_str : option (list N); tm_reason : option N }.
(** msgterm.rs:32-46 *)
Fixpoint term_loop (fuel : nat) (buf : list N) (pos : nat) (ret : bmpterm) : res (bmpterm * nat) :=
  match fuel with
  | O => OutOfFuel
  | S fuel' =>
      if Nat.leb 4 (length buf - pos) then
        s <- rfrom buf pos ;; infotype <- getn_u16 s ;;
        s <- rfrom buf (pos + 2) ;; infolen <- getn_u16 s ;;
        let infolen := N.to_nat infolen in
        let pos := (pos + 4)%nat in
        if Nat.ltb (length buf - pos) infolen then Err EInsufficient else
        ret <- (if infotype =? 0 then s <- rslice buf pos (pos + infolen) ;; t <- from_utf8 s ;; Ok (mkTerm (Some t) (tm_reason ret))
                else if infotype =? 1 then s <- rfrom buf pos ;; r <- getn_u16 s ;; Ok (mkTerm (tm_str ret) (Some r))
                else Ok ret) ;;
        term_loop fuel' buf (pos + infolen) ret
      else Ok (ret, pos)
  end.
(** msgterm.rs:29-47 *)
Definition term_decode (buf : list N) : res (bmpterm * nat) := term_loop (S (length buf)) buf 0 (mkTerm None None).
(** msgterm.rs:48-74 *)
Definition term_encode (m : bmpterm) : Enc nat :=
  curpos <~ (match tm_str m with
             | Some str0 =>
                 len <~ elen ;;
                 if Nat.ltb (len - 0) (4 + length str0) then eerr EInsufficient else
                 on_from 0 (setn_u16 0) ;;;
                 on_from 2 (setn_u16 (cast 16 (N.of_nat (length str0)))) ;;;
                 write_at 4 str0 ;;; eret (4 + length str0)%nat
             | None => eret 0%nat
             end) ;;
  match tm_reason m with
  | Some reason =>
      len <~ elen ;;
      if Nat.ltb (len - curpos) 6 then eerr EInsufficient else
      on_from curpos (setn_u16 1) ;;;
      on_from (curpos + 2) (setn_u16 2) ;;;
      on_from (curpos + 4) (setn_u16 reason) ;;;
      eret (curpos + 6)%nat
  | None => eret curpos
  end.

(** ** msginit.rs *)

(** msginit.rs:22-38 *)
Definition infoval_decode (buf : list N) : res (N * list N * nat) :=
  if Nat.ltb (length buf) 4 then Err EInsufficient else
  tp <- getn_u16 buf ;;
  s <- rslice buf 2 4 ;; ln <- getn_u16 s ;;
  let ln := N.to_nat ln in
  if Nat.ltb (length buf - 4) ln then Err EInsufficient else
  s <- rslice buf 4 (4 + ln) ;; info <- from_utf8 s ;;
  Ok (tp, info, (ln + 4)%nat).
(** msginit.rs:39-52 *)
Definition infoval_encode (infotype : N) (info : list N) : Enc nat :=
  len <~ elen ;;
  if Nat.ltb len 4 then eerr EInsufficient else
  on_from 0 (setn_u16 infotype) ;;;
  on_from 2 (setn_u16 (cast 16 (N.of_nat (length info)))) ;;;
  write_at 4 info ;;;
  eret (4 + length info)%nat.
(** msginit.rs:57-64 *)
Record bmpinit := mkInit { in_str : option (list N); in_descr : option (list N); in_name : option (list N) }.
(** msginit.rs:77-86 *)
Fixpoint init_loop (fuel : nat) (buf : list N) (pos : nat) (ret : bmpinit) : res (bmpinit * nat) :=
  match fuel with
  | O => OutOfFuel
  | S fuel' =>
      if Nat.ltb pos (length buf) then
        s <- rfrom buf pos ;;
        '(tp, info, n) <- infoval_decode s ;;
        let ret := if tp =? 0 then mkInit (Some info) (in_descr ret) (in_name ret)
                   else if tp =? 1 then mkInit (in_str ret) (Some info) (in_name ret)
                   else if tp =? 2 then mkInit (in_str ret) (in_descr ret) (Some info)
                   else ret in
        init_loop fuel' buf (pos + n) ret
      else Ok (ret, pos)
  end.
(** msginit.rs:74-88 *)
Definition init_decode (buf : list N) : res (bmpinit * nat) := init_loop (S (length buf)) buf 0 (mkInit None None None).
(** msginit.rs:91-97, and the same text at 98-104 and 105-111: the information type is always 0 *)
Definition init_field (curpos : nat) (s : option (list N)) : Enc nat :=
  match s with
  | Some s => n <~ on_from curpos (infoval_encode 0 s) ;; eret (curpos + n)%nat
  | None => eret curpos
  end.
(** msginit.rs:89-113 *)
Definition init_encode (m : bmpinit) : Enc nat :=
  curpos <~ init_field 0 (in_str m) ;;
  curpos <~ init_field curpos (in_descr m) ;;
  init_field curpos (in_name m).

(** ** Embedded BGP messages *)

(** msgrmon.rs:33-42, msgpeer.rs:60-66, 67-73, 118-126, 137-145: header, type check, body. [want] is the expected type;
    returns the body and the position after the message *)
Definition bgp_body (oc : bool) (want : msgtype) (buf : list N) (pos : nat) : res (list N * nat) :=
  s <- rfrom buf pos ;;
  '(t, n) <- decode_message_head oc s ;;
  let pos := (pos + 19)%nat in
  if negb (msgtype_encode t =? msgtype_encode want) then Err EOther else
  b <- rslice buf pos (pos + n) ;;
  Ok (b, (pos + n)%nat).
(** msgrmon.rs:59-62, msgpeer.rs:91-94, 96-99, 168-174, 195-201 *)
Definition bgp_put (oc : bool) (t : msgtype) (e : Enc nat) (curpos : nat) : Enc nat :=
  messagelen <~ on_from (curpos + 19) e ;;
  blen <~ on_from curpos (prepare_message_buf oc t messagelen) ;;
  eret (curpos + blen)%nat.

(** ** msgpeer.rs *)

(** msgpeer.rs:18-26 *)
Record peerup := mkUp { pu_peer : peerhdr; pu_local : ipaddr; pu_lport : N; pu_rport : N; pu_msg1 : openMsg; pu_msg2 : openMsg }.
(** msgpeer.rs:28-35 *)
Inductive downreason :=
| AdminClosed (m : notifMsg) | LocalState (s : N) | RemoteNotif (m : notifMsg) | RemoteClosed | BmpDisabled.
(** msgpeer.rs:37-41 *)
Record peerdown := mkDown { pd_peer : peerhdr; pd_reason : downreason }.
(** msgpeer.rs:44-74 *)
Definition peerup_decode (oc : bool) (buf : list N) : res (peerup * nat) :=
  if Nat.ltb (length buf) 62 then Err EInsufficient else
  '(pm, n) <- peerhdr_decode buf ;;
  s <- rfrom buf n ;; la <- bmp_addr_decode s ;;
  s <- rfrom buf (n + 16) ;; lp <- getn_u16 s ;;
  s <- rfrom buf (n + 18) ;; rp <- getn_u16 s ;;
  let pos := (n + 20)%nat in
  '(b, pos) <- bgp_body oc MOpen buf pos ;;
  msg1 <- open_decode open_new b ;;
  '(b, pos) <- bgp_body oc MOpen buf pos ;;
  msg2 <- open_decode open_new b ;;
  Ok (mkUp pm la lp rp msg1 msg2, pos).
(** msgpeer.rs:75-102 *)
Definition peerup_encode (oc : bool) (m : peerup) : Enc nat :=
  len <~ elen ;;
  if Nat.ltb len 62 then eerr EInsufficient else
  curpos <~ peerhdr_encode (pu_peer m) ;;
  on_from curpos (bmp_addr_encode (pu_local m)) ;;;
  on_from (curpos + 16) (setn_u16 (pu_lport m)) ;;;
  on_from (curpos + 18) (setn_u16 (pu_rport m)) ;;;
  curpos <~ bgp_put oc MOpen (open_encode (pu_msg1 m)) (curpos + 20) ;;
  bgp_put oc MOpen (open_encode (pu_msg2 m)) curpos.
(** msgpeer.rs:106-152 *)
Definition peerdown_decode (oc : bool) (buf : list N) : res (peerdown * nat) :=
  if Nat.ltb (length buf) 43 then Err EInsufficient else
  '(pm, pos) <- peerhdr_decode buf ;;
  code <- idx buf pos ;;
  let pos := (pos + 1)%nat in
  if code =? 1 then
    '(b, pos) <- bgp_body oc MNotification buf pos ;;
    m <- notif_decode notif_new b ;; Ok (mkDown pm (AdminClosed m), pos)
  else if code =? 2 then
    if Nat.ltb (length buf - pos) 2 then Err EInsufficient else
    s <- rslice buf pos (pos + 2) ;; Ok (mkDown pm (LocalState (be_val s)), (pos + 2)%nat)
  else if code =? 3 then
    '(b, pos) <- bgp_body oc MNotification buf pos ;;
    m <- notif_decode notif_new b ;; Ok (mkDown pm (RemoteNotif m), pos)
  else if code =? 4 then Ok (mkDown pm RemoteClosed, pos)
  else if code =? 5 then Ok (mkDown pm BmpDisabled, pos)
  else Err EOther.
(** msgpeer.rs:153-216 *)
Definition peerdown_encode (oc : bool) (m : peerdown) : Enc nat :=
  len <~ elen ;;
  if Nat.ltb len 43 then eerr EInsufficient else
  curpos <~ peerhdr_encode (pd_peer m) ;;
  let put code nt :=
    set_idx curpos code ;;;
    if Nat.ltb (len - (curpos + 1)) 19 then eerr EInsufficient else
    bgp_put oc MNotification (notif_encode nt) (curpos + 1) in
  match pd_reason m with
  | AdminClosed nt => put 1 nt
  | LocalState s =>
      set_idx curpos 2 ;;;
      if Nat.ltb (len - (curpos + 1)) 2 then eerr EInsufficient else
      on_from (curpos + 1) (setn_u16 s) ;;; eret (curpos + 3)%nat
  | RemoteNotif nt => put 3 nt
  | RemoteClosed => set_idx curpos 4 ;;; eret (curpos + 1)%nat
  | BmpDisabled => set_idx curpos 5 ;;; eret (curpos + 1)%nat
  end.

(** ** msgrmon.rs *)

(** msgrmon.rs:18-23 *)
Record rmon := mkRmon { rm_peer : peerhdr; rm_update : update }.
(** msgrmon.rs:26-50 and mod.rs:80-111, which differ in the session parameters used for the UPDATE *)
Definition rmon_decode_with (oc : bool) (pars : peerhdr -> params) (buf : list N) : res (rmon * nat) :=
  if Nat.ltb (length buf) 62 then Err EInsufficient else
  '(pm, pos) <- peerhdr_decode buf ;;
  '(b, pos) <- bgp_body oc MUpdate buf pos ;;
  u <- update_decode oc (pars pm) update_new b ;;
  Ok (mkRmon pm u, pos).
(** msgrmon.rs:26-50 *)
Definition rmon_decode (oc : bool) (buf : list N) : res (rmon * nat) := rmon_decode_with oc params_of_peer buf.
(** msgrmon.rs:51-65 *)
Definition rmon_encode (oc : bool) (m : rmon) : Enc nat :=
  len <~ elen ;;
  if Nat.ltb len 62 then eerr EInsufficient else
  curpos <~ peerhdr_encode (rm_peer m) ;;
  bgp_put oc MUpdate (update_encode oc (params_of_peer (rm_peer m)) (rm_update m)) curpos.

(** ** mod.rs *)

(** mod.rs:126-133 *)
Record bmphdr := mkBmpHdr { bh_version : N; bh_length : N }.
(** mod.rs:135-149 *)
Definition bmphdr_decode (buf : list N) : res (bmphdr * nat) :=
  if Nat.ltb (length buf) 5 then Err EInsufficient else
  v <- idx buf 0 ;;
  if negb (v =? 3) then Err EOther else
  s <- rslice buf 1 5 ;; n <- getn_u32 s ;;
  Ok (mkBmpHdr v n, 5%nat).
(** mod.rs:150-157 *)
Definition bmphdr_encode (h : bmphdr) : Enc nat :=
  len <~ elen ;;
  if Nat.ltb len 5 then eerr EInsufficient else
  set_idx 0 (bh_version h) ;;;
  on_from 1 (setn_u32 (cast 32 (bh_length h))) ;;;
  eret 5%nat.

(** mod.rs:113-123 *)
Inductive bmpmsg :=
| RouteMonitoring (m : rmon) | StatisticsReport | PeerDown (m : peerdown) | PeerUp (m : peerup)
| Initiation (m : bmpinit) | Termination (m : bmpterm) | RouteMirroring.
(** mod.rs:161-183 *)
Definition bmp_decode (oc : bool) (buf : list N) : res bmpmsg :=
  t <- idx buf 0 ;;
  if t =? 0 then s <- rfrom buf 1 ;; '(m, _) <- rmon_decode oc s ;; Ok (RouteMonitoring m) else
  if t =? 1 then Ok StatisticsReport else
  if t =? 2 then s <- rfrom buf 1 ;; '(m, _) <- peerdown_decode oc s ;; Ok (PeerDown m) else
  if t =? 3 then s <- rfrom buf 1 ;; '(m, _) <- peerup_decode oc s ;; Ok (PeerUp m) else
  if t =? 4 then s <- rfrom buf 1 ;; '(m, _) <- init_decode s ;; Ok (Initiation m) else
  if t =? 5 then s <- rfrom buf 1 ;; '(m, _) <- term_decode s ;; Ok (Termination m) else
  if t =? 6 then Ok RouteMirroring else Err EOther.
(** mod.rs:184-223 *)
Definition bmp_encode (oc : bool) (m : bmpmsg) : Enc nat :=
  len <~ elen ;;
  if Nat.eqb len 0 then eerr EInsufficient else
  let put code e := set_idx 0 code ;;; n <~ on_from 1 e ;; eret (1 + n)%nat in
  match m with
  | RouteMonitoring m => put 0 (rmon_encode oc m)
  | StatisticsReport => epanic
  | PeerDown m => put 2 (peerdown_encode oc m)
  | PeerUp m => put 3 (peerup_encode oc m)
  | Initiation m => put 4 (init_encode m)
  | Termination m => put 5 (term_encode m)
  | RouteMirroring => epanic
  end.

(** mod.rs:27-31; the order is derived *)
Definition skey := (bgpRD * ipaddr)%type.
(** mod.rs:27-31, derived [Ord] *)
Definition oskey : ord skey := ofields ord_rd oip.
(** mod.rs:37-44 *)
Definition key_of (h : peerhdr) : skey := (ph_rd h, ph_addr h).
(** mod.rs:46-49: the [BTreeMap] as the list of its entries in ascending order *)
Definition table := list (skey * peerup).
(** [BTreeMap::get] (bmp/mod.rs:51-79) *)
Fixpoint tab_get (k : skey) (t : table) : option peerup :=
  match t with
  | [] => None
  | (k', v) :: t' => match ocmp oskey k k' with Eq => Some v | Lt => None | Gt => tab_get k t' end
  end.
(** [BTreeMap::insert] (bmp/mod.rs:51-111) *)
Fixpoint tab_insert (k : skey) (v : peerup) (t : table) : table :=
  match t with
  | [] => [(k, v)]
  | (k', v') :: t' =>
      match ocmp oskey k k' with Eq => (k', v) :: t' | Lt => (k, v) :: t | Gt => (k', v') :: tab_insert k v t' end
  end.
(** [BTreeMap::remove] (bmp/mod.rs:80-111) *)
Fixpoint tab_remove (k : skey) (t : table) : table :=
  match t with
  | [] => []
  | (k', v') :: t' => match ocmp oskey k k' with Eq => t' | Lt => t | Gt => (k', v') :: tab_remove k t' end
  end.
(** mod.rs:87-96 *)
Definition session_params (t : table) (h : peerhdr) : params :=
  match tab_get (key_of h) t with
  | None => params_of_peer h
  | Some p => if ph_rid (pu_peer p) =? op_rid (pu_msg1 p) then params_of_open (pu_msg1 p) else params_of_open (pu_msg2 p)
  end.
(** mod.rs:51-79: the answer and the table after the call *)
Definition session_decode (oc : bool) (t : table) (buf : list N) : res bmpmsg * table :=
  match idx buf 0 with
  | Ok ty =>
      if ty =? 0 then
        (s <- rfrom buf 1 ;; '(m, _) <- rmon_decode_with oc (session_params t) s ;; Ok (RouteMonitoring m), t)
      else if ty =? 1 then (Ok StatisticsReport, t)
      else if ty =? 2 then
        match s <- rfrom buf 1 ;; peerdown_decode oc s with
        | Ok (m, _) => (Ok (PeerDown m), tab_remove (key_of (pd_peer m)) t)
        | Err e => (Err e, t) | Panic => (Panic, t) | OutOfFuel => (OutOfFuel, t)
        end
      else if ty =? 3 then
        match s <- rfrom buf 1 ;; peerup_decode oc s with
        | Ok (m, _) => (Ok (PeerUp m), tab_insert (key_of (pu_peer m)) m t)
        | Err e => (Err e, t) | Panic => (Panic, t) | OutOfFuel => (OutOfFuel, t)
        end
      else if ty =? 4 then (s <- rfrom buf 1 ;; '(m, _) <- init_decode s ;; Ok (Initiation m), t)
      else if ty =? 5 then (s <- rfrom buf 1 ;; '(m, _) <- term_decode s ;; Ok (Termination m), t)
      else if ty =? 6 then (Ok RouteMirroring, t)
      else (Err EOther, t)
  | Err e => (Err e, t) | Panic => (Panic, t) | OutOfFuel => (OutOfFuel, t)
  end.
