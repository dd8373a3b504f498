(** Model of [BgpSessionParams], /repo/src/lib.rs:669-926, and of
    [BgpMessageType], /repo/src/message/mod.rs:29-57. *)
From Verif Require Import Base M_Util M_Cap M_Open.

(** lib.rs:99-105 *)
Inductive tmode := ModeV4 | ModeV6.

(** lib.rs:669-686 *)
Record params := mkParams {
  sp_as : N; sp_hold : N; sp_mode : tmode; sp_as32 : bool;
  sp_rid : N; sp_caps : list bgpcap; sp_fuzzy : bool }.

(** lib.rs:689-706 *)
Definition params_new (asnum hold : N) (mode : tmode) (rid : N) (caps : list bgpcap) : params :=
  mkParams asnum hold mode true rid caps true.

(** lib.rs:708-715 *)
Definition open_message (p : params) : openMsg :=
  mkOpen (sp_as p) (sp_hold p) (sp_rid p) (sp_caps p).

(** derived [PartialEq], lib.rs:133, 197, 248, 301 *)
Definition eqb_list {T} (e : T -> T -> bool) :=
  fix go (a b : list T) : bool :=
    match a, b with
    | [], [] => true
    | x :: a', y :: b' => e x y && go a' b'
    | _, _ => false
    end.
(** lib.rs:302-357, derived [PartialEq] *)
Definition safi_eqb (a b : safi) : bool :=
  match a, b with
  | SafiIPv4u, SafiIPv4u | SafiIPv4fu, SafiIPv4fu | SafiIPv4m, SafiIPv4m
  | SafiIPv4mvpn, SafiIPv4mvpn | SafiVPNv4u, SafiVPNv4u | SafiVPNv4fu, SafiVPNv4fu
  | SafiVPNv4m, SafiVPNv4m | SafiIPv4lu, SafiIPv4lu | SafiIPv4mdt, SafiIPv4mdt
  | SafiIPv6u, SafiIPv6u | SafiIPv6fu, SafiIPv6fu | SafiIPv6lu, SafiIPv6lu
  | SafiIPv6mdt, SafiIPv6mdt | SafiVPNv6u, SafiVPNv6u | SafiVPNv6m, SafiVPNv6m
  | SafiVPLS, SafiVPLS | SafiEVPN, SafiEVPN => true
  | _, _ => false
  end.
(** lib.rs:133-139, derived [PartialEq] *)
Definition gr_eqb (a b : capGR) : bool :=
  (gr_afi a =? gr_afi b) && (gr_safi a =? gr_safi b) && Bool.eqb (gr_fwd a) (gr_fwd b).
(** lib.rs:197-204, derived [PartialEq] *)
Definition ll_eqb (a b : capLLGR) : bool :=
  (ll_afi a =? ll_afi b) && (ll_safi a =? ll_safi b) && (ll_flags a =? ll_flags b) &&
  (ll_stale a =? ll_stale b).
(** lib.rs:248-255, derived [PartialEq] *)
Definition ap_eqb (a b : capAP) : bool :=
  (ap_afi a =? ap_afi b) && (ap_safi a =? ap_safi b) && Bool.eqb (ap_send a) (ap_send b) &&
  Bool.eqb (ap_receive a) (ap_receive b).
(** lib.rs:301-357, derived [PartialEq] *)
Definition cap_eqb (a b : bgpcap) : bool :=
  match a, b with
  | CapMP s, CapMP t => safi_eqb s t
  | CapGR s t v, CapGR s' t' v' => Bool.eqb s s' && (t =? t') && eqb_list gr_eqb v v'
  | CapASN32 n, CapASN32 m => n =? m
  | CapRR, CapRR => true
  | CapAddPath v, CapAddPath w => eqb_list ap_eqb v w
  | CapEnhancedRR, CapEnhancedRR => true
  | CapLLGR v, CapLLGR w => eqb_list ll_eqb v w
  | CapFQDN h d, CapFQDN h' d' => eqb_list N.eqb h h' && eqb_list N.eqb d d'
  | CapBFD, CapBFD => true
  | _, _ => false
  end.

(** lib.rs:717-731 (the log line is not modelled) *)
Definition check_caps (p : params) : params :=
  let p := mkParams (sp_as p) (sp_hold p) (sp_mode p) false (sp_rid p) (sp_caps p) (sp_fuzzy p) in
  fold_left (fun p cap =>
    match cap with
    | CapASN32 n => mkParams n (sp_hold p) (sp_mode p) true (sp_rid p) (sp_caps p) (sp_fuzzy p)
    | _ => p
    end) (sp_caps p) p.

(** lib.rs:732-743 *)
Fixpoint match_addpath_caps (vcaps rcaps : list capAP) : list capAP :=
  match vcaps with
  | [] => []
  | vq :: v' =>
      match find (fun rq => (ap_afi vq =? ap_afi rq) && (ap_safi vq =? ap_safi rq)) rcaps with
      | Some x => ap_response x :: match_addpath_caps v' rcaps
      | None => match_addpath_caps v' rcaps
      end
  end.

(** [matches!(q, BgpCapability::CapASN32(_))] and the same for CapAddPath (lib.rs:717-731) *)
Definition is_asn32 (c : bgpcap) : bool := match c with CapASN32 _ => true | _ => false end.
(** [matches!(q, BgpCapability::CapAddPath(_))], lib.rs:842-845 *)
Definition is_addpath (c : bgpcap) : bool := match c with CapAddPath _ => true | _ => false end.

(** lib.rs:751-779, the closure of filter_map *)
Definition match_one (rcaps : list bgpcap) (x : bgpcap) : option bgpcap :=
  match x with
  | CapASN32 _ => if existsb is_asn32 rcaps then Some x else None
  | CapAddPath cap =>
      match find is_addpath rcaps with
      | Some (CapAddPath icap) => Some (CapAddPath (match_addpath_caps cap icap))
      | _ => None
      end
  | _ => if existsb (fun q => cap_eqb q x) rcaps then Some x else None
  end.

(** [Iterator::filter_map], lib.rs:732-743 *)
Fixpoint filter_map {A B} (f : A -> option B) (l : list A) : list B :=
  match l with
  | [] => []
  | x :: l' => match f x with Some y => y :: filter_map f l' | None => filter_map f l' end
  end.

(** lib.rs:745-783 *)
Definition match_caps (p : params) (rcaps : list bgpcap) : params :=
  check_caps (mkParams (sp_as p) (sp_hold p) (sp_mode p) false (sp_rid p)
                       (filter_map (match_one rcaps) (sp_caps p)) (sp_fuzzy p)).

(** lib.rs:785-794 *)
Fixpoint find_addpath_in (caps : list bgpcap) (afi sf : N) : option capAP :=
  match caps with
  | [] => None
  | CapAddPath mcap :: caps' =>
      match find (fun ap => (ap_afi ap =? afi) && (ap_safi ap =? sf)) mcap with
      | Some r => Some r
      | None => find_addpath_in caps' afi sf
      end
  | _ :: caps' => find_addpath_in caps' afi sf
  end.
(** lib.rs:785-794 *)
Definition find_addpath (p : params) (afi sf : N) : option capAP :=
  find_addpath_in (sp_caps p) afi sf.

(** lib.rs:796-801 *)
Definition check_addpath_send (p : params) (afi sf : N) : bool :=
  match find_addpath p afi sf with None => false | Some x => ap_send x end.
(** lib.rs:803-808 *)
Definition check_addpath_receive (p : params) (afi sf : N) : bool :=
  match find_addpath p afi sf with None => false | Some x => ap_receive x end.
(** lib.rs:810-812 *)
Definition check_capability (p : params) (c : bgpcap) : bool :=
  existsb (fun x => cap_eqb x c) (sp_caps p).

(** lib.rs:821-833: edit of the first CapAddPath entry; [None] if there is none *)
Fixpoint remove_in_first_addpath (vc : list capAP) (caps : list bgpcap) : option (list bgpcap) :=
  match caps with
  | [] => None
  | CapAddPath cvc :: caps' =>
      Some (CapAddPath (fold_left (fun l cp => filter (fun x => negb (ap_eqb x cp)) l) vc cvc) :: caps')
  | c :: caps' =>
      match remove_in_first_addpath vc caps' with
      | Some r => Some (c :: r)
      | None => None
      end
  end.

(** lib.rs:814-841 *)
Definition remove_capability (p : params) (c : bgpcap) : params :=
  let with_caps l :=
    mkParams (sp_as p) (sp_hold p) (sp_mode p) (sp_as32 p) (sp_rid p) l (sp_fuzzy p) in
  match c with
  | CapASN32 _ => with_caps (filter (fun x => negb (is_asn32 x)) (sp_caps p))
  | CapAddPath vc =>
      match remove_in_first_addpath vc (sp_caps p) with
      | None => p
      | Some l =>
          with_caps (filter (fun x => match x with
                                      | CapAddPath [] => false
                                      | _ => true
                                      end) l)
      end
  | n => with_caps (filter (fun x => negb (cap_eqb x n)) (sp_caps p))
  end.

(** lib.rs:842-845 *)
Definition remove_capability_addpath (p : params) : params :=
  mkParams (sp_as p) (sp_hold p) (sp_mode p) (sp_as32 p) (sp_rid p)
           (filter (fun x => negb (is_addpath x)) (sp_caps p)) (sp_fuzzy p).

(** lib.rs:912-926 *)
Definition params_of_open (m : openMsg) : params :=
  check_caps (mkParams (op_as m) (op_hold m) ModeV4 true (op_rid m) (op_caps m) false).

(** message/mod.rs:29-34 *)
Inductive msgtype := MOpen | MUpdate | MNotification | MKeepalive.

(** message/mod.rs:38-46 *)
Definition msgtype_decode (code : N) : res msgtype :=
  if code =? 1 then Ok MOpen else
  if code =? 2 then Ok MUpdate else
  if code =? 3 then Ok MNotification else
  if code =? 4 then Ok MKeepalive else Err EOther.
(** message/mod.rs:48-55 *)
Definition msgtype_encode (t : msgtype) : N :=
  match t with MOpen => 1 | MUpdate => 2 | MNotification => 3 | MKeepalive => 4 end.

(** lib.rs:847-863 ([- 19] is a u16 subtraction) *)
Definition decode_message_head (oc : bool) (buf : list N) : res (msgtype * nat) :=
  if Nat.ltb (length buf) 19 then Err EOther else
  m <- rslice buf 0 16 ;;
  if negb (forallb (fun q => q =? 255) m) then Err EOther else
  c <- idx buf 18 ;;
  t <- msgtype_decode c ;;
  s <- rslice buf 16 18 ;; l <- getn_u16 s ;;
  n <- usub oc 16 l 19 ;;
  Ok (t, N.to_nat n).

(** lib.rs:874-889 *)
Definition prepare_message_buf (oc : bool) (t : msgtype) (messagelen : nat) : Enc nat :=
  len <~ elen ;;
  if Nat.ltb len (messagelen + 19) then eerr EInsufficient else
  write_at 0 (repeat 255 16) ;;;
  lng <~ elift (uadd oc 16 (cast 16 (N.of_nat messagelen)) 19) ;;
  set_idx 16 (cast 8 (N.shiftr lng 8)) ;;;
  set_idx 17 (cast 8 (N.land lng 255)) ;;;
  set_idx 18 (msgtype_encode t) ;;;
  eret (N.to_nat lng).

(** lib.rs:891-910: the buffer after the call and the bytes handed to
    [write_all] (an [Err] of the writer itself is not modelled). *)
Definition send_message_buf (oc : bool) (t : msgtype) (messagelen : nat) : Enc (list N) :=
  len <~ elen ;;
  if Nat.ltb len (messagelen + 19) then eerr EInsufficient else
  write_at 0 (repeat 255 16) ;;;
  lng <~ elift (uadd oc 16 (cast 16 (N.of_nat messagelen)) 19) ;;
  set_idx 16 (cast 8 (N.shiftr lng 8)) ;;;
  set_idx 17 (cast 8 (N.land lng 255)) ;;;
  set_idx 18 (msgtype_encode t) ;;;
  (fun buf => match rslice buf 0 (N.to_nat lng) with
              | Ok s => Ok (s, buf) | Err e => Err e | Panic => Panic | OutOfFuel => OutOfFuel
              end).

(** The receive loop of /repo/examples/bgpdumper.rs:90-125 over the remaining
    input [s]: read a 19-byte header ([recv_message_head], lib.rs:865-872), then
    the announced number of bytes ([read_exact] into [&mut buf[0..msg.1]]; [cap]
    is the size of [buf], 65536 there). Returns the messages read until the
    input runs out. Simplified: the body of a KEEPALIVE is read like any other
    (the example skips the empty read). *)
Fixpoint recv_loop (oc : bool) (cap : nat) (fuel : nat) (s : list N)
  : res (list (msgtype * list N)) :=
  match fuel with
  | O => OutOfFuel
  | S f =>
    if Nat.ltb (length s) 19 then Ok [] else
    ' (t, n) <- decode_message_head oc (firstn 19 s) ;;
    if Nat.ltb cap n then Panic else
    let s1 := skipn 19 s in
    if Nat.ltb (length s1) n then Ok [] else
    r <- recv_loop oc cap f (skipn n s1) ;;
    Ok ((t, firstn n s1) :: r)
  end.
