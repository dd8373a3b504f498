(** Model of /repo/src/error.rs, and of the texts with which unknown address families are refused (/repo/src/afi/mod.rs,
    /repo/src/message/attributes/multiproto.rs). An error of another library, wrapped in [Other], is what it displays and what its
    [Debug] writes. *)
From Coq Require Import Ascii String.
From Verif Require Import Base M_Util M_Text M_Debug M_Debug2.

(** error.rs:17-25 *)
Inductive bgperror :=
| XStatic (s : text)
| XInsufficientBufferSize
| XProtocolError
| XTooManyData
| XDynStr (s : text)
| XOther (display debug : text).
(** error.rs:30-32 *)
Definition static_str (ms : text) : bgperror := XStatic ms.
(** error.rs:35-37 *)
Definition from_string (s : text) : bgperror := XDynStr s.
(** error.rs:40-42, and the [From] implementations error.rs:73-92 *)
Definition from_error (display debug : text) : bgperror := XOther display debug.
(** error.rs:45-47 *)
Definition insufficient_buffer_size : bgperror := XInsufficientBufferSize.
(** error.rs:50-52 *)
Definition protocol_error : bgperror := XProtocolError.
(** error.rs:55-57 *)
Definition too_many_data : bgperror := XTooManyData.
(** [Display], error.rs:59-70 *)
Definition error_fmt (e : bgperror) : text :=
  match e with
  | XInsufficientBufferSize => txt "BgpError InsufficientBufferSize"
  | XProtocolError => txt "BgpError ProtocolError"
  | XTooManyData => txt "BgpError TooManyData"
  | XStatic s => txt "BgpError " ++ s
  | XDynStr s => txt "BgpError " ++ s
  | XOther d _ => txt "BgpError " ++ d
  end.
(** [Debug], derived (error.rs:16) *)
Definition error_debug (pr : N -> bool) (e : bgperror) : text :=
  match e with
  | XStatic s => d_variant (txt "Static") (Some (str_debug pr s))
  | XInsufficientBufferSize => d_variant (txt "InsufficientBufferSize") None
  | XProtocolError => d_variant (txt "ProtocolError") None
  | XTooManyData => d_variant (txt "TooManyData") None
  | XDynStr s => d_variant (txt "DynStr") (Some (str_debug pr s))
  | XOther _ g => d_variant (txt "Other") (Some g)
  end.
(** The errors of the model of the decoders: [Static], [DynStr] and [Other] are not told apart there (error.rs:17-25) *)
Definition error_class (e : bgperror) : err :=
  match e with
  | XInsufficientBufferSize => EInsufficient
  | XProtocolError => EProtocol
  | XTooManyData => ETooMany
  | XStatic _ | XDynStr _ | XOther _ _ => EOther
  end.

(** afi/mod.rs:930-933, 1016-1019, 1035-1038, 1041: the error with which [BgpAddrs::decode_from] refuses a family, if it does *)
Definition family_error (afi sf : N) : option bgperror :=
  if afi =? 1 then
    if existsb (N.eqb sf) [1; 2; 4; 5; 66; 128; 129; 133; 134] then None else Some (from_string (txt "Unknown safi for ipv4 " ++ fmt_dec sf))
  else if afi =? 2 then
    if existsb (N.eqb sf) [1; 2; 4; 66; 128; 129; 133] then None else Some (from_string (txt "Unknown safi for ipv6 " ++ fmt_dec sf))
  else if afi =? 25 then
    if existsb (N.eqb sf) [65; 70] then None else Some (from_string (txt "Unknown safi for l2 " ++ fmt_dec sf))
  else Some (from_string (txt "Unknown afi " ++ fmt_dec afi)).
(** multiproto.rs:88-94, 111-116, 127-132, 135: the same for the next hop of an announcement *)
Definition nexthop_error (afi sf : N) : option bgperror :=
  if afi =? 1 then
    if existsb (N.eqb sf) [1; 2; 4; 5; 66; 133; 128; 129; 134] then None else Some (from_string (txt "Unknown safi for ipv4 code " ++ fmt_dec sf))
  else if afi =? 2 then
    if existsb (N.eqb sf) [1; 2; 4; 66; 128; 129] then None else Some (from_string (txt "Unknown safi for ipv6: " ++ fmt_dec sf))
  else if afi =? 25 then
    if existsb (N.eqb sf) [65; 70] then None else Some (from_string (txt "Unknown safi for l2: " ++ fmt_dec sf))
  else Some (from_string (txt "Unknown afi code " ++ fmt_dec afi)).
