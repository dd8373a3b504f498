(** Specification of the texts of errors. *)
From Coq Require Import Ascii String.
From Verif Require Import Base M_Util M_Text M_Error S_Exact3.

(** the kinds of error, as a program that matches on them sees them *)
Inductive errkind := KStatic | KInsufficient | KProtocol | KTooMany | KDynStr | KOther.
Definition kind_of (e : bgperror) : errkind :=
  match e with
  | XStatic _ => KStatic | XInsufficientBufferSize => KInsufficient | XProtocolError => KProtocol | XTooManyData => KTooMany
  | XDynStr _ => KDynStr | XOther _ _ => KOther
  end.
(** what an error says *)
Definition says (e : bgperror) : text :=
  match e with
  | XStatic s | XDynStr s | XOther s _ => s
  | XInsufficientBufferSize => txt "InsufficientBufferSize" | XProtocolError => txt "ProtocolError" | XTooManyData => txt "TooManyData"
  end.
(** strings are UTF-8 *)
Definition error_wf (e : bgperror) : Prop := match e with XStatic s | XDynStr s => utf8 s | _ => True end.
(** the same error, but for what a wrapped error displays *)
Definition same_error (e e' : bgperror) : Prop :=
  match e, e' with XOther _ g, XOther _ g' => g = g' | _, _ => e = e' end.
Definition known_afi (afi : N) : Prop := afi = 1 \/ afi = 2 \/ afi = 25.
