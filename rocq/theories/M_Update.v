(** Model of /repo/src/message/update/mod.rs: UPDATE messages. Log calls are left out. [decode_from]
    takes [&mut self]: the model takes the message as it was and returns the message as it is after
    success; what an unsuccessful call leaves in it is in M_State. *)
From Verif Require Import Base M_Util M_Prefix M_Nlri M_Vpls M_Mvpn M_Evpn M_Flowspec M_Cap M_Open M_Session M_Addrs M_Attr.

(** update/mod.rs:16-23 *)
Record update := mkUpd { u_updates : addrs; u_withdraws : addrs; u_attrs : list attr }.
(** update/mod.rs:26-32 *)
Definition update_new : update := mkUpd ANone ANone [].

(** update/mod.rs:34-104: each getter is the same loop with another pattern *)
Fixpoint first_attr {T} (f : attr -> option T) (l : list attr) : option T :=
  match l with
  | [] => None
  | a :: l' => match f a with Some x => Some x | None => first_attr f l' end
  end.
(** update/mod.rs:34-41 *)
Definition get_attr_origin (m : update) := first_attr (fun a => match a with AOrigin n => Some n | _ => None end) (u_attrs m).
(** update/mod.rs:43-50 *)
Definition get_attr_aspath (m : update) := first_attr (fun a => match a with AASPath n => Some n | _ => None end) (u_attrs m).
(** update/mod.rs:52-59 *)
Definition get_attr_communitylist (m : update) := first_attr (fun a => match a with ACommunityList n => Some n | _ => None end) (u_attrs m).
(** update/mod.rs:61-68 *)
Definition get_attr_largecommunitylist (m : update) := first_attr (fun a => match a with ALargeCommunityList n => Some n | _ => None end) (u_attrs m).
(** update/mod.rs:70-77 *)
Definition get_attr_extcommunitylist (m : update) := first_attr (fun a => match a with AExtCommunityList n => Some n | _ => None end) (u_attrs m).
(** update/mod.rs:79-86 *)
Definition get_attr_nexthop (m : update) := first_attr (fun a => match a with ANextHop n => Some n | _ => None end) (u_attrs m).
(** update/mod.rs:88-95 *)
Definition get_mpupdates (m : update) := first_attr (fun a => match a with AMPUpdates nh n => Some (nh, n) | _ => None end) (u_attrs m).
(** update/mod.rs:97-104 *)
Definition get_mpwithdraws (m : update) := first_attr (fun a => match a with AMPWithdraws n => Some n | _ => None end) (u_attrs m).

(** update/mod.rs:120-143 and 178-201: the same text for the two fields *)
Definition upd_nlri_decode (oc : bool) (p : params) (buf : list N) : res addrs :=
  '(a, _) <- (match sp_mode p with
              | ModeV4 => dec_fam oc v4_from_bits IPV4U IPV4UP p 1 1 buf
              | ModeV6 => dec_fam oc v6_from_bits IPV6U IPV6UP p 2 1 buf
              end) ;;
  Ok a.

(** update/mod.rs:152-177; one turn of the loop consumes at least three octets *)
Fixpoint upd_attrs (fuel : nat) (oc : bool) (p : params) (buf : list N) (curpos pathattr_end : nat) : res (list attr * nat) :=
  match fuel with
  | O => OutOfFuel
  | S fuel' =>
      if Nat.ltb curpos pathattr_end then
        flags <- idx buf curpos ;;
        tc <- idx buf (curpos + 1) ;;
        '(attrlen, curpos) <-
          (if 0 <? N.land flags 16 then
             s <- eslice buf (curpos + 4 - 2) (curpos + 4) ;; n <- getn_u16 s ;; Ok (N.to_nat n, (curpos + 4)%nat)
           else
             b <- idx buf (curpos + 3 - 1) ;; Ok (N.to_nat b, (curpos + 3)%nat)) ;;
        if Nat.ltb pathattr_end (curpos + attrlen) then Err EProtocol else
        s <- eslice buf curpos (curpos + attrlen) ;;
        a <- attr_decode oc p tc flags attrlen s ;;
        '(v, c) <- upd_attrs fuel' oc p buf (curpos + attrlen) pathattr_end ;;
        Ok (a :: v, c)
      else Ok ([], curpos)
  end.

(** update/mod.rs:112-204 *)
Definition update_decode (oc : bool) (p : params) (m : update) (buf : list N) : res update :=
  s <- eslice buf 0 2 ;;
  withdraws_length <- getn_u16 s ;;
  let withdraws_end := (2 + N.to_nat withdraws_length)%nat in
  if Nat.leb (length buf) withdraws_end then Err EInsufficient else
  s <- eslice buf 2 withdraws_end ;;
  withdraws <- upd_nlri_decode oc p s ;;
  s <- eslice buf withdraws_end (withdraws_end + 2) ;;
  pathattr_len <- getn_u16 s ;;
  let pathattr_end := (withdraws_end + 2 + N.to_nat pathattr_len)%nat in
  if Nat.ltb (length buf) pathattr_end then Err EProtocol else
  '(v, curpos) <- upd_attrs (S (length buf)) oc p buf (withdraws_end + 2) pathattr_end ;;
  s <- eslice buf curpos (length buf) ;;
  updates <- upd_nlri_decode oc p s ;;
  Ok (mkUpd updates withdraws (u_attrs m ++ v)).

(** the lists that update/mod.rs:208-255 and 268-287 write; the others are skipped *)
Definition upd_nlri_encode (oc : bool) (p : params) (a : addrs) : option (Enc nat) :=
  match sp_mode p, a with
  | ModeV4, IPV4U v => Some (encode_bgpitems_to oc v4_to_bits v)
  | ModeV4, IPV4UP v => Some (encode_pathid_bgpitems_to oc v4_to_bits v)
  | ModeV6, IPV6U v => Some (encode_bgpitems_to oc v6_to_bits v)
  | ModeV6, IPV6UP v => Some (encode_pathid_bgpitems_to oc v6_to_bits v)
  | _, _ => None
  end.
(** [e(..., slice_mut(buf, n, buf.len())?)?] (update/mod.rs:208-255) *)
Definition on_tail {A} (n : nat) (e : Enc A) : Enc A := len <~ elen ;; on_eslice n len e.
(** update/mod.rs:208-255 *)
Definition upd_withdraws (oc : bool) (p : params) (a : addrs) : Enc nat :=
  match upd_nlri_encode oc p a with
  | Some e =>
      wlen <~ on_tail 2 e ;;
      if 65535 <? N.of_nat wlen then eerr ETooMany else
      on_tail 0 (setn_u16 (cast 16 (N.of_nat wlen))) ;;;
      eret (2 + wlen)%nat
  | None => setn_u16 0 ;;; eret 2%nat
  end.
(** update/mod.rs:258-263 *)
Fixpoint upd_attrs_encode (oc : bool) (p : params) (v : list attr) (pathattrlen_pos curpos : nat) : Enc nat :=
  match v with
  | [] => eret curpos
  | a :: v' =>
      if 65535 <? N.of_nat (curpos - pathattrlen_pos) then eerr EOther else
      n <~ on_tail curpos (attr_encode oc p a) ;;
      upd_attrs_encode oc p v' pathattrlen_pos (curpos + n)
  end.
(** update/mod.rs:205-289 *)
Definition update_encode (oc : bool) (p : params) (m : update) : Enc nat :=
  pathattrlen_pos <~ upd_withdraws oc p (u_withdraws m) ;;
  curpos <~ upd_attrs_encode oc p (u_attrs m) pathattrlen_pos (pathattrlen_pos + 2) ;;
  on_eslice pathattrlen_pos (pathattrlen_pos + 2) (setn_u16 (cast 16 (N.of_nat (curpos - pathattrlen_pos - 2)))) ;;;
  match upd_nlri_encode oc p (u_updates m) with
  | Some e => n <~ on_tail curpos e ;; eret (curpos + n)%nat
  | None => eret curpos
  end.
