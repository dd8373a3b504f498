(** Model of /repo/src/afi/flowspec.rs (serde support excepted). [oc] is the build mode. *)
From Verif Require Import Base M_Util M_Prefix M_Nlri.

(** [trait FSItem] (flowspec.rs:15-20), without [prefixlen], which is not used there *)
Record fsitem (T : Type) := mkFsItem { fs_dec : list N -> res (T * nat); fs_enc : T -> Enc unit; fs_size : T -> nat }.
Arguments mkFsItem {T}. Arguments fs_dec {T}. Arguments fs_enc {T}. Arguments fs_size {T}.

(** [((len as usize) + 7) / 8] (flowspec.rs:56-65, 94-103) *)
Definition pfx_bytes (len : N) : nat := N.to_nat ((len + 7) / 8).

(** flowspec.rs:22-25 *)
Definition fs4_dec (oc : bool) (buf : list N) : res (addrV4 * nat) :=
  b <- idx buf 0 ;; s <- rfrom buf 1 ;; '(x, n) <- v4_from_bits oc b s ;; Ok (x, (n + 1)%nat).
(** flowspec.rs:26-30 *)
Definition fs4_enc (oc : bool) (x : addrV4) : Enc unit :=
  set_idx 0 (v4_len x) ;;; _ <~ on_from 1 (v4_to_bits oc x) ;; eret tt.
(** flowspec.rs:21-37 *)
Definition fs4 (oc : bool) : fsitem addrV4 := mkFsItem (fs4_dec oc) (fs4_enc oc) (fun x => (1 + pfx_bytes (v4_len x))%nat).

(** flowspec.rs:43-46 *)
Record fs6 := mkFs6 { fs6_ip : addrV6; fs6_offset : N }.
(** flowspec.rs:56-65 *)
Definition fs6_dec (oc : bool) (buf : list N) : res (fs6 * nat) :=
  b <- idx buf 0 ;; s <- rfrom buf 2 ;; '(x, n) <- v6_from_bits oc b s ;;
  o <- idx buf 1 ;; Ok (mkFs6 x o, (n + 2)%nat).
(** flowspec.rs:66-71 *)
Definition fs6_enc (oc : bool) (x : fs6) : Enc unit :=
  set_idx 0 (v6_len (fs6_ip x)) ;;; set_idx 1 (fs6_offset x) ;;; _ <~ on_from 2 (v6_to_bits oc (fs6_ip x)) ;; eret tt.
(** flowspec.rs:55-78 *)
Definition fs6i (oc : bool) : fsitem fs6 := mkFsItem (fs6_dec oc) (fs6_enc oc) (fun x => (2 + pfx_bytes (v6_len (fs6_ip x)))%nat).

(** flowspec.rs:85-87: a transparent wrapper; flowspec.rs:94-103 *)
Definition fsv4_dec (oc : bool) (buf : list N) : res (withRd addrV4 * nat) :=
  s <- rfrom buf 1 ;; '(rd, rn) <- decode_rd_from s ;;
  b <- idx buf 0 ;; bits <- usub oc 8 b 64 ;; s' <- rfrom buf (rn + 1) ;;
  '(x, n) <- v4_from_bits oc bits s' ;; Ok (mkWRD x rd, (rn + n + 1)%nat).
(** flowspec.rs:104-109 *)
Definition fsv4_enc (oc : bool) (x : withRd addrV4) : Enc unit :=
  set_idx 0 0 ;;; set_idx 1 0 ;;; _ <~ on_from 2 (withrd_set v4_to_bits oc x) ;; eret tt.
(** flowspec.rs:93-116 *)
Definition fsv4 (oc : bool) : fsitem (withRd addrV4) :=
  mkFsItem (fsv4_dec oc) (fsv4_enc oc) (fun x => (10 + pfx_bytes (v4_len (wrd_prefix x)))%nat).

(** [trait FSOperItem] (flowspec.rs:118-122) *)
Record fsoper (T : Type) := mkFsOper { op_byteslen : T -> nat; op_enc : T -> Enc nat; op_dec : list N -> res (T * nat) }.
Arguments mkFsOper {T}. Arguments op_byteslen {T}. Arguments op_enc {T}. Arguments op_dec {T}.

(** [if b { op |= k }] (flowspec.rs:199-219) *)
Definition flag (b : bool) (k op : N) : N := if b then N.lor op k else op.
(** [(x & k) != 0] (flowspec.rs:168-197) *)
Definition has (x k : N) : bool := negb (N.land x k =? 0).
(** flowspec.rs:182-196 and 354-368 *)
Definition oper_write (op value : N) : Enc nat :=
  if 65535 <? value then set_idx 0 (N.lor op (N.shiftl 2 4)) ;;; on_from 1 (setn_u32 value) ;;; eret 5%nat
  else if 255 <? value then set_idx 0 (N.lor op (N.shiftl 1 4)) ;;; on_from 1 (setn_u16 (cast 16 value)) ;;; eret 3%nat
  else set_idx 0 op ;;; set_idx 1 (cast 8 value) ;;; eret 2%nat.
(** flowspec.rs:199-219 and 371-391: operator octet, value, length *)
Definition oper_read (buf : list N) : res (N * N * nat) :=
  b <- idx buf 0 ;;
  let l := N.land (N.shiftr b 4) 3 in
  if l =? 0 then v <- idx buf 1 ;; Ok (b, v, 2%nat)
  else if l =? 1 then s <- rfrom buf 1 ;; v <- getn_u16 s ;; Ok (b, v, 3%nat)
  else if l =? 2 then s <- rfrom buf 1 ;; v <- getn_u32 s ;; Ok (b, v, 5%nat)
  else Err EOther.

(** flowspec.rs:126-132 *)
Record fsval := mkFsVal { fv_and : bool; fv_lt : bool; fv_gt : bool; fv_eq : bool; fv_value : N }.
(** flowspec.rs:159-167 *)
Definition fsval_byteslen (x : fsval) : nat :=
  if 65535 <? fv_value x then 5 else if 255 <? fv_value x then 3 else 1.
(** flowspec.rs:168-197 *)
Definition fsval_enc (x : fsval) : Enc nat :=
  oper_write (flag (fv_eq x) 1 (flag (fv_gt x) 2 (flag (fv_lt x) 4 (flag (fv_and x) 64 0)))) (fv_value x).
(** flowspec.rs:198-229 *)
Definition fsval_dec (buf : list N) : res (fsval * nat) :=
  '(b, v, n) <- oper_read buf ;; Ok (mkFsVal (has b 64) (has b 4) (has b 2) (has b 1) v, n).
(** flowspec.rs:158-230 *)
Definition fsvalop : fsoper fsval := mkFsOper fsval_byteslen fsval_enc fsval_dec.

(** flowspec.rs:301-306 *)
Record fsmask := mkFsMask { fm_and : bool; fm_not : bool; fm_match : bool; fm_value : N }.
(** flowspec.rs:332-342 *)
Definition fsmask_byteslen (x : fsmask) : nat :=
  if 16777215 <? fm_value x then 5 else if 65535 <? fm_value x then 3 else if 255 <? fm_value x then 2 else 1.
(** flowspec.rs:343-369 *)
Definition fsmask_enc (x : fsmask) : Enc nat :=
  oper_write (flag (fm_match x) 1 (flag (fm_not x) 2 (flag (fm_and x) 64 0))) (fm_value x).
(** flowspec.rs:370-400 *)
Definition fsmask_dec (buf : list N) : res (fsmask * nat) :=
  '(b, v, n) <- oper_read buf ;; Ok (mkFsMask (has b 64) (has b 2) (has b 1) v, n).
(** flowspec.rs:331-401 *)
Definition fsmaskop : fsoper fsmask := mkFsOper fsmask_byteslen fsmask_enc fsmask_dec.

(** ** [FSOperVec]: a vector of items (flowspec.rs:233-235) *)

(** flowspec.rs:246-252 *)
Definition vec_byteslen {T} (o : fsoper T) (v : list T) : nat := fold_left (fun a c => (a + op_byteslen o c)%nat) v 0%nat.
(** flowspec.rs:259-262: the loop over [pos] and [lpos] *)
Fixpoint vec_write {T} (o : fsoper T) (v : list T) (pos lpos : nat) : Enc (nat * nat) :=
  match v with
  | [] => eret (pos, lpos)
  | c :: v' => n <~ on_from pos (op_enc o c) ;; vec_write o v' (pos + n) pos
  end.
(** flowspec.rs:253-265 *)
Definition vec_enc {T} (o : fsoper T) (v : list T) : Enc nat :=
  match v with
  | [] => eret 0%nat
  | _ => '(pos, lpos) <~ vec_write o v 0 0 ;; upd_idx lpos (fun b => N.lor b 128) ;;; eret pos
  end.
(** flowspec.rs:266-275 *)
Definition vec_dec {T} (o : fsoper T) (buf : list N) : res (list T * nat) :=
  dec_loop (op_dec o) (S (length buf)) buf 0.

(** flowspec.rs:406-420 *)
Inductive flowspec (T : Type) :=
| FsDst (a : T) | FsSrc (a : T)
| FsProto (v : list fsval) | FsPortAny (v : list fsval) | FsPortDst (v : list fsval) | FsPortSrc (v : list fsval)
| FsIcmpType (v : list fsval) | FsIcmpCode (v : list fsval) | FsTcpFlags (v : list fsmask)
| FsPacketLength (v : list fsval) | FsDscp (v : list fsval) | FsFragment (v : list fsmask) | FsFlowLabel (v : list fsval).
Arguments FsDst {T}. Arguments FsSrc {T}. Arguments FsProto {T}. Arguments FsPortAny {T}. Arguments FsPortDst {T}.
Arguments FsPortSrc {T}. Arguments FsIcmpType {T}. Arguments FsIcmpCode {T}. Arguments FsTcpFlags {T}.
Arguments FsPacketLength {T}. Arguments FsDscp {T}. Arguments FsFragment {T}. Arguments FsFlowLabel {T}.

(** flowspec.rs:437-444: the prefix arms; note [pos + 2 + r.1] *)
Definition fs_arm_pfx {T} (it : fsitem T) (wrap : T -> flowspec T) (buf : list N) (pos nlen : nat) : res (flowspec T * nat) :=
  s <- rslice buf (pos + 1) nlen ;; '(r, n) <- fs_dec it s ;; Ok (wrap r, (pos + 2 + n)%nat).
(** flowspec.rs:445-488: the operator arms *)
Definition fs_arm_vec {T U} (o : fsoper U) (wrap : list U -> flowspec T) (buf : list N) (pos nlen : nat) : res (flowspec T * nat) :=
  s <- rslice buf (pos + 1) nlen ;; '(r, n) <- vec_dec o s ;; Ok (wrap r, (n + pos + 1)%nat).
(** flowspec.rs:427-491 *)
Definition fs_decode {T} (it : fsitem T) (buf : list N) : res (flowspec T * nat) :=
  b <- idx buf 0 ;;
  '(pos, nlen) <- (if N.land b 240 =? 240 then
                     w <- getn_u16 buf ;; Ok (2%nat, (N.to_nat (N.land w 4095) + 2)%nat)
                   else Ok (1%nat, (N.to_nat b + 1)%nat)) ;;
  c <- idx buf pos ;;
  if c =? 1 then fs_arm_pfx it FsDst buf pos nlen
  else if c =? 2 then fs_arm_pfx it FsSrc buf pos nlen
  else if c =? 3 then fs_arm_vec fsvalop FsProto buf pos nlen
  else if c =? 4 then fs_arm_vec fsvalop FsPortAny buf pos nlen
  else if c =? 5 then fs_arm_vec fsvalop FsPortDst buf pos nlen
  else if c =? 6 then fs_arm_vec fsvalop FsPortSrc buf pos nlen
  else if c =? 7 then fs_arm_vec fsvalop FsIcmpType buf pos nlen
  else if c =? 8 then fs_arm_vec fsvalop FsIcmpCode buf pos nlen
  else if c =? 9 then fs_arm_vec fsmaskop FsTcpFlags buf pos nlen
  else if c =? 10 then fs_arm_vec fsvalop FsPacketLength buf pos nlen
  else if c =? 11 then fs_arm_vec fsvalop FsDscp buf pos nlen
  else if c =? 12 then fs_arm_vec fsmaskop FsFragment buf pos nlen
  else if c =? 13 then fs_arm_vec fsvalop FsFlowLabel buf pos nlen
  else Err EOther.

(** flowspec.rs:494-508 *)
Definition fs_nlen {T} (it : fsitem T) (r : flowspec T) : nat :=
  match r with
  | FsDst a => 1 + fs_size it a
  | FsSrc a => 1 + fs_size it a
  | FsProto v => 2 + vec_byteslen fsvalop v
  | FsPortAny v => 2 + vec_byteslen fsvalop v
  | FsPortDst v => 2 + vec_byteslen fsvalop v
  | FsPortSrc v => 2 + vec_byteslen fsvalop v
  | FsIcmpType v => 2 + vec_byteslen fsvalop v
  | FsIcmpCode v => 2 + vec_byteslen fsvalop v
  | FsTcpFlags v => 2 + vec_byteslen fsmaskop v
  | FsPacketLength v => 2 + vec_byteslen fsvalop v
  | FsDscp v => 2 + vec_byteslen fsvalop v
  | FsFragment v => 2 + vec_byteslen fsmaskop v
  | FsFlowLabel v => 2 + vec_byteslen fsvalop v
  end%nat.
(** flowspec.rs:528-537 *)
Definition fs_put_pfx {T} (it : fsitem T) (code : N) (a : T) (pos : nat) : Enc nat :=
  set_idx pos code ;;; on_from (pos + 1) (fs_enc it a) ;;; eret (pos + fs_size it a + 1)%nat.
(** flowspec.rs:538-581 *)
Definition fs_put_vec {U} (o : fsoper U) (code : N) (v : list U) (pos : nat) : Enc nat :=
  set_idx pos code ;;; n <~ on_from (pos + 1) (vec_enc o v) ;; eret (pos + 1 + n)%nat.
(** flowspec.rs:492-584 *)
Definition fs_encode {T} (it : fsitem T) (r : flowspec T) : Enc nat :=
  let nlen := fs_nlen it r in
  if Nat.ltb 4094 nlen then eerr EInsufficient else
  pos <~ (if Nat.ltb nlen 240 then
            len <~ elen ;;
            if Nat.ltb len (nlen + 1) then eerr EInsufficient else
            set_idx 0 (cast 8 (N.of_nat nlen)) ;;; eret 1%nat
          else
            len <~ elen ;;
            if Nat.ltb len (nlen + 2) then eerr EInsufficient else
            setn_u16 (cast 16 (N.of_nat nlen)) ;;; upd_idx 0 (fun b => N.lor b 240) ;;; eret 2%nat) ;;
  match r with
  | FsDst a => fs_put_pfx it 1 a pos
  | FsSrc a => fs_put_pfx it 2 a pos
  | FsProto v => fs_put_vec fsvalop 3 v pos
  | FsPortAny v => fs_put_vec fsvalop 4 v pos
  | FsPortDst v => fs_put_vec fsvalop 5 v pos
  | FsPortSrc v => fs_put_vec fsvalop 6 v pos
  | FsIcmpType v => fs_put_vec fsvalop 7 v pos
  | FsIcmpCode v => fs_put_vec fsvalop 8 v pos
  | FsTcpFlags v => fs_put_vec fsmaskop 9 v pos
  | FsPacketLength v => fs_put_vec fsvalop 10 v pos
  | FsDscp v => fs_put_vec fsvalop 11 v pos
  | FsFragment v => fs_put_vec fsmaskop 12 v pos
  | FsFlowLabel v => fs_put_vec fsvalop 13 v pos
  end.
