(** Specification of flow specifications (RFC 8955 4, RFC 8956 for the component
    codes; the library's own form of IPv6 prefixes). *)
From Verif Require Import Base M_Util S_Wire M_Prefix S_Prefix M_Nlri S_Nlri M_Flowspec.

(** operator octet: end-of-list, and, length of the value (2 bits), then the comparison bits; value *)
Definition b2n (b : bool) (k : N) : N := if b then k else 0.
Definition size_code (v : N) : N := if v <? 256 then 0 else if v <? 65536 then 1 else 2.
Definition size_octets (v : N) : nat := if v <? 256 then 1 else if v <? 65536 then 2 else 4.
Definition oper_wire (e a : bool) (low v : N) : list N :=
  (b2n e 128 + b2n a 64 + 16 * size_code v + low) :: be_bytes (size_octets v) v.
Definition val_wire (e : bool) (x : fsval) : list N :=
  oper_wire e (fv_and x) (b2n (fv_lt x) 4 + b2n (fv_gt x) 2 + b2n (fv_eq x) 1) (fv_value x).
Definition mask_wire (e : bool) (x : fsmask) : list N :=
  oper_wire e (fm_and x) (b2n (fm_not x) 2 + b2n (fm_match x) 1) (fm_value x).
(** a list: the end-of-list bit is set on the last item *)
Fixpoint vec_wire {U} (W : bool -> U -> list N) (v : list U) : list N :=
  match v with
  | [] => []
  | [x] => W true x
  | x :: v' => W false x ++ vec_wire W v'
  end.

Definition fs_code {T} (r : flowspec T) : N :=
  match r with
  | FsDst _ => 1 | FsSrc _ => 2 | FsProto _ => 3 | FsPortAny _ => 4 | FsPortDst _ => 5 | FsPortSrc _ => 6
  | FsIcmpType _ => 7 | FsIcmpCode _ => 8 | FsTcpFlags _ => 9 | FsPacketLength _ => 10 | FsDscp _ => 11
  | FsFragment _ => 12 | FsFlowLabel _ => 13
  end.
(** the component: its code and its value; [W] is the form of prefixes *)
Definition fs_body {T} (W : T -> list N) (r : flowspec T) : list N :=
  fs_code r ::
  match r with
  | FsDst a | FsSrc a => W a
  | FsProto v | FsPortAny v | FsPortDst v | FsPortSrc v | FsIcmpType v | FsIcmpCode v
  | FsPacketLength v | FsDscp v | FsFlowLabel v => vec_wire val_wire v
  | FsTcpFlags v | FsFragment v => vec_wire mask_wire v
  end.
(** length: one octet below 240, else two octets 0xfnnn *)
Definition fs_len_wire (n : nat) : list N :=
  if Nat.ltb n 240 then [N.of_nat n] else be_bytes 2 (61440 + N.of_nat n).
Definition fs_wire {T} (W : T -> list N) (r : flowspec T) : list N :=
  fs_len_wire (length (fs_body W r)) ++ fs_body W r.

(** prefixes *)
Definition fs4_wire (x : addrV4) : list N := fst (v4_wire x) :: snd (v4_wire x).
Definition fs6_wire (x : fs6) : list N := fst (v6_wire (fs6_ip x)) :: fs6_offset x :: snd (v6_wire (fs6_ip x)).
Definition fs6_wf (x : fs6) : Prop := v6_wf (fs6_ip x) /\ fs6_offset x < 256.
Definition fs6_trunc (x : fs6) : fs6 := mkFs6 (v6_trunc (fs6_ip x)) (fs6_offset x).

(** operator rules: all but the prefixes; values of 32 bits *)
Definition is_pfx {T} (r : flowspec T) : Prop := match r with FsDst _ | FsSrc _ => True | _ => False end.
Definition fs_wf {T} (wf : T -> Prop) (r : flowspec T) : Prop :=
  match r with
  | FsDst a | FsSrc a => wf a
  | FsProto v | FsPortAny v | FsPortDst v | FsPortSrc v | FsIcmpType v | FsIcmpCode v
  | FsPacketLength v | FsDscp v | FsFlowLabel v => Forall (fun x => fv_value x < 2 ^ 32) v
  | FsTcpFlags v | FsFragment v => Forall (fun x => fm_value x < 2 ^ 32) v
  end.
Definition fs_map {T} (f : T -> T) (r : flowspec T) : flowspec T :=
  match r with FsDst a => FsDst (f a) | FsSrc a => FsSrc (f a) | _ => r end.

(** by how much the announced length falls short, item by item *)
Definition val_skew (x : fsval) : nat := if fv_value x <? 256 then 1 else 0.
Definition mask_skew (x : fsmask) : nat :=
  if fm_value x <? 65536 then 1 else if fm_value x <? 16777216 then 2 else 0.
Definition skew {T} (r : flowspec T) : nat :=
  match r with
  | FsDst _ | FsSrc _ => 1
  | FsProto v | FsPortAny v | FsPortDst v | FsPortSrc v | FsIcmpType v | FsIcmpCode v
  | FsPacketLength v | FsDscp v | FsFlowLabel v => list_sum (map val_skew v)
  | FsTcpFlags v | FsFragment v => list_sum (map mask_skew v)
  end.
