(** Flow specification rules of several components (RFC 8955 4): one length, then the components, all of which a
    packet has to meet. *)
From Verif Require Import Base M_Util S_Wire M_Prefix S_Prefix M_Nlri S_Nlri M_Flowspec S_Flowspec.

Definition components {T} (W : T -> list N) (cs : list (flowspec T)) : list N := concat (map (fs_body W) cs).
Definition rule_wire {T} (W : T -> list N) (cs : list (flowspec T)) : list N :=
  fs_len_wire (length (components W cs)) ++ components W cs.

(** the same kind of component, with the alternatives of [c] and at least one more *)
Definition longer {U} (v v' : list U) : Prop := exists e, e <> [] /\ v' = v ++ e.
Definition extends {T} (c r : flowspec T) : Prop :=
  match c, r with
  | FsProto v, FsProto v' | FsPortAny v, FsPortAny v' | FsPortDst v, FsPortDst v' | FsPortSrc v, FsPortSrc v'
  | FsIcmpType v, FsIcmpType v' | FsIcmpCode v, FsIcmpCode v' | FsPacketLength v, FsPacketLength v'
  | FsDscp v, FsDscp v' | FsFlowLabel v, FsFlowLabel v' => longer v v'
  | FsTcpFlags v, FsTcpFlags v' | FsFragment v, FsFragment v' => longer v v'
  | _, _ => False
  end.
(** destination port 25 or 53, as a second component *)
Definition two_ports {T} : flowspec T := FsPortDst [mkFsVal false false false true 25; mkFsVal false false false true 53].
(** a component with one test, against a value of one octet *)
Definition lone {T} (d : flowspec T) (n : N) : Prop :=
  match d with
  | FsProto [x] | FsPortAny [x] | FsPortDst [x] | FsPortSrc [x] | FsIcmpType [x] | FsIcmpCode [x]
  | FsPacketLength [x] | FsDscp [x] | FsFlowLabel [x] => fv_value x = n /\ n < 256
  | FsTcpFlags [x] | FsFragment [x] => fm_value x = n /\ n < 256
  | _ => False
  end.
(** rules of one component each, as they are sent one behind the other *)
Definition plain_rules {T} (wf : T -> Prop) (W : T -> list N) (rs : list (flowspec T)) : Prop :=
  Forall (fun r => fs_wf wf r /\ ~ is_pfx r /\ (length (fs_body W r) <= 4095)%nat) rs.
