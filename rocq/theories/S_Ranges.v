(** The prefixes in a list of routes, and in an UPDATE: for C125. *)
From Verif Require Import Base M_Util M_Prefix M_Nlri M_Vpls M_Mvpn M_Evpn M_Flowspec M_Addrs M_Attr M_Update S_Prefix.

Definition flow_prefixes {T} (f : flowspec T) : list T := match f with FsDst a | FsSrc a => [a] | _ => [] end.
Definition prefixes4 (a : addrs) : list addrV4 :=
  match a with
  | IPV4U v | IPV4M v => v
  | IPV4UP v | IPV4MP v => map pid_nlri v
  | IPV4LU v => map lab_prefix v
  | IPV4LUP v => map (fun x => lab_prefix (pid_nlri x)) v
  | IPV4MDT v => map (fun x => mdt4_addr (wrd_prefix x)) v
  | IPV4MDTP v => map (fun x => mdt4_addr (wrd_prefix (pid_nlri x))) v
  | VPNV4U v | VPNV4M v => map (fun x => wrd_prefix (lab_prefix x)) v
  | VPNV4UP v | VPNV4MP v => map (fun x => wrd_prefix (lab_prefix (pid_nlri x))) v
  | FS4U v => flat_map flow_prefixes v
  | FSV4U v => map wrd_prefix (flat_map flow_prefixes v)
  | _ => []
  end.
Definition prefixes6 (a : addrs) : list addrV6 :=
  match a with
  | IPV6U v | IPV6M v => v
  | IPV6UP v | IPV6MP v => map pid_nlri v
  | IPV6LU v => map lab_prefix v
  | IPV6LUP v => map (fun x => lab_prefix (pid_nlri x)) v
  | IPV6MDT v => map (fun x => mdt6_addr (wrd_prefix x)) v
  | IPV6MDTP v => map (fun x => mdt6_addr (wrd_prefix (pid_nlri x))) v
  | VPNV6U v | VPNV6M v => map (fun x => wrd_prefix (lab_prefix x)) v
  | VPNV6UP v | VPNV6MP v => map (fun x => wrd_prefix (lab_prefix (pid_nlri x))) v
  | FS6U v => map fs6_ip (flat_map flow_prefixes v)
  | _ => []
  end.
Definition lens_ok (a : addrs) : Prop := Forall v4_wf (prefixes4 a) /\ Forall v6_wf (prefixes6 a).
Fixpoint attr_lens (a : attr) : Prop :=
  match a with
  | AMPUpdates _ a | AMPWithdraws a => lens_ok a
  | AAttrSet _ v => (fix all l := match l with [] => True | x :: l' => attr_lens x /\ all l' end) v
  | _ => True
  end.
Definition update_lens (u : update) : Prop := lens_ok (u_updates u) /\ lens_ok (u_withdraws u) /\ Forall attr_lens (u_attrs u).
