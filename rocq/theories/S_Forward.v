(** Which received messages can be sent on. What is required of values here is
    only what the library's encoders require (see C17 to C21, C42 to C44, C76,
    C77); that fields are in range is not, it follows from having been decoded. *)
From Verif Require Import Base M_Util S_Wire M_Prefix S_Prefix M_Nlri S_Nlri M_Vpls S_Vpls M_Mvpn S_Mvpn M_Evpn S_Evpn M_Flowspec S_Flowspec M_Cap M_Open M_Session
  M_Addrs S_Addrs M_Attr S_Attr M_Update S_Update.

(** there are labels, and the bits fit the length octet *)
Definition labels_fit {T} (W : T -> N * list N) (x : labeled T) : Prop := lab_labels x <> [] /\ fits (labeled_wire W) x.
(** an operator rule whose length is announced right *)
Definition rule_fits {T} (W : T -> list N) (r : flowspec T) : Prop :=
  ~ is_pfx r /\ skew r = 1%nat /\ (length (fs_body W r) <= 4094)%nat.
Definition list_fits (a : addrs) : Prop :=
  match a with
  | IPV4LU v => Forall (labels_fit v4_wire) v
  | IPV4LUP v => Forall (fun x => labels_fit v4_wire (pid_nlri x)) v
  | IPV6LU v => Forall (labels_fit v6_wire) v
  | IPV6LUP v => Forall (fun x => labels_fit v6_wire (pid_nlri x)) v
  | VPNV4U v | VPNV4M v => Forall (labels_fit (withrd_wire v4_wire)) v
  | VPNV4UP v | VPNV4MP v => Forall (fun x => labels_fit (withrd_wire v4_wire) (pid_nlri x)) v
  | VPNV6U v | VPNV6M v => Forall (labels_fit (withrd_wire v6_wire)) v
  | VPNV6UP v | VPNV6MP v => Forall (fun x => labels_fit (withrd_wire v6_wire) (pid_nlri x)) v
  | IPV6MDT v => Forall (fun x => v6_len (mdt6_addr (wrd_prefix x)) <= 63) v
  | IPV6MDTP v => Forall (fun x => v6_len (mdt6_addr (wrd_prefix (pid_nlri x))) <= 63) v
  | L2VPLS v => v = []
  | MVPN v => Forall (fun r => match r with MvT1 _ | MvT2 _ => True | _ => False end) v
  | EVPN v => Forall (fun r => match r with Ev1 r => (length (ev1_labels r) <= 10)%nat | Ev2 r => (length (ev2_labels r) <= 10)%nat | _ => True end) v
  | FS4U v => Forall (rule_fits fs4_wire) v
  | FS6U v => Forall (rule_fits fs6_wire) v
  | FSV4U v => Forall (rule_fits fsv4_wire) v
  | _ => True
  end.
(** attributes the library can send: AGGREGATOR, PMSI tunnels and attribute sets it cannot (C44, C76, C77), AS_PATH only with
    four-octet numbers (C43), ORIGINATOR_ID only of the session's kind of address *)
Definition attr_fits (p : params) (a : attr) : Prop :=
  N.of_nat (length (attr_wire p a)) <= len_max (attr_flags a) /\
  match a with
  | AAggregatorAS _ _ | APMSITunnel _ | AAttrSet _ _ => False
  | AASPath v => sp_as32 p = true \/ v = []
  | AOriginatorID x => match sp_mode p, x with ModeV4, IPv4 _ | ModeV6, IPv6 _ => True | _, _ => False end
  | AMPUpdates _ l | AMPWithdraws l => list_fits l
  | _ => True
  end.
(** a message that fits, with all its attributes *)
Definition forwardable (p : params) (m : update) : Prop :=
  Forall (attr_fits p) (u_attrs m) /\ N.of_nat (length (update_wire p m)) <= 65535.
