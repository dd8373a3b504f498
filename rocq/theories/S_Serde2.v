(** Specification of serialization, continued: what the fields of the crate's types hold, in terms of the types' own fields; where
    route lists with flow specifications or wrapped prefixes occur; documents keyed by number. *)
From Verif Require Import Base S_Attr S_Nlri S_Prefix S_Text S_Text2 S_Evpn S_Wire M_Util M_Prefix M_Nlri M_Vpls M_Mvpn M_Evpn M_Flowspec M_Addrs M_Attr M_Text M_Serde S_Serde.

(** ** Ranges: integers below their type's limit, arrays of their length, nothing else *)
Definition u32s (l : list N) : Prop := Forall (fun n => n < 2 ^ 32) l.
Definition wrd_any {T} (P : T -> Prop) (x : withRd T) : Prop := rd_wf (wrd_rd x) /\ P (wrd_prefix x).
Definition lab_any {T} (P : T -> Prop) (x : labeled T) : Prop := u32s (lab_labels x) /\ P (lab_prefix x).
Definition pid_any {T} (P : T -> Prop) (x : withPathId T) : Prop := pid x < 2 ^ 32 /\ P (pid_nlri x).
Definition l2a_any (x : addrL2) : Prop :=
  rd_wf (l2a_rd x) /\ l2a_site x < 2 ^ 16 /\ l2a_offset x < 2 ^ 16 /\ l2a_range x < 2 ^ 16 /\ u32s (l2a_labels x).
Definition l2_any (x : bgpL2) : Prop := rd_wf (l2_rd x) /\ l2_site x < 2 ^ 16 /\ l2_offset x < 2 ^ 16 /\ l2_range x < 2 ^ 16.
Definition mv3_any (r : mvpn3) : Prop := rd_wf (mv3_rd r) /\ ip_any (mv3_source r) /\ ip_any (mv3_group r) /\ ip_any (mv3_orig r).
Definition mv67_any (r : mvpn67) : Prop := rd_wf (mv67_rd r) /\ mv67_asn r < 2 ^ 32 /\ ip_any (mv67_rp r) /\ ip_any (mv67_group r).
Definition mv_any (r : mvpn) : Prop :=
  match r with
  | MvT1 r => rd_wf (mv1_rd r) /\ ip_any (mv1_orig r)
  | MvT2 r => rd_wf (mv2_rd r) /\ mv2_asn r < 2 ^ 32
  | MvT3 r => mv3_any r
  | MvT4 r => mv3_any (mv4_spmsi r) /\ ip_any (mv4_orig r)
  | MvT5 r => rd_wf (mv5_rd r) /\ ip_any (mv5_source r) /\ ip_any (mv5_group r)
  | MvT6 r => mv67_any r
  | MvT7 r => mv67_any r
  end.
Definition octets (n : nat) (l : list N) : Prop := length l = n /\ Forall (fun x => x < 256) l.
Definition evr_any (r : evpn) : Prop :=
  match r with
  | Ev1 r => rd_wf (ev1_rd r) /\ ev1_esi_type r < 2 ^ 8 /\ octets 9 (ev1_esi r) /\ ev1_tag r < 2 ^ 32 /\ u32s (ev1_labels r)
  | Ev2 r => rd_wf (ev2_rd r) /\ ev2_esi_type r < 2 ^ 8 /\ octets 9 (ev2_esi r) /\ ev2_tag r < 2 ^ 32 /\ octets 6 (ev2_mac r) /\
             match ev2_ip r with None => True | Some a => ip_any a end /\ u32s (ev2_labels r)
  | Ev3 r => rd_wf (ev3_rd r) /\ ev3_tag r < 2 ^ 32 /\ ip_any (ev3_ip r)
  | Ev4 r => rd_wf (ev4_rd r) /\ ev4_esi_type r < 2 ^ 8 /\ octets 9 (ev4_esi r) /\ ip_any (ev4_ip r)
  | Ev5 r => rd_wf (ev5_rd r) /\ ev5_esi_type r < 2 ^ 8 /\ octets 9 (ev5_esi r) /\ ev5_tag r < 2 ^ 32 /\ ev5_len r < 2 ^ 8 /\
             ip_any (ev5_prefix r) /\ ip_any (ev5_gw r) /\ u32s (ev5_labels r)
  end.
Definition fs6_any (x : fs6) : Prop := v6_any (fs6_ip x) /\ fs6_offset x < 2 ^ 8.
Definition flow_any {T} (P : T -> Prop) (f : flowspec T) : Prop :=
  match f with
  | FsDst a | FsSrc a => P a
  | FsProto v | FsPortAny v | FsPortDst v | FsPortSrc v | FsIcmpType v | FsIcmpCode v | FsPacketLength v | FsDscp v | FsFlowLabel v =>
      Forall (fun x => fv_value x < 2 ^ 32) v
  | FsTcpFlags v | FsFragment v => Forall (fun x => fm_value x < 2 ^ 32) v
  end.
Definition addr_any (a : bgpaddr) : Prop :=
  match a with
  | BANone => True
  | BAV4 a => a < 2 ^ 32
  | BAV6 a => a < 2 ^ 128
  | BAV4RD rd a => rd_wf rd /\ a < 2 ^ 32
  | BAV6RD rd a => rd_wf rd /\ a < 2 ^ 128
  | BAL2 x => l2_any x
  | BAMVPN r => mv_any r
  end.
Definition addrs_any (a : addrs) : Prop :=
  match a with
  | ANone => True
  | IPV4U v | IPV4M v => Forall v4_any v
  | IPV4UP v | IPV4MP v => Forall (pid_any v4_any) v
  | IPV4LU v => Forall (lab_any v4_any) v
  | IPV4LUP v => Forall (pid_any (lab_any v4_any)) v
  | IPV4MDT v => Forall (wrd_any mdt4_any) v
  | IPV4MDTP v => Forall (pid_any (wrd_any mdt4_any)) v
  | VPNV4U v | VPNV4M v => Forall (lab_any (wrd_any v4_any)) v
  | VPNV4UP v | VPNV4MP v => Forall (pid_any (lab_any (wrd_any v4_any))) v
  | IPV6U v | IPV6M v => Forall v6_any v
  | IPV6UP v | IPV6MP v => Forall (pid_any v6_any) v
  | IPV6LU v => Forall (lab_any v6_any) v
  | IPV6LUP v => Forall (pid_any (lab_any v6_any)) v
  | IPV6MDT v => Forall (wrd_any mdt6_any) v
  | IPV6MDTP v => Forall (pid_any (wrd_any mdt6_any)) v
  | VPNV6U v | VPNV6M v => Forall (lab_any (wrd_any v6_any)) v
  | VPNV6UP v | VPNV6MP v => Forall (pid_any (lab_any (wrd_any v6_any))) v
  | L2VPLS v => Forall l2a_any v
  | MVPN v => Forall mv_any v
  | EVPN v => Forall evr_any v
  | FS4U v => Forall (flow_any v4_any) v
  | FS6U v => Forall (flow_any fs6_any) v
  | FSV4U v => Forall (flow_any (wrd_any v4_any)) v
  end.
Definition tun_any (t : pmsi_tun) : Prop :=
  match t with
  | PtNone => True
  | PtRSVP e r i p => e < 2 ^ 32 /\ r < 2 ^ 16 /\ i < 2 ^ 16 /\ p < 2 ^ 32
  | PtIngress e => e < 2 ^ 32
  | PtMLDP a o => ip_any a /\ Forall (fun x => x < 2 ^ 8) o
  end.
(** communities: in strictly ascending order, as a [BTreeSet] keeps them *)
Fixpoint attr_any (a : attr) : Prop :=
  match a with
  | AOrigin _ => True
  | AASPath v => u32s v
  | ANextHop a | AAtomicAggregate a | AOriginatorID a => ip_any a
  | AMED v | ALocalPref v => v < 2 ^ 32
  | AAggregatorAS asn a => asn < 2 ^ 32 /\ a < 2 ^ 32
  | ACommunityList v => u32s v /\ ascending N.compare v
  | AClusterList v => Forall ip_any v
  | AMPUpdates n a => addr_any n /\ addrs_any a
  | AMPWithdraws a => addrs_any a
  | AExtCommunityList v => Forall ecomm_wf v /\ ascending ecomm_cmp v
  | ALargeCommunityList v => Forall lcomm_wf v /\ ascending lcomm_cmp v
  | APMSITunnel t => pm_flags t < 2 ^ 8 /\ pm_type t < 2 ^ 8 /\ u32s (pm_label t) /\ tun_any (pm_tun t)
  | AAttrSet asn v => asn < 2 ^ 32 /\ (fix all l := match l with [] => True | x :: l' => attr_any x /\ all l' end) v
  | AConnector asn a o => asn < 2 ^ 32 /\ a < 2 ^ 32 /\ o < 2 ^ 32
  | AUnknown tc f v => tc < 2 ^ 8 /\ f < 2 ^ 8 /\ Forall (fun x => x < 2 ^ 8) v
  end.

(** ** Where flow specifications and wrapped prefixes are *)
Definition some {A} (l : list A) : bool := match l with [] => false | _ => true end.
Definition flow_list (a : addrs) : bool :=
  match a with FS4U v => some v | FS6U v => some v | FSV4U v => some v | _ => false end.
(** lists whose elements have a path identifier, labels or a route distinguisher around a prefix *)
Definition wrapped_list (a : addrs) : bool :=
  match a with
  | ANone | IPV4U _ | IPV4M _ | IPV6U _ | IPV6M _ | L2VPLS _ | MVPN _ | EVPN _ | FS4U _ | FS6U _ | FSV4U _ => false
  | IPV4UP v => some v | IPV4MP v => some v | IPV4LU v => some v | IPV4LUP v => some v | IPV4MDT v => some v | IPV4MDTP v => some v
  | VPNV4U v => some v | VPNV4UP v => some v | VPNV4M v => some v | VPNV4MP v => some v
  | IPV6UP v => some v | IPV6MP v => some v | IPV6LU v => some v | IPV6LUP v => some v | IPV6MDT v => some v | IPV6MDTP v => some v
  | VPNV6U v => some v | VPNV6UP v => some v | VPNV6M v => some v | VPNV6MP v => some v
  end.
(** some route list in an attribute is such *)
Fixpoint attr_lists (p : addrs -> bool) (a : attr) : bool :=
  match a with
  | AMPUpdates _ a | AMPWithdraws a => p a
  | AAttrSet _ v => existsb (attr_lists p) v
  | _ => false
  end.

(** ** A format with numbers for fields and variants *)
Fixpoint num_doc (s : sval) : doc :=
  match s with
  | VBool b => DBool b
  | VNum n => DNum n
  | VStr s => DStr s
  | VNone => DNone
  | VSome v => DSome (num_doc v)
  | VSeq l => DSeq (map num_doc l)
  | VTuple l => DSeq (map num_doc l)
  | VStruct fs => DMap (combine (map KIndex (seq 0 (length fs))) (map (fun f => match f with (_, v) => num_doc v end) fs))
  | VVariant i _ p => DEnum (KIndex i) (match p with None => None | Some v => Some (num_doc v) end)
  end.
(** JSON and the like: names, in order *)
Fixpoint name_doc (s : sval) : doc :=
  match s with
  | VBool b => DBool b
  | VNum n => DNum n
  | VStr s => DStr s
  | VNone => DNone
  | VSome v => DSome (name_doc v)
  | VSeq l => DSeq (map name_doc l)
  | VTuple l => DSeq (map name_doc l)
  | VStruct fs => DMap (map (fun f => match f with (nm, v) => (KName nm, name_doc v) end) fs)
  | VVariant _ nm p => DEnum (KName nm) (match p with None => None | Some v => Some (name_doc v) end)
  end.

(** how deep a document is *)
Fixpoint doc_deep (d : doc) : nat :=
  match d with
  | DBool _ | DNum _ | DStr _ | DNone => 1
  | DSome d => S (doc_deep d)
  | DSeq l => S (fold_right (fun d n => Nat.max (doc_deep d) n) O l)
  | DMap l => S (fold_right (fun e n => Nat.max (match e with (_, d) => doc_deep d end) n) O l)
  | DEnum _ p => S (match p with None => O | Some d => doc_deep d end)
  end.
