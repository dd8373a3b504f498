(** What the payload of a path attribute means (C92), and how long the RFCs want it to be (C93). *)
From Verif Require Import Base M_Util S_Wire M_Nlri S_Nlri M_Vpls M_Mvpn S_Mvpn M_Cap M_Open M_Session M_Addrs S_Addrs M_Attr S_Attr.

(** the attributes meant: all but MP_REACH_NLRI, MP_UNREACH_NLRI, PMSI tunnels and attribute sets *)
Definition plain_codes : list N := [1; 2; 3; 4; 5; 6; 7; 8; 9; 10; 16; 20; 32].
Definition ip_width (m : tmode) : nat := match m with ModeV4 => 4%nat | ModeV6 => 16%nat end.
(** [s] has the elements of [v], in ascending order *)
Definition set_from {A} (cmp : A -> A -> comparison) (v s : list A) : Prop := ascending cmp s /\ forall x, In x s <-> In x v.

(** the payload [b] of an attribute of type [tc] means [a] *)
Definition payload (p : params) (tc : N) (b : list N) (a : attr) : Prop :=
  match tc with
  | 1 => exists c r, b = c :: r /\ (c = 0 /\ a = AOrigin Igp \/ c = 1 /\ a = AOrigin Egp \/ c = 2 /\ a = AOrigin Incomplete)
  (* any octets that do not fill an AS number come first *)
  | 2 => exists h v, b = h ++ flat_map (be_bytes (as_octets p)) v /\ (length h < as_octets p)%nat /\
           Forall (fun x => x < 256 ^ N.of_nat (as_octets p)) v /\ a = AASPath v
  | 3 => exists x r, b = ip_bytes x ++ r /\ of_mode (sp_mode p) x /\ a = ANextHop x
  | 4 => exists v r, b = be_bytes 4 v ++ r /\ v < 2 ^ 32 /\ a = AMED v
  | 5 => exists v r, b = be_bytes 4 v ++ r /\ v < 2 ^ 32 /\ a = ALocalPref v
  | 6 => b = [] /\ a = AAtomicAggregate (IPv4 0) \/ exists x, b = ip_bytes x /\ ip_wf x /\ a = AAtomicAggregate x
  | 7 => exists asn ad, ad < 2 ^ 32 /\ a = AAggregatorAS asn ad /\
           (asn < 2 ^ 32 /\ b = be_bytes 4 asn ++ be_bytes 4 ad \/ asn < 2 ^ 16 /\ b = be_bytes 2 asn ++ be_bytes 4 ad)
  | 8 => exists v s, b = flat_map (be_bytes 4) v /\ Forall (fun x => x < 2 ^ 32) v /\ set_from N.compare v s /\ a = ACommunityList s
  | 9 => exists x r, b = ip_bytes x ++ r /\ ip_wf x /\ a = AOriginatorID x /\
           match x with IPv4 _ => sp_mode p = ModeV6 -> (length b < 16)%nat | IPv6 _ => sp_mode p = ModeV6 end
  | 10 => exists v r, b = flat_map ip_bytes v ++ r /\ Forall (of_mode (sp_mode p)) v /\ (length r < ip_width (sp_mode p))%nat /\ a = AClusterList v
  | 16 => exists v s r, b = flat_map ecomm_wire v ++ r /\ Forall ecomm_wf v /\ (length r < 8)%nat /\ set_from ecomm_cmp v s /\ a = AExtCommunityList s
  | 20 => exists asn x y r, b = be_bytes 2 1 ++ be_bytes 4 asn ++ be_bytes 4 x ++ be_bytes 4 y ++ r /\
            asn < 2 ^ 32 /\ x < 2 ^ 32 /\ y < 2 ^ 32 /\ a = AConnector asn x y
  | 32 => exists v s, b = flat_map lcomm_wire v /\ Forall lcomm_wf v /\ set_from lcomm_cmp v s /\ a = ALargeCommunityList s
  | _ => False
  end.

(** lengths of payloads that are accepted *)
Definition length_taken (p : params) (tc : N) (n : nat) : Prop :=
  match tc with
  | 1 => (1 <= n)%nat
  | 3 => (ip_width (sp_mode p) <= n)%nat
  | 4 | 5 | 9 => (4 <= n)%nat
  | 6 => n = 0%nat \/ n = 4%nat \/ n = 16%nat
  | 7 => n = 6%nat \/ n = 8%nat
  | 8 => Nat.modulo n 4 = 0%nat
  | 20 => (14 <= n)%nat
  | 32 => Nat.modulo n 12 = 0%nat
  | _ => True
  end.
(** lengths the RFCs allow: RFC 4271 (ORIGIN to AGGREGATOR) with RFC 6793 (AGGREGATOR), RFC 1997, RFC 4456 (ORIGINATOR_ID,
    CLUSTER_LIST), RFC 4360, RFC 6037 (CONNECTOR), RFC 8092. IPv6 sessions: 16-octet addresses, as this library sends them. *)
Definition length_rfc (p : params) (tc : N) (n : nat) : Prop :=
  match tc with
  | 1 => n = 1%nat
  | 3 | 9 => n = ip_width (sp_mode p)
  | 4 | 5 => n = 4%nat
  | 6 => n = 0%nat
  | 7 => n = (4 + as_octets p)%nat
  | 8 => Nat.modulo n 4 = 0%nat
  | 10 => Nat.modulo n (ip_width (sp_mode p)) = 0%nat
  | 16 => Nat.modulo n 8 = 0%nat
  | 20 => n = 14%nat
  | 32 => Nat.modulo n 12 = 0%nat
  | _ => True
  end.
