(** What octets mean: every path attribute (C95), UPDATE (C96). No decoder is mentioned. *)
From Verif Require Import Base M_Util S_Wire M_Prefix S_Prefix M_Nlri S_Nlri M_Vpls M_Cap M_Open M_Session M_Mvpn S_Mvpn M_Evpn S_Evpn M_Flowspec S_Flowspec M_Addrs S_Addrs
  M_Attr S_Attr S_Attr3 M_Update S_Exact.

(** ** Multiprotocol attributes *)
(** the next hop at the front of [b], announced as [nhlen] octets, of which [k] are passed over.
    With a route distinguisher the announced length is not looked at. *)
Inductive hop_reads (afi sf nhlen : N) (b : list N) : bgpaddr -> nat -> Prop :=
| hop_v4 a h r : afi = 1 -> In sf [1; 2; 4; 5; 66; 133] -> b = be_bytes 4 a ++ h ++ r -> a < 2 ^ 32 ->
    N.of_nat (4 + length h) = nhlen -> hop_reads afi sf nhlen b (BAV4 a) (4 + length h)
| hop_rd4 rd a r : afi = 1 -> In sf [128; 129; 134] -> b = rd_wire rd ++ be_bytes 4 a ++ r -> rd_wf rd -> a < 2 ^ 32 ->
    hop_reads afi sf nhlen b (BAV4RD rd a) 12
| hop_v6 a h r : afi = 2 -> In sf [1; 2; 4; 66] -> b = be_bytes 16 a ++ h ++ r -> a < 2 ^ 128 ->
    N.of_nat (16 + length h) = nhlen -> hop_reads afi sf nhlen b (BAV6 a) (16 + length h)
| hop_rd6 rd a r : afi = 2 -> In sf [128; 129] -> b = rd_wire rd ++ be_bytes 16 a ++ r -> rd_wf rd -> a < 2 ^ 128 ->
    hop_reads afi sf nhlen b (BAV6RD rd a) 24
| hop_l2 a r : afi = 25 -> In sf [65; 70] -> b = be_bytes 4 a ++ r -> a < 2 ^ 32 ->
    hop_reads afi sf nhlen b (BAV4 a) (N.to_nat nhlen).
(** [k] blocks with a length octet each stand before [rest] *)
Inductive snpas : nat -> list N -> list N -> Prop :=
| snpas_0 b : snpas 0 b b
| snpas_S k d s rest : (length d < 256)%nat -> snpas k s rest -> snpas (S k) (N.of_nat (length d) :: d ++ s) rest.
Definition reach_reads (oc : bool) (p : params) (b : list N) (nh : bgpaddr) (a : addrs) : Prop := exists afi sf nhlen h c s rest n,
  b = be_bytes 2 afi ++ [sf; nhlen] ++ h ++ [c] ++ s /\ afi < 2 ^ 16 /\ hop_reads afi sf nhlen (h ++ [c] ++ s) nh (length h) /\
  snpas (N.to_nat c) s rest /\ nlri_reads oc p afi sf rest a n.
Definition unreach_reads (oc : bool) (p : params) (b : list N) (a : addrs) : Prop := exists afi sf s n,
  b = be_bytes 2 afi ++ [sf] ++ s /\ afi < 2 ^ 16 /\ nlri_reads oc p afi sf s a n.

(** ** PMSI tunnel *)
Definition tunnel_reads (t : N) (b : list N) (x : pmsi_tun) : Prop :=
  match x with
  | PtNone => t = 0
  | PtRSVP e z i q => t = 1 /\ e < 2 ^ 32 /\ z < 2 ^ 16 /\ i < 2 ^ 16 /\ q < 2 ^ 32 /\
      exists r, b = be_bytes 4 e ++ be_bytes 2 z ++ be_bytes 2 i ++ be_bytes 4 q ++ r
  (* LDP P2MP with an IPv4 root; the opaque value may be empty only if something follows *)
  | PtMLDP root o => t = 2 /\ exists a r, root = IPv4 a /\ a < 2 ^ 32 /\ N.of_nat (length o) < 2 ^ 16 /\ o ++ r <> [] /\
      b = [6] ++ be_bytes 2 1 ++ [4] ++ be_bytes 4 a ++ be_bytes 2 (N.of_nat (length o)) ++ o ++ r
  | PtIngress e => t = 6 /\ e < 2 ^ 32 /\ exists r, b = be_bytes 4 e ++ r
  end.
Definition pmsi_reads (b : list N) (x : pmsi) : Prop := exists l0 l1 l2 r,
  b = [pm_flags x; pm_type x] ++ [l0; l1; l2] ++ r /\ pm_label x = [be_val [l0; l1; l2] / 16] /\ tunnel_reads (pm_type x) r (pm_tun x).

(** ** Every attribute *)
(** attributes one after another: flags, type, one or two octets of length, payload *)
Inductive area_of (R : N -> N -> nat -> list N -> attr -> Prop) : list N -> list attr -> Prop :=
| area_end : area_of R [] []
| area_more f tc d s a v : N.of_nat (length d) <= len_max f -> R tc f (length d) d a -> area_of R s v -> area_of R (frame f tc d ++ s) (a :: v).
Definition typed_codes : list N := plain_codes ++ [14; 15; 22; 128].
(** the payload [b] of an attribute of type [tc] with flags [f], announced as [n] octets, means a value *)
Inductive attr_reads (oc : bool) (p : params) : N -> N -> nat -> list N -> attr -> Prop :=
| ar_plain tc f n b a : In tc plain_codes -> payload p tc b a -> attr_reads oc p tc f n b a
| ar_reach f n b nh a : reach_reads oc p b nh a -> attr_reads oc p 14 f n b (AMPUpdates nh a)
| ar_unreach f n b a : unreach_reads oc p b a -> attr_reads oc p 15 f n b (AMPWithdraws a)
| ar_pmsi f n b x : pmsi_reads b x -> attr_reads oc p 22 f n b (APMSITunnel x)
| ar_set f n asn s v : sp_as32 p = true -> asn < 2 ^ 32 -> area_of (attr_reads oc p) s v -> attr_reads oc p 128 f n (be_bytes 4 asn ++ s) (AAttrSet asn v)
| ar_unknown tc f n v r : ~ In tc typed_codes -> length v = n -> attr_reads oc p tc f n (v ++ r) (AUnknown tc f v).

(** ** UPDATE *)
Definition plain_nlri (oc : bool) (p : params) (b : list N) (a : addrs) : Prop := exists n,
  match sp_mode p with
  | ModeV4 => nlri_reads oc p 1 1 b a n
  | ModeV6 => nlri_reads oc p 2 1 b a n
  end.
Definition update_reads (oc : bool) (p : params) (b : list N) (wd : addrs) (v : list attr) (up : addrs) : Prop := exists w s nl,
  b = be_bytes 2 (N.of_nat (length w)) ++ w ++ be_bytes 2 (N.of_nat (length s)) ++ s ++ nl /\
  N.of_nat (length w) < 2 ^ 16 /\ N.of_nat (length s) < 2 ^ 16 /\ plain_nlri oc p w wd /\ area_of (attr_reads oc p) s v /\ plain_nlri oc p nl up.
