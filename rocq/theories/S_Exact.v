(** What octets mean: the NLRI of every family (C94), every path attribute (C95), UPDATE (C96).
    Readings are relations on octets; no decoder is mentioned. *)
From Verif Require Import Base M_Util S_Wire M_Prefix S_Prefix M_Nlri S_Nlri M_Vpls M_Cap M_Open M_Session M_Mvpn S_Mvpn M_Evpn S_Evpn M_Flowspec S_Flowspec M_Addrs S_Addrs
  M_Attr S_Attr S_Attr3 M_Update.

(** ** Parts of routes *)
(** [used] of [bits] bits are gone: [left] remain. Builds without overflow checks ([oc] = false) count modulo 256. *)
Definition less (oc : bool) (bits used left : N) : Prop := left < 256 /\ (left + used) mod 256 = bits /\ (oc = true -> used <= bits).
(** the labels [ls] stand at the front of [b], of which [bits] bits are announced *)
Inductive stack_of (oc : bool) : N -> list N -> list N -> Prop :=
| st_end b : stack_of oc 0 b []
| st_last bits left b0 b1 b2 r : 0 < bits -> less oc bits 24 left -> entry_ends b0 b1 b2 ->
    stack_of oc bits (b0 :: b1 :: b2 :: r) [be_val [b0; b1; b2] / 16]
| st_more bits left b0 b1 b2 r ls : 0 < bits -> less oc bits 24 left -> ~ entry_ends b0 b1 b2 -> stack_of oc left r ls ->
    stack_of oc bits (b0 :: b1 :: b2 :: r) (be_val [b0; b1; b2] / 16 :: ls).

(** [m] octets at the front of [b], of which [bits] bits are announced, mean a value *)
Definition bit_reading (T : Type) := bool -> N -> list N -> T -> nat -> Prop.
Definition pfx4 : bit_reading addrV4 := fun _ bits b x m => bits <= 32 /\ m = prefix_octets bits /\ v4_len x = bits /\ v4_addr x < 2 ^ 32 /\
  exists s r, b = s ++ r /\ length s = m /\ be_bytes 4 (v4_addr x) = s ++ repeat 0 (4 - m).
Definition pfx6 : bit_reading addrV6 := fun _ bits b x m => bits <= 128 /\ m = prefix_octets bits /\ v6_len x = bits /\ v6_addr x < 2 ^ 128 /\
  exists s r, b = s ++ r /\ length s = m /\ be_bytes 16 (v6_addr x) = s ++ repeat 0 (16 - m).
Definition labelled {T} (P : bit_reading T) : bit_reading (labeled T) := fun oc bits b x m => exists left k,
  stack_of oc bits b (lab_labels x) /\ less oc bits (24 * N.of_nat (length (lab_labels x)) mod 256) left /\
  P oc left (skipn (3 * length (lab_labels x)) b) (lab_prefix x) k /\ m = (3 * length (lab_labels x) + k)%nat.
Definition distinguished {T} (P : bit_reading T) : bit_reading (withRd T) := fun oc bits b x m => exists left r k,
  b = rd_wire (wrd_rd x) ++ r /\ rd_wf (wrd_rd x) /\ less oc bits 64 left /\ P oc left r (wrd_prefix x) k /\ m = (8 + k)%nat.
Definition mdt4 : bit_reading mdtV4 := fun oc bits b x m => exists left k r,
  bits = 32 + left /\ pfx4 oc left b (mdt4_addr x) k /\ skipn k b = be_bytes 4 (mdt4_group x) ++ r /\ mdt4_group x < 2 ^ 32 /\ m = (k + 4)%nat.
Definition mdt6 : bit_reading mdtV6 := fun oc bits b x m => exists left k r,
  bits = 128 + left /\ bits <= 254 /\ pfx6 oc left b (mdt6_addr x) k /\ skipn k b = be_bytes 16 (mdt6_group x) ++ r /\ mdt6_group x < 2 ^ 128 /\ m = (k + 16)%nat.

(** ** Lists *)
(** the first [n] octets mean a value *)
Definition reading (T : Type) := list N -> T -> nat -> Prop.
(** a length octet first *)
Definition item {T} (oc : bool) (P : bit_reading T) : reading T := fun b x n => exists bits s m, b = bits :: s /\ P oc bits s x m /\ n = S m.
Inductive many {T} (P : reading T) : list N -> list T -> nat -> Prop :=
| many_nil : many P [] [] 0
| many_cons b x k v n : b <> [] -> P b x k -> many P (skipn k b) v n -> many P b (x :: v) (k + n).
(** path identifiers before each item; up to four octets at the end are left over *)
Inductive many_pid {T} (P : reading T) : list N -> list (withPathId T) -> nat -> Prop :=
| many_pid_nil b : (length b <= 4)%nat -> many_pid P b [] 0
| many_pid_cons b i s x k v n : b = be_bytes 4 i ++ s -> i < 2 ^ 32 -> s <> [] -> P s x k -> many_pid P (skipn k s) v n ->
    many_pid P b (mkPid i x :: v) (4 + k + n).

(** VPLS: two length octets *)
Definition vpls_reads (oc : bool) : reading addrL2 := fun b x n => exists d s r,
  b = be_bytes 2 (N.of_nat (length d)) ++ d ++ r /\ n = (length d + 2)%nat /\ (17 <= length d)%nat /\ N.of_nat (length d) < 2 ^ 16 /\
  d = rd_wire (l2a_rd x) ++ be_bytes 2 (l2a_site x) ++ be_bytes 2 (l2a_offset x) ++ be_bytes 2 (l2a_range x) ++ s /\
  rd_wf (l2a_rd x) /\ l2a_site x < 2 ^ 16 /\ l2a_offset x < 2 ^ 16 /\ l2a_range x < 2 ^ 16 /\
  stack_of oc (8 * N.of_nat (length s) mod 256) s (l2a_labels x).

(** MCAST-VPN: type, length, body; octets may follow inside the body, except in type 4 *)
Definition mv_body_reads (m : tmode) (body : list N) (r : mvpn) (n : nat) : Prop :=
  match r with
  | MvT4 r => mv3_wf m (mv4_spmsi r) /\ ip_wf (mv4_orig r) /\ body = [3; 22] ++ mv3_body (mv4_spmsi r) ++ ip_bytes (mv4_orig r) /\
      n = (length (mv3_body (mv4_spmsi r)) + 6)%nat
  | MvT5 _ => m = ModeV4 /\ mv_wf m r /\ (exists s, body = mv_body r ++ s) /\ n = length (mv_body r)
  | _ => mv_wf m r /\ (exists s, body = mv_body r ++ s) /\ n = length (mv_body r)
  end.
Definition mv_reads (m : tmode) : reading mvpn := fun b r n => exists body rest k,
  b = mv_code r :: N.of_nat (length body) :: body ++ rest /\ (length body < 256)%nat /\ mv_body_reads m body r k /\ n = (k + 2)%nat.

(** EVPN: the same; labels fill what remains of the body *)
Definition ev_labels (oc : bool) (s : list N) (ls : list N) : Prop := stack_of oc (8 * N.of_nat (length s) mod 256) s ls.
(** the optional address of a MAC route *)
Definition mac_ip (o : option ipaddr) : list N := match o with None => [0] | Some a => lip a end.
Definition ev_body_reads (oc : bool) (body : list N) (r : evpn) (n : nat) : Prop :=
  match r with
  | Ev1 r => exists s, body = rd_wire (ev1_rd r) ++ [ev1_esi_type r] ++ ev1_esi r ++ be_bytes 4 (ev1_tag r) ++ s /\
      rd_wf (ev1_rd r) /\ esi_wf (ev1_esi_type r) (ev1_esi r) /\ ev1_tag r < 2 ^ 32 /\ ev_labels oc s (ev1_labels r) /\
      n = (22 + 3 * length (ev1_labels r))%nat
  | Ev2 r => exists s, body = rd_wire (ev2_rd r) ++ [ev2_esi_type r] ++ ev2_esi r ++ be_bytes 4 (ev2_tag r) ++ [48] ++ rev (ev2_mac r) ++
        mac_ip (ev2_ip r) ++ s /\
      rd_wf (ev2_rd r) /\ esi_wf (ev2_esi_type r) (ev2_esi r) /\ ev2_tag r < 2 ^ 32 /\ mac_wf (ev2_mac r) /\
      match ev2_ip r with None => True | Some a => ip_wf a end /\ ev_labels oc s (ev2_labels r) /\
      n = (29 + length (mac_ip (ev2_ip r)) + 3 * length (ev2_labels r))%nat
  | Ev3 r => (exists s, body = rd_wire (ev3_rd r) ++ be_bytes 4 (ev3_tag r) ++ lip (ev3_ip r) ++ s) /\
      rd_wf (ev3_rd r) /\ ev3_tag r < 2 ^ 32 /\ ip_wf (ev3_ip r) /\ n = (12 + length (lip (ev3_ip r)))%nat
  | Ev4 r => (exists s, body = rd_wire (ev4_rd r) ++ [ev4_esi_type r] ++ ev4_esi r ++ lip (ev4_ip r) ++ s) /\
      rd_wf (ev4_rd r) /\ esi_wf (ev4_esi_type r) (ev4_esi r) /\ ip_wf (ev4_ip r) /\ n = (18 + length (lip (ev4_ip r)))%nat
  (* 34 octets, or 58 with twelve ignored after each address *)
  | Ev5 r => exists a g t u s,
      body = rd_wire (ev5_rd r) ++ [ev5_esi_type r] ++ ev5_esi r ++ be_bytes 4 (ev5_tag r) ++ [ev5_len r] ++ be_bytes 4 a ++ t ++ be_bytes 4 g ++ u ++ s /\
      (t = [] /\ u = [] \/ length t = 12%nat /\ length u = 12%nat) /\ length s = 3%nat /\
      rd_wf (ev5_rd r) /\ esi_wf (ev5_esi_type r) (ev5_esi r) /\ ev5_tag r < 2 ^ 32 /\ ev5_len r < 256 /\
      a < 2 ^ 32 /\ g < 2 ^ 32 /\ ev5_prefix r = IPv4 a /\ ev5_gw r = IPv4 g /\ ev_labels oc s (ev5_labels r) /\
      n = (length body - 3 + 3 * length (ev5_labels r))%nat
  end.
Definition ev_reads (oc : bool) : reading evpn := fun b r n => exists body rest k,
  b = ev_code r :: N.of_nat (length body) :: body ++ rest /\ (length body < 256)%nat /\ ev_body_reads oc body r k /\ n = (k + 2)%nat.

(** FlowSpec. An operator octet: and, less, greater, equal (or: not, match), and the number of value octets. *)
Definition oper_octets (o : N) (k : nat) : Prop := ((o / 16) mod 4 = 0 /\ k = 1%nat) \/ ((o / 16) mod 4 = 1 /\ k = 2%nat) \/ ((o / 16) mod 4 = 2 /\ k = 4%nat).
Definition val_reads : reading fsval := fun b x n => exists o k r, b = o :: be_bytes k (fv_value x) ++ r /\ oper_octets o k /\
  fv_value x < 256 ^ N.of_nat k /\ fv_and x = N.testbit o 6 /\ fv_lt x = N.testbit o 2 /\ fv_gt x = N.testbit o 1 /\ fv_eq x = N.testbit o 0 /\ n = S k.
Definition mask_reads : reading fsmask := fun b x n => exists o k r, b = o :: be_bytes k (fm_value x) ++ r /\ oper_octets o k /\
  fm_value x < 256 ^ N.of_nat k /\ fm_and x = N.testbit o 6 /\ fm_not x = N.testbit o 1 /\ fm_match x = N.testbit o 0 /\ n = S k.
Definition fs6_reads (oc : bool) : reading fs6 := fun b x n => exists bits s m, b = bits :: fs6_offset x :: s /\ pfx6 oc bits s (fs6_ip x) m /\ n = S (S m).
(** the length of a rule, and the rule *)
Definition rule_reads (b rule : list N) (h : nat) : Prop := exists rest,
  (h = 1%nat /\ N.of_nat (length rule) < 240 /\ b = N.of_nat (length rule) :: rule ++ rest) \/
  (h = 2%nat /\ exists hi lo, 240 <= hi < 256 /\ lo < 256 /\ N.of_nat (length rule) = (hi - 240) * 256 + lo /\ b = hi :: lo :: rule ++ rest).
(** a rule has one component; after a prefix the position is one octet too far *)
Definition fs_reads {T} (P : reading T) : reading (flowspec T) := fun b r n => exists h body k,
  rule_reads b (fs_code r :: body) h /\
  match r with
  | FsDst a | FsSrc a => P body a k /\ n = (h + 2 + k)%nat
  | FsTcpFlags v | FsFragment v => many mask_reads body v k /\ n = (h + 1 + k)%nat
  | FsProto v | FsPortAny v | FsPortDst v | FsPortSrc v | FsIcmpType v | FsIcmpCode v | FsPacketLength v | FsDscp v | FsFlowLabel v =>
      many val_reads body v k /\ n = (h + 1 + k)%nat
  end.

(** ** Lists of one address family *)
(** path identifiers are expected: negotiated, or guessed from two zero octets *)
Definition asks_pid (p : params) (afi sf : N) (b : list N) : Prop :=
  check_addpath_receive p afi sf = true \/ sp_fuzzy p = true /\ (5 <= length b)%nat /\ exists r, b = 0 :: 0 :: r.
Definition family {T} (oc : bool) (P : bit_reading T) (plain : list T -> addrs) (withid : list (withPathId T) -> addrs)
  (p : params) (afi sf : N) (b : list N) (a : addrs) (n : nat) : Prop :=
  asks_pid p afi sf b /\ (exists v, many_pid (item oc P) b v n /\ a = withid v) \/
  ~ asks_pid p afi sf b /\ (exists v, many (item oc P) b v n /\ a = plain v).
Definition nlri_reads (oc : bool) (p : params) (afi sf : N) (b : list N) (a : addrs) (n : nat) : Prop :=
  match afi, sf with
  | 1, 1 => family oc pfx4 IPV4U IPV4UP p 1 1 b a n
  | 1, 2 => family oc pfx4 IPV4M IPV4MP p 1 2 b a n
  | 1, 4 => family oc (labelled pfx4) IPV4LU IPV4LUP p 1 4 b a n
  | 1, 5 => exists v, many (mv_reads ModeV4) b v n /\ a = MVPN v
  | 1, 66 => family oc (distinguished mdt4) IPV4MDT IPV4MDTP p 1 66 b a n
  | 1, 128 => family oc (labelled (distinguished pfx4)) VPNV4U VPNV4UP p 1 128 b a n
  | 1, 129 => family oc (labelled (distinguished pfx4)) VPNV4M VPNV4MP p 1 129 b a n
  | 1, 133 => exists v, many (fs_reads (item oc pfx4)) b v n /\ a = FS4U v
  | 1, 134 => exists v, many (fs_reads (item oc (distinguished pfx4))) b v n /\ a = FSV4U v
  | 2, 1 => family oc pfx6 IPV6U IPV6UP p 2 1 b a n
  | 2, 2 => family oc pfx6 IPV6M IPV6MP p 2 2 b a n
  | 2, 4 => family oc (labelled pfx6) IPV6LU IPV6LUP p 2 4 b a n
  | 2, 66 => family oc (distinguished mdt6) IPV6MDT IPV6MDTP p 2 66 b a n
  | 2, 128 => family oc (labelled (distinguished pfx6)) VPNV6U VPNV6UP p 2 128 b a n
  | 2, 129 => family oc (labelled (distinguished pfx6)) VPNV6M VPNV6MP p 2 129 b a n
  | 2, 133 => exists v, many (fs_reads (fs6_reads oc)) b v n /\ a = FS6U v
  | 25, 65 => exists v, many (vpls_reads oc) b v n /\ a = L2VPLS v
  | 25, 70 => exists v, many (ev_reads oc) b v n /\ a = EVPN v
  | _, _ => False
  end.
