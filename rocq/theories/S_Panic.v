(** Which octets make decoding stop the program (a panic): the NLRI of every family (C102), every path
    attribute and UPDATE (C103). No decoder is mentioned; what is read before is as in S_Exact and S_Exact2. *)
From Verif Require Import Base M_Util S_Wire M_Prefix S_Prefix M_Nlri S_Nlri M_Vpls M_Cap M_Open M_Session M_Mvpn S_Mvpn M_Evpn S_Evpn M_Flowspec S_Flowspec M_Addrs S_Addrs
  M_Attr S_Attr S_Attr2 S_Attr3 M_Update S_Exact S_Exact2.

(** ** Parts of routes; [oc]: the build checks arithmetic *)
Definition bit_crash := bool -> N -> list N -> Prop.
(** a prefix: rounding the length up to octets overflows an octet *)
Definition pfx_crash : bit_crash := fun oc bits _ => oc = true /\ 249 <= bits.
(** labels: octets are missing, or fewer bits are announced than a label has *)
Inductive stack_crash (oc : bool) : N -> list N -> Prop :=
| sc_short bits b : 0 < bits -> (length b < 3)%nat -> stack_crash oc bits b
| sc_bits bits b : 0 < bits < 24 -> oc = true -> stack_crash oc bits b
| sc_more bits left b0 b1 b2 r : 0 < bits -> less oc bits 24 left -> ~ entry_ends b0 b1 b2 -> stack_crash oc left r ->
    stack_crash oc bits (b0 :: b1 :: b2 :: r).
Definition labelled_crash (C : bit_crash) : bit_crash := fun oc bits b => stack_crash oc bits b \/
  exists ls left, stack_of oc bits b ls /\ less oc bits (24 * N.of_nat (length ls) mod 256) left /\ C oc left (skipn (3 * length ls) b).
Definition distinguished_crash (C : bit_crash) : bit_crash := fun oc bits b => (8 <= length b)%nat /\
  (oc = true /\ bits < 64 \/ exists left, less oc bits 64 left /\ C oc left (skipn 8 b)).
(** the source address is longer than an address, or octets are missing *)
Definition mdt4_crash : bit_crash := fun _ bits b => 32 < bits <= 128 /\ (64 < bits \/ (length b < prefix_octets (bits - 32))%nat).
Definition mdt6_crash : bit_crash := fun _ bits b => 128 < bits <= 254 /\ (length b < prefix_octets (bits - 128))%nat.

(** ** Lists: what comes first is read, then something panics *)
Definition item_crash (oc : bool) (C : bit_crash) (b : list N) : Prop := exists bits s, b = bits :: s /\ C oc bits s.
Inductive many_crash {T} (P : reading T) (C : list N -> Prop) : list N -> Prop :=
| mc_here b : b <> [] -> C b -> many_crash P C b
| mc_next b x k : b <> [] -> P b x k -> many_crash P C (skipn k b) -> many_crash P C b.
Inductive many_pid_crash {T} (P : reading T) (C : list N -> Prop) : list N -> Prop :=
| mpc_here i s : length i = 4%nat -> s <> [] -> C s -> many_pid_crash P C (i ++ s)
| mpc_next i s x k : length i = 4%nat -> s <> [] -> P s x k -> many_pid_crash P C (skipn k s) -> many_pid_crash P C (i ++ s).

(** the labels that fill [s] *)
Definition labels_crash (oc : bool) (s : list N) : Prop := stack_crash oc (8 * N.of_nat (length s) mod 256) s.
(** VPLS: incomplete, or its labels *)
Definition vpls_crash (oc : bool) (b : list N) : Prop :=
  (length b < 2)%nat \/ exists l r, b = be_bytes 2 l ++ r /\ l < 2 ^ 16 /\
    ((length r < N.to_nat l)%nat \/ 17 <= l /\ labels_crash oc (skipn 14 (firstn (N.to_nat l) r))).
(** MCAST-VPN: incomplete, or a type 4 without its inner header *)
Definition mv_crash (b : list N) : Prop :=
  (length b < 2)%nat \/ exists t l r, b = t :: l :: r /\ 1 <= t <= 7 /\
    ((length r < N.to_nat l)%nat \/ t = 4 /\ (l = 0 \/ l = 1 /\ exists r', r = 3 :: r')).
(** EVPN: the fixed fields of the type are incomplete though its route distinguisher is there, or the labels *)
Definition ev_body_crash (oc : bool) (t : N) (body : list N) : Prop := (8 <= length body)%nat /\
  match t with
  | 1 => (length body < 22)%nat \/ labels_crash oc (skipn 22 body)
  | 2 => (length body < 23)%nat \/ nth 22 body 0 = 48 /\ ((length body < 30)%nat \/
      exists k, In (nth 29 body 0, k) [(0, 30%nat); (32, 34%nat); (128, 46%nat)] /\ (k <= length body)%nat /\ labels_crash oc (skipn k body))
  | 3 => (length body < 13)%nat
  | 4 => (length body < 19)%nat
  | 5 => (length body < 23)%nat
  | _ => False
  end.
Definition ev_crash (oc : bool) (b : list N) : Prop :=
  (length b < 2)%nat \/ exists t l r, b = t :: l :: r /\ (N.to_nat l <= length r)%nat /\ ev_body_crash oc t (firstn (N.to_nat l) r).
(** FlowSpec: the octets of a value are missing *)
Definition oper_crash (b : list N) : Prop := exists o k r, b = o :: r /\ oper_octets o k /\ (length r < k)%nat.
(** the length of a rule, in [h] octets, and what follows *)
Definition rule_head (b : list N) (n : N) (h : nat) (r : list N) : Prop :=
  h = 1%nat /\ n < 240 /\ b = n :: r \/
  h = 2%nat /\ exists hi lo, 240 <= hi < 256 /\ lo < 256 /\ n = (hi - 240) * 256 + lo /\ b = hi :: lo :: r.
Definition fs_crash (C : list N -> Prop) (b : list N) : Prop :=
  (exists hi, 240 <= hi /\ b = [hi]) \/ exists n h r, rule_head b n h r /\
    (r = [] \/ exists c s, r = c :: s /\ 1 <= c <= 13 /\
      (n = 0 \/ (length r < N.to_nat n)%nat \/
       0 < n /\ (N.to_nat n <= length r)%nat /\
       (if c <=? 2 then C (firstn (N.to_nat n - 1) s)
        else if (c =? 9) || (c =? 12) then many_crash mask_reads oper_crash (firstn (N.to_nat n - 1) s)
        else many_crash val_reads oper_crash (firstn (N.to_nat n - 1) s)))).
(** the prefix component *)
Definition fs4_crash (oc : bool) (b : list N) : Prop := b = [] \/ item_crash oc pfx_crash b.
Definition fs6_crash (oc : bool) (b : list N) : Prop := (length b < 2)%nat \/ exists bits o s, b = bits :: o :: s /\ pfx_crash oc bits s.
Definition fsv4_crash (oc : bool) (b : list N) : Prop := b = [] \/ item_crash oc (distinguished_crash pfx_crash) b.

(** ** Lists of one address family *)
Definition family_crash {T} (oc : bool) (P : bit_reading T) (C : bit_crash) (p : params) (afi sf : N) (b : list N) : Prop :=
  asks_pid p afi sf b /\ many_pid_crash (item oc P) (item_crash oc C) b \/
  ~ asks_pid p afi sf b /\ many_crash (item oc P) (item_crash oc C) b.
Definition nlri_crash (oc : bool) (p : params) (afi sf : N) (b : list N) : Prop :=
  match afi, sf with
  | 1, 1 | 1, 2 => family_crash oc pfx4 pfx_crash p afi sf b
  | 1, 4 => family_crash oc (labelled pfx4) (labelled_crash pfx_crash) p afi sf b
  | 1, 5 => many_crash (mv_reads ModeV4) mv_crash b
  | 1, 66 => family_crash oc (distinguished mdt4) (distinguished_crash mdt4_crash) p afi sf b
  | 1, 128 | 1, 129 => family_crash oc (labelled (distinguished pfx4)) (labelled_crash (distinguished_crash pfx_crash)) p afi sf b
  | 1, 133 => many_crash (fs_reads (item oc pfx4)) (fs_crash (fs4_crash oc)) b
  | 1, 134 => many_crash (fs_reads (item oc (distinguished pfx4))) (fs_crash (fsv4_crash oc)) b
  | 2, 1 | 2, 2 => family_crash oc pfx6 pfx_crash p afi sf b
  | 2, 4 => family_crash oc (labelled pfx6) (labelled_crash pfx_crash) p afi sf b
  | 2, 66 => family_crash oc (distinguished mdt6) (distinguished_crash mdt6_crash) p afi sf b
  | 2, 128 | 2, 129 => family_crash oc (labelled (distinguished pfx6)) (labelled_crash (distinguished_crash pfx_crash)) p afi sf b
  | 2, 133 => many_crash (fs_reads (fs6_reads oc)) (fs_crash (fs6_crash oc)) b
  | 25, 65 => many_crash (vpls_reads oc) (vpls_crash oc) b
  | 25, 70 => many_crash (ev_reads oc) (ev_crash oc) b
  | _, _ => False
  end.

(** ** Multiprotocol attributes *)
(** the families whose next hop has no route distinguisher *)
Definition bare_hop (afi sf : N) : Prop := afi = 1 /\ In sf [1; 2; 4; 5; 66; 133] \/ afi = 2 /\ In sf [1; 2; 4; 66].
(** of [k] blocks with a length octet each, one is cut *)
Inductive snpas_cut : nat -> list N -> Prop :=
| cut_none k : snpas_cut (S k) []
| cut_short k l s : (length s < N.to_nat l)%nat -> snpas_cut (S k) (l :: s)
| cut_next k d s : (length d < 256)%nat -> snpas_cut k s -> snpas_cut (S k) (N.of_nat (length d) :: d ++ s).
(** the header is cut; or the announced next hop is longer than what there is; or after the next hop the SNPA
    count is missing, an SNPA is cut, or the routes panic *)
Definition reach_crash (oc : bool) (p : params) (b : list N) : Prop :=
  (length b < 4)%nat \/ exists afi sf nhlen s, b = be_bytes 2 afi ++ [sf; nhlen] ++ s /\ afi < 2 ^ 16 /\
    (bare_hop afi sf /\ (length s < N.to_nat nhlen)%nat \/
     exists nh k, hop_reads afi sf nhlen s nh k /\
       ((length s <= k)%nat \/ exists c t, skipn k s = c :: t /\
         (snpas_cut (N.to_nat c) t \/ exists rest, snpas (N.to_nat c) t rest /\ nlri_crash oc p afi sf rest))).
Definition unreach_crash (oc : bool) (p : params) (b : list N) : Prop :=
  (length b < 3)%nat \/ exists afi sf s, b = be_bytes 2 afi ++ [sf] ++ s /\ afi < 2 ^ 16 /\ nlri_crash oc p afi sf s.

(** ** Every attribute *)
(** attributes are read, then one panics or what is left panics *)
Inductive area_crash (R : N -> N -> nat -> list N -> attr -> Prop) (C : N -> nat -> list N -> Prop) (cut : list N -> Prop) : list N -> Prop :=
| ac_cut s : cut s -> area_crash R C cut s
| ac_here f tc d s : N.of_nat (length d) <= len_max f -> C tc (length d) d -> area_crash R C cut (frame f tc d ++ s)
| ac_next f tc d s a : N.of_nat (length d) <= len_max f -> R tc f (length d) d a -> area_crash R C cut s -> area_crash R C cut (frame f tc d ++ s).
(** the payload [b] of an attribute of type [tc], announced as [n] octets *)
Inductive attr_crash (oc : bool) (p : params) : N -> nat -> list N -> Prop :=
| acr_communities n b : Nat.modulo (length b) 4 <> 0%nat -> attr_crash oc p 8 n b
| acr_originator n b : (length b < 4)%nat -> attr_crash oc p 9 n b
| acr_reach n b : reach_crash oc p b -> attr_crash oc p 14 n b
| acr_unreach n b : unreach_crash oc p b -> attr_crash oc p 15 n b
| acr_pmsi n b : pmsi_panics b -> attr_crash oc p 22 n b
| acr_large n b : Nat.modulo (length b) 12 <> 0%nat -> attr_crash oc p 32 n b
| acr_set n asn s : sp_as32 p = true -> asn < 2 ^ 32 -> area_crash (attr_reads oc p) (attr_crash oc p) cut_header s -> attr_crash oc p 128 n (be_bytes 4 asn ++ s)
| acr_unknown tc n b : ~ In tc typed_codes -> (length b < n)%nat -> attr_crash oc p tc n b.

(** ** UPDATE *)
(** the message, not only the attributes, ends within an attribute's header: after the flags, or after the type
    when the length is of one octet *)
Definition message_cut (nl s : list N) : Prop := s <> [] /\
  ((exists f, s ++ nl = [f]) \/ exists f tc, s ++ nl = [f; tc] /\ fl_extended f = false).
Definition plain_crash (oc : bool) (p : params) (b : list N) : Prop :=
  match sp_mode p with
  | ModeV4 => nlri_crash oc p 1 1 b
  | ModeV6 => nlri_crash oc p 2 1 b
  end.
(** the withdrawn routes panic; or they are read and the attributes panic; or these are read and the routes panic *)
Definition update_crash (oc : bool) (p : params) (b : list N) : Prop := exists w r,
  b = be_bytes 2 (N.of_nat (length w)) ++ w ++ r /\ N.of_nat (length w) < 2 ^ 16 /\ r <> [] /\
  (plain_crash oc p w \/
   exists wd s nl, plain_nlri oc p w wd /\ r = be_bytes 2 (N.of_nat (length s)) ++ s ++ nl /\ N.of_nat (length s) < 2 ^ 16 /\
     (area_crash (attr_reads oc p) (attr_crash oc p) (message_cut nl) s \/
      exists v, area_of (attr_reads oc p) s v /\ plain_crash oc p nl)).
