(** C137: flow specification rules of several components. *)
From Verif Require Import Base M_Util S_Wire M_Prefix S_Prefix M_Nlri S_Nlri M_Vpls M_Flowspec S_Flowspec F_Flowspec M_Cap M_Open M_Session M_Addrs M_Attr M_Update
  S_FsRule F_FsRule.

(** A rule of one component, other than a prefix, is read as that component, whatever follows it. *)
Theorem C137_alone_partial : forall T (it : fsitem T) wf W c post, fs_wf wf c -> ~ is_pfx c ->
  (length (components W [c]) <= 4095)%nat ->
  fs_decode it (rule_wire W [c] ++ post) = Ok (c, length (rule_wire W [c])).
Proof. exact @oper_alone. Qed.
Print Assumptions C137_alone_partial.

(** Of a rule that begins with a prefix only the prefix is reported, always: the other conditions are dropped. The
    octets counted end one behind the prefix, so the next rule is read from within this one. *)
Theorem C137_prefix4_refuted : forall oc c cs post, fs_wf v4_wf c -> is_pfx c -> cs <> [] ->
  (length (components fs4_wire (c :: cs)) <= 4095)%nat ->
  fs_decode (fs4 oc) (rule_wire fs4_wire (c :: cs) ++ post) =
  Ok (fs_map v4_trunc c, S (length (fs_len_wire (length (components fs4_wire (c :: cs)))) + length (fs_body fs4_wire c))).
Proof. exact (fun oc c cs post H1 H2 _ H4 => pfx_first (fs4 oc) _ _ _ (fs4_rd oc) c cs post H1 H2 H4). Qed.
Print Assumptions C137_prefix4_refuted.
Theorem C137_prefix6_refuted : forall oc c cs post, fs_wf fs6_wf c -> is_pfx c -> cs <> [] ->
  (length (components fs6_wire (c :: cs)) <= 4095)%nat ->
  fs_decode (fs6i oc) (rule_wire fs6_wire (c :: cs) ++ post) =
  Ok (fs_map fs6_trunc c, S (length (fs_len_wire (length (components fs6_wire (c :: cs)))) + length (fs_body fs6_wire c))).
Proof. exact (fun oc c cs post H1 H2 _ H4 => pfx_first (fs6i oc) _ _ _ (fs6_rd oc) c cs post H1 H2 H4). Qed.
Print Assumptions C137_prefix6_refuted.
(** to 10.0.1.0/24 and protocol 6: reported as everything to 10.0.1.0/24 *)
Example C137_prefix_ex :
  rule_wire fs4_wire [FsDst (mkV4 0x0a000100 24); FsProto [mkFsVal false false false true 6]] = [8; 1; 24; 10; 0; 1; 3; 129; 6] /\
  fs_decode (fs4 true) [8; 1; 24; 10; 0; 1; 3; 129; 6] = Ok (FsDst (mkV4 0x0a000100 24), 7%nat).
Proof. split; vm_compute; reflexivity. Qed.

(** A rule that begins with another component is never reported as sent: if it is accepted, the octets of the other
    components have become alternatives of the first. *)
Theorem C137_oper_refuted : forall T (it : fsitem T) wf W c cs post r n, fs_wf wf c -> ~ is_pfx c -> cs <> [] ->
  (length (components W (c :: cs)) <= 4095)%nat ->
  fs_decode it (rule_wire W (c :: cs) ++ post) = Ok (r, n) -> extends c r /\ n = length (rule_wire W (c :: cs)).
Proof. exact @oper_first. Qed.
Print Assumptions C137_oper_refuted.

(** This happens to every such component: "and destination port 25 or 53" is accepted as two more alternatives. *)
Theorem C137_accepted_refuted : forall T (it : fsitem T) wf W c post, fs_wf wf c -> ~ is_pfx c ->
  (length (components W [c; two_ports]) <= 4095)%nat ->
  exists r, fs_decode it (rule_wire W [c; two_ports] ++ post) = Ok (r, length (rule_wire W [c; two_ports])) /\ extends c r.
Proof. exact @oper_two. Qed.
Print Assumptions C137_accepted_refuted.
(** protocol 6 and port 25 or 53: reported as protocol 6, or at most 1, or 33077 *)
Example C137_accepted_ex :
  rule_wire fs4_wire [FsProto [mkFsVal false false false true 6]; two_ports] = [8; 3; 129; 6; 5; 1; 25; 129; 53] /\
  fs_decode (fs4 true) [8; 3; 129; 6; 5; 1; 25; 129; 53] =
    Ok (FsProto [mkFsVal false false false true 6; mkFsVal false true false true 1; mkFsVal false false false true 33077], 9%nat) /\
  fs_decode (fs4 true) ([3; 3; 129; 6] ++ [7]) = Ok (FsProto [mkFsVal false false false true 6], 4%nat).
Proof. repeat split; vm_compute; reflexivity. Qed.

(** So a list of routes that ends with a prefix and one test of one octet - "to 10.0.1.0/24 and TCP" - is never
    accepted, whatever rules stand before it: with a value from 1 to 13 the program panics, else the list is refused. *)
Theorem C137_list4_refuted : forall oc p rs c d n, plain_rules v4_wf fs4_wire rs -> fs_wf v4_wf c -> is_pfx c -> lone d n ->
  (length (components fs4_wire [c; d]) <= 4095)%nat ->
  addrs_decode oc p 1 133 (flat_map (fs_wire fs4_wire) rs ++ rule_wire fs4_wire [c; d]) = if (1 <=? n) && (n <=? 13) then Panic else Err EOther.
Proof. exact list_end4. Qed.
Print Assumptions C137_list4_refuted.
Theorem C137_list6_refuted : forall oc p rs c d n, plain_rules fs6_wf fs6_wire rs -> fs_wf fs6_wf c -> is_pfx c -> lone d n ->
  (length (components fs6_wire [c; d]) <= 4095)%nat ->
  addrs_decode oc p 2 133 (flat_map (fs_wire fs6_wire) rs ++ rule_wire fs6_wire [c; d]) = if (1 <=? n) && (n <=? 13) then Panic else Err EOther.
Proof. exact list_end6. Qed.
Print Assumptions C137_list6_refuted.
Example C137_list_ex :
  addrs_decode false (params_new 1 180 ModeV4 1 []) 1 133 ([3; 3; 129; 6] ++ [8; 1; 24; 10; 0; 1; 3; 129; 6]) = Panic /\
  addrs_decode false (params_new 1 180 ModeV4 1 []) 1 133 ([3; 3; 129; 6] ++ [8; 1; 24; 10; 0; 1; 3; 129; 17]) = Err EOther /\
  lone (FsProto (T := addrV4) [mkFsVal false false false true 6]) 6 /\
  plain_rules v4_wf fs4_wire [FsProto [mkFsVal false false false true 6]] /\
  flat_map (fs_wire fs4_wire) [FsProto [mkFsVal false false false true 6]] = [3; 3; 129; 6].
Proof.
  split; [vm_compute; reflexivity|]. split; [vm_compute; reflexivity|]. split; [split; reflexivity|]. split; [|reflexivity].
  constructor; [|constructor]. split; [constructor; [reflexivity|constructor]|]. split; [intros []|]. change (3 <= 4095)%nat. apply Nat.leb_le. reflexivity.
Qed.
(** in an UPDATE, with next hop 1.2.3.4 *)
Example C137_update_ex : update_decode false (params_new 1 180 ModeV4 1 []) update_new
  ([0; 0; 0; 21] ++ [128; 14; 18] ++ [0; 1; 133; 4; 1; 2; 3; 4; 0] ++ [8; 1; 24; 10; 0; 1; 3; 129; 6]) = Panic.
Proof. vm_compute. reflexivity. Qed.
