(** Values built with the constructors: C108, C109. *)
From Coq Require Import Ascii String.
From Verif Require Import Base M_Util M_Prefix S_Prefix M_Nlri S_Nlri M_Vpls M_Cap S_Cap M_Open M_Session M_Addrs S_Addrs M_Attr S_Attr M_Text S_Text M_Build S_Build F_Build.
Close Scope string_scope. Open Scope list_scope. Open Scope N_scope.

(** C108: the entry built for a family that entries can be built for carries the codes that the multiprotocol
    capability for the same family carries (C26) and what was given, unless the stale time does not fit 24 bits... *)
Theorem C108_entries : forall s fwd flags stale send receive, plain_family s ->
  gr_new_from_cap (CapMP s) fwd = Ok (mkGR (fst (mp_code s)) (snd (mp_code s)) fwd) /\
  ap_new_from_cap (CapMP s) send receive = Ok (mkAP (fst (mp_code s)) (snd (mp_code s)) send receive) /\
  llgr_new_from_cap (CapMP s) flags stale = (if stale <? 2 ^ 24 then Ok (mkLLGR (fst (mp_code s)) (snd (mp_code s)) flags stale) else Err EOther).
Proof. exact entries. Qed.
Print Assumptions C108_entries.
Example C108_ex_entries : plain_family SafiVPNv6u /\
  gr_new_from_cap (CapMP SafiVPNv6u) true = Ok (mkGR 2 128 true) /\
  ap_new_from_cap (CapMP SafiVPNv6u) true false = Ok (mkAP 2 128 true false) /\
  llgr_new_from_cap (CapMP SafiVPNv6u) 128 3600 = Ok (mkLLGR 2 128 128 3600) /\ llgr_new_from_cap (CapMP SafiVPNv6u) 128 16777216 = Err EOther.
Proof. split; [repeat split; discriminate|]. repeat split; reflexivity. Qed.
(** ... for flow specifications, and from any other capability, nothing is built, and nothing panics... *)
Theorem C108_refused : forall c fwd flags stale send receive, (forall s, c = CapMP s -> ~ plain_family s) ->
  gr_new_from_cap c fwd = Err EOther /\ ap_new_from_cap c send receive = Err EOther /\ llgr_new_from_cap c flags stale = Err EOther.
Proof. exact entries_refused. Qed.
Print Assumptions C108_refused.
Example C108_ex_refused : forall s, CapMP SafiIPv6fu = CapMP s -> ~ plain_family s.
Proof. intros s E (_ & H & _). injection E as <-. now apply H. Qed.
(** ... and but for two families these codes are the ones the family's routes have. *)
Theorem C108_codes_partial : forall s, s <> SafiIPv4m -> s <> SafiIPv4lu -> mp_code s = safi_codes s.
Proof. exact code_agrees. Qed.
Print Assumptions C108_codes_partial.
(** The other two are swapped: a session that agreed on path identifiers for labelled IPv4 routes, by an entry
    built for them, expects none there but expects them in IPv4 multicast routes. *)
Theorem C108_codes_refuted : forall p send x, sp_caps p = [CapAddPath [x]] ->
  ap_new_from_cap (CapMP SafiIPv4lu) send true = Ok x -> check_addpath_receive p 1 4 = false /\ check_addpath_receive p 1 2 = true.
Proof. exact addpath_swapped. Qed.
Print Assumptions C108_codes_refuted.
Example C108_ex_swapped : ap_new_from_cap (CapMP SafiIPv4lu) true true = Ok (mkAP 1 2 true true).
Proof. reflexivity. Qed.

(** C109: the announcements of IPv4 routes (VPN, multicast VPN, labelled) built from a next hop and routes are sent from
    any buffer that has room, and received with that next hop and those routes (host bits cleared) in a session without
    path identifiers for them... *)
Theorem C109_vpnv4u_arrives : forall oc p rd a v buf, rd_wf rd -> a < 2 ^ 32 -> Forall vpn4_wf v ->
  let w := mp_reach_wire (BAV4RD rd a) (VPNV4U v) in
  use_pathid p 1 128 (items_wire (labeled_wire (withrd_wire v4_wire)) v) = false -> room_for w buf ->
  sent oc p (s4vpnv4u rd a v) buf w /\ received oc p w (s4vpnv4u rd a (map (lab_map (rd_map v4_trunc)) v)).
Proof. exact vpnv4u_arrives. Qed.
Print Assumptions C109_vpnv4u_arrives.
Theorem C109_vpnv4m_arrives : forall oc p rd a v buf, rd_wf rd -> a < 2 ^ 32 -> Forall vpn4_wf v ->
  let w := mp_reach_wire (BAV4RD rd a) (VPNV4M v) in
  use_pathid p 1 129 (items_wire (labeled_wire (withrd_wire v4_wire)) v) = false -> room_for w buf ->
  sent oc p (s4vpnv4m rd a v) buf w /\ received oc p w (s4vpnv4m rd a (map (lab_map (rd_map v4_trunc)) v)).
Proof. exact vpnv4m_arrives. Qed.
Print Assumptions C109_vpnv4m_arrives.
Theorem C109_ip4lu_arrives : forall oc p a v buf, a < 2 ^ 32 -> Forall lu4_wf v ->
  let w := mp_reach_wire (BAV4 a) (IPV4LU v) in
  use_pathid p 1 4 (items_wire (labeled_wire v4_wire) v) = false -> room_for w buf ->
  sent oc p (s4ip4lu a v) buf w /\ received oc p w (s4ip4lu a (map (lab_map v4_trunc) v)).
Proof. exact ip4lu_arrives. Qed.
Print Assumptions C109_ip4lu_arrives.
Example C109_ex_arrives : let p := params_new 65000 180 ModeV4 1 [] in let v := [labeled_new [100; 200] (mkV4 (10 * 2 ^ 24 + 1) 8)] in
  Forall lu4_wf v /\ use_pathid p 1 4 (items_wire (labeled_wire v4_wire) v) = false /\
  mp_reach_wire (BAV4 5) (IPV4LU v) = [0; 1; 4; 4; 0; 0; 0; 5; 0; 56; 0; 6; 64; 0; 12; 129; 10] /\
  received true p (mp_reach_wire (BAV4 5) (IPV4LU v)) (s4ip4lu 5 [labeled_new [100; 200] (mkV4 (10 * 2 ^ 24) 8)]).
Proof.
  intros p v. split; [|split; [reflexivity|split; reflexivity]].
  apply Forall_cons; [|apply Forall_nil]. unfold lu4_wf, fits, labeled_wf, v4_wf. cbn [lab_prefix lab_labels v4_len v4_addr labeled_new].
  split; [|reflexivity]. split; [|split; [reflexivity|discriminate]]. split; [discriminate|]. split; [apply Forall_cons; [reflexivity|]; apply Forall_cons; [reflexivity|]; apply Forall_nil|apply Forall_cons; [|apply Forall_nil]; intros H; repeat (destruct H as [H|H]; [discriminate|]); exact H].
Qed.
(** ... those of IPv6 routes are sent too, but the labelled ones no receiver takes, and the VPN ones no receiver takes with the
    next hop they were built with: it comes as an IPv6 one, or not at all. *)
Theorem C109_ip6lu_refuted : forall oc p a v buf, a < 2 ^ 32 -> Forall lu6_wf v ->
  let w := mp_reach_wire (BAV4 a) (IPV6LU v) in
  room_for w buf -> sent oc p (s4ip6lu a v) buf w /\ forall oc' p' y, ~ received oc' p' w y.
Proof. exact ip6lu_lost. Qed.
Print Assumptions C109_ip6lu_refuted.
Theorem C109_vpnv6u_refuted : forall oc p rd a v buf, rd_wf rd -> a < 2 ^ 32 -> Forall vpn6_wf v ->
  let w := mp_reach_wire (BAV4RD rd a) (VPNV6U v) in
  room_for w buf -> sent oc p (s4vpnv6u rd a v) buf w /\ forall oc' p' nh r, received oc' p' w (AMPUpdates nh r) -> exists rd' a', nh = BAV6RD rd' a'.
Proof. exact vpnv6u_lost. Qed.
Print Assumptions C109_vpnv6u_refuted.
Theorem C109_vpnv6m_refuted : forall oc p rd a v buf, rd_wf rd -> a < 2 ^ 32 -> Forall vpn6_wf v ->
  let w := mp_reach_wire (BAV4RD rd a) (VPNV6M v) in
  room_for w buf -> sent oc p (s4vpnv6m rd a v) buf w /\ forall oc' p' nh r, received oc' p' w (AMPUpdates nh r) -> exists rd' a', nh = BAV6RD rd' a'.
Proof. exact vpnv6m_lost. Qed.
Print Assumptions C109_vpnv6m_refuted.
Example C109_ex_lost : let p := params_new 65000 180 ModeV4 1 [] in let v := [labeled_new [100] (mkV6 0 0)] in
  Forall lu6_wf v /\ room_for (mp_reach_wire (BAV4 5) (IPV6LU v)) (repeat 0 40) /\
  attr_decode true p 14 144 13 (mp_reach_wire (BAV4 5) (IPV6LU v)) = Err EOther.
Proof.
  intros p v. split; [|split; [split; [discriminate|apply Nat.leb_le; reflexivity]|reflexivity]].
  apply Forall_cons; [|apply Forall_nil]. unfold lu6_wf, fits, labeled_wf, v6_wf. cbn [lab_prefix lab_labels v6_len v6_addr labeled_new].
  split; [|reflexivity]. split; [|split; [reflexivity|discriminate]]. split; [discriminate|]. split; [apply Forall_cons; [reflexivity|]; apply Forall_nil|apply Forall_nil].
Qed.
(** A labelled route built without labels is sent as the octets of the unlabelled route, for every buffer... *)
Theorem C109_new_nl_same : forall oc v buf, Forall (fun x => v4_len x < 256) v ->
  addrs_encode oc (IPV4LU (map labeled_new_nl v)) buf = addrs_encode oc (IPV4U v) buf.
Proof. exact nl_same. Qed.
Print Assumptions C109_new_nl_same.
(** ... so it is never received as sent, unless it is the default route: what is received has labels. *)
Theorem C109_new_nl_refuted : forall oc oc' p x v buf k b y r n, Forall v4_wf (x :: v) -> v4_len x <> 0 -> bytes_ok buf ->
  (length (items_wire v4_wire (x :: v)) <= length buf)%nat ->
  addrs_encode oc (IPV4LU (map labeled_new_nl (x :: v))) buf = Ok (k, b) ->
  addrs_decode oc' p 1 4 (firstn k b) = Ok (IPV4LU (y :: r), n) -> lab_labels y <> [].
Proof. exact nl_lost. Qed.
Print Assumptions C109_new_nl_refuted.
Example C109_ex_new_nl : let p := params_new 65000 180 ModeV4 1 [] in let x := mkV4 (10 * 2 ^ 24 + 2 ^ 8 + 1) 32 in
  addrs_encode true (IPV4LU (map labeled_new_nl [x])) (repeat 0 5) = Ok (5%nat, [32; 10; 0; 1; 1]) /\ v4_wf x /\
  addrs_decode true p 1 4 [32; 10; 0; 1; 1] = Ok (IPV4LU [labeled_new [40960] (mkV4 (2 ^ 24) 8)], 5%nat).
Proof. split; [reflexivity|]. split; [split; [reflexivity|discriminate]|reflexivity]. Qed.
(** A community built from its two halves has them, in this order, in its octets, and displays them, unless it is one of
    those with a name. *)
Theorem C109_community_from : forall h l, h < 2 ^ 16 -> l < 2 ^ 16 -> community_from h l < 2 ^ 32 /\ be_bytes 4 (community_from h l) = be_bytes 2 h ++ be_bytes 2 l /\
  community_from h l / 65536 = h /\ community_from h l mod 65536 = l.
Proof. exact community_from_octets. Qed.
Print Assumptions C109_community_from.
Theorem C109_community_display : forall h l, h < 2 ^ 16 -> l < 2 ^ 16 -> ~ In (community_from h l) [0xffffff01; 0xffffff02; 0xffffff03; 0xffffff04] ->
  exists s t, community_fmt (community_from h l) = s ++ 58 :: t /\ canonical 10 s h /\ canonical 10 t l.
Proof. exact from_display. Qed.
Print Assumptions C109_community_display.
Example C109_ex_community : community_from 65001 100 = 65001 * 65536 + 100 /\ ~ In (community_from 65001 100) [0xffffff01; 0xffffff02; 0xffffff03; 0xffffff04] /\
  community_fmt (community_from 65001 100) = lit "65001:100".
Proof. split; [reflexivity|split; [|reflexivity]]. vm_compute. intros H. repeat (destruct H as [H|H]; [discriminate|]). exact H. Qed.
(** Lists of communities built from a vector are equal exactly if the vectors have the same elements; they are sent and received as built. *)
Theorem C109_community_vec : forall v w, same_elements v w <-> community_from_vec v = community_from_vec w.
Proof. exact from_vec_same. Qed.
Print Assumptions C109_community_vec.
Theorem C109_extended_vec : forall v w, same_elements v w <-> ext_from_vec v = ext_from_vec w.
Proof. exact ext_vec_same. Qed.
Print Assumptions C109_extended_vec.
Theorem C109_community_vec_arrives : forall oc p v buf, Forall (fun c => c < 2 ^ 32) v -> N.of_nat (4 * length v) <= 65535 -> (4 + 4 * length v <= length buf)%nat ->
  exists n b w, attr_encode oc p (community_from_vec v) buf = Ok (n, [208; 8] ++ be_bytes 2 (N.of_nat (length w)) ++ w ++ b) /\
  attr_decode oc p 8 208 (length w) w = Ok (community_from_vec v).
Proof. exact from_vec_sent. Qed.
Print Assumptions C109_community_vec_arrives.
Example C109_ex_vec : same_elements [3; 1; 3] [1; 3] /\ community_from_vec [3; 1; 3] = ACommunityList [1; 3] /\
  Forall (fun c => c < 2 ^ 32) [3; 1; 3] /\ N.of_nat (4 * length [3; 1; 3]) <= 65535.
Proof.
  split; [intros x; cbn [In]; tauto|]. split; [reflexivity|]. split; [|discriminate].
  apply Forall_cons; [reflexivity|]. apply Forall_cons; [reflexivity|]. apply Forall_cons; [reflexivity|]. apply Forall_nil.
Qed.
