(** Which texts are read: C117. *)
From Coq Require Import Ascii String.
From Verif Require Import Base M_Prefix S_Prefix M_Nlri S_Nlri M_Vpls M_Attr M_Text S_Text S_Parse F_Parse.

(** IPv6 addresses: eight groups, or [::] in place of one or more groups of zeros; the last two may be an IPv4 address. *)
Theorem C117_ipv6 : forall s a, parse_ipv6 s = Ok a <-> ipv6_text s a.
Proof. exact parse_ipv6_iff. Qed.
Print Assumptions C117_ipv6.
Theorem C117_v6_prefix : forall s p, v6_parse s = Ok p <-> prefix_text ipv6_text 128 s (v6_addr p) (v6_len p).
Proof. exact v6_parse_iff. Qed.
Print Assumptions C117_v6_prefix.
Theorem C117_v4_prefix : forall s p, v4_parse s = Ok p <-> prefix_text ipv4_text 32 s (v4_addr p) (v4_len p).
Proof. exact v4_parse_iff'. Qed.
Print Assumptions C117_v4_prefix.
Theorem C117_mac_prefix : forall s p, macp_parse s = Ok p <-> prefix_text mac_digits_text 48 s (mc_addr p) (mc_len p).
Proof. exact macp_parse_iff. Qed.
Print Assumptions C117_mac_prefix.
(** A network is read in the first family whose text it is; no text is one of both IPv4 and IPv6. *)
Theorem C117_net : forall s n, net_parse s = Ok n <-> net_text s n.
Proof. exact net_parse_iff. Qed.
Print Assumptions C117_net.
Theorem C117_families : forall s a l b m, prefix_text ipv4_text 32 s a l -> ~ prefix_text ipv6_text 128 s b m.
Proof. exact v4_not_v6_prefix. Qed.
Print Assumptions C117_families.
(** MDT routes: a prefix and an address at either side of the only [@]. *)
Theorem C117_mdt_v4 : forall s m, mdt4_parse s = Ok m <-> at_text (fun t p => prefix_text ipv4_text 32 t (v4_addr p) (v4_len p)) ipv4_text s (mdt4_addr m) (mdt4_group m).
Proof. exact mdt4_iff. Qed.
Print Assumptions C117_mdt_v4.
Theorem C117_mdt_v6 : forall s m, mdt6_parse s = Ok m <-> at_text (fun t p => prefix_text ipv6_text 128 t (v6_addr p) (v6_len p)) ipv6_text s (mdt6_addr m) (mdt6_group m).
Proof. exact mdt6_iff. Qed.
Print Assumptions C117_mdt_v6.
(** Every other text is refused with a message; no text stops the program. *)
Theorem C117_answers : forall s, answers (v4_parse s) /\ answers (v6_parse s) /\ answers (macp_parse s) /\ answers (mac_parse s) /\ answers (net_parse s) /\
  answers (mdt4_parse s) /\ answers (mdt6_parse s) /\ answers (rd_parse s) /\ answers (community_parse s).
Proof. exact all_answers. Qed.
Print Assumptions C117_answers.

Example C117_ipv6_ex : parse_ipv6 (lit "2001:DB8::00ff:10.0.0.1") = Ok 0x20010db800000000000000ff0a000001 /\
  parse_ipv6 (lit "::") = Ok 0 /\ parse_ipv6 (lit "1:2:3:4:5:6:7::") = Ok 0x00010002000300040005000600070000 /\
  parse_ipv6 (lit "1:2:3:4:5:6:7:8::") = Err EOther /\ parse_ipv6 (lit "1::2::3") = Err EOther /\ parse_ipv6 (lit "1:2:3:4:5:6:7:1.2.3.4") = Err EOther /\
  parse_ipv6 (lit "12345::") = Err EOther /\ parse_ipv6 (lit "1:::2") = Err EOther /\ parse_ipv6 (lit "fe80::1%eth0") = Err EOther.
Proof. repeat split; vm_compute; reflexivity. Qed.
Example C117_text_ex : exists a, ipv6_text (lit "2001:DB8::00ff:10.0.0.1") a /\ ~ ipv6_text (lit "1::2::3") a.
Proof.
  eexists. split; [apply C117_ipv6; vm_compute; reflexivity|]. intros H. apply C117_ipv6 in H. vm_compute in H. discriminate H.
Qed.
Example C117_prefix_ex : v6_parse (lit "2001:db8::/32") = Ok (mkV6 0x20010db8000000000000000000000000 32) /\ v6_parse (lit "::1/x/y") = Ok (mkV6 1 128) /\
  v4_parse (lit "10.0.0.0/8/9") = Ok (mkV4 0x0a000000 8) /\ v4_parse (lit "10.0.0/8") = Err EOther /\ macp_parse (lit "0-1-2") = Ok (mkMac (rev [0; 0; 0; 0; 0; 0x12]) 48).
Proof. repeat split; vm_compute; reflexivity. Qed.
Example C117_net_ex : net_parse (lit "10.0.0.0/8") = Ok (NetV4 (mkV4 0x0a000000 8)) /\ net_parse (lit "::a/9") = Ok (NetV6 (mkV6 10 9)) /\
  net_parse (lit "10.0.0/8") = Ok (NetMac (mkMac (rev [0; 0; 0; 0; 0x10; 0]) 8)) /\ net_parse (lit "/8") = Err EOther.
Proof. repeat split; vm_compute; reflexivity. Qed.
Example C117_families_ex : prefix_text ipv4_text 32 (lit "10.0.0.0/8") 0x0a000000 8 /\ forall b m, ~ prefix_text ipv6_text 128 (lit "10.0.0.0/8") b m.
Proof.
  assert (H : prefix_text ipv4_text 32 (lit "10.0.0.0/8") 0x0a000000 8) by (apply (C117_v4_prefix _ (mkV4 0x0a000000 8)); vm_compute; reflexivity).
  split; [exact H|]. intros b m. eapply C117_families; exact H.
Qed.
Example C117_mdt_ex : mdt4_parse (lit "10.0.0.0/8@224.0.0.1") = Ok (mkMdt4 (mkV4 0x0a000000 8) 0xe0000001) /\ mdt6_parse (lit "::/0@ff02::1") = Ok (mkMdt6 (mkV6 0 0) 0xff020000000000000000000000000001) /\
  mdt6_parse (lit "::/0") = Err EOther /\ mdt6_parse (lit "::@::@") = Err EOther.
Proof. repeat split; vm_compute; reflexivity. Qed.
Example C117_answers_ex : community_parse (lit "1:2:3") = Err EOther /\ rd_parse [] = Err EOther /\ mac_parse (lit "xyz") = Err EOther.
Proof. repeat split; vm_compute; reflexivity. Qed.
