(** Specification of EVPN routes (RFC 7432 7.1-7.4, RFC 9136 3.1). *)
From Verif Require Import Base M_Util S_Wire M_Prefix S_Prefix M_Nlri S_Nlri M_Session M_Mvpn S_Mvpn M_Evpn.

Definition ev_code (r : evpn) : N := match r with Ev1 _ => 1 | Ev2 _ => 2 | Ev3 _ => 3 | Ev4 _ => 4 | Ev5 _ => 5 end.
(** MAC addresses are stored least significant octet first *)
Definition ev_body (r : evpn) : list N :=
  match r with
  | Ev1 r => rd_wire (ev1_rd r) ++ [ev1_esi_type r] ++ ev1_esi r ++ be_bytes 4 (ev1_tag r) ++ stack_wire (ev1_labels r)
  | Ev2 r => rd_wire (ev2_rd r) ++ [ev2_esi_type r] ++ ev2_esi r ++ be_bytes 4 (ev2_tag r) ++ [48] ++ rev (ev2_mac r) ++
             match ev2_ip r with None => [0] | Some a => lip a end ++ stack_wire (ev2_labels r)
  | Ev3 r => rd_wire (ev3_rd r) ++ be_bytes 4 (ev3_tag r) ++ lip (ev3_ip r)
  | Ev4 r => rd_wire (ev4_rd r) ++ [ev4_esi_type r] ++ ev4_esi r ++ lip (ev4_ip r)
  | Ev5 r => rd_wire (ev5_rd r) ++ [ev5_esi_type r] ++ ev5_esi r ++ be_bytes 4 (ev5_tag r) ++ [ev5_len r] ++
             ip_bytes (ev5_prefix r) ++ ip_bytes (ev5_gw r) ++ stack_wire (ev5_labels r)
  end.
Definition ev_wire (r : evpn) : list N := ev_code r :: N.of_nat (length (ev_body r)) :: ev_body r.

(** fields in range *)
Definition esi_wf (t : N) (e : esi) : Prop := t < 256 /\ length e = 9%nat /\ bytes_ok e.
(** no labels, or a recoverable stack; at most 10 entries (240 bits) *)
Definition ev_stack_wf (ls : list N) : Prop := (ls = [] \/ stack_wf ls) /\ (length ls <= 10)%nat.
Definition ev_wf (r : evpn) : Prop :=
  match r with
  | Ev1 r => rd_wf (ev1_rd r) /\ esi_wf (ev1_esi_type r) (ev1_esi r) /\ ev1_tag r < 2 ^ 32 /\ ev_stack_wf (ev1_labels r)
  | Ev2 r => rd_wf (ev2_rd r) /\ esi_wf (ev2_esi_type r) (ev2_esi r) /\ ev2_tag r < 2 ^ 32 /\ mac_wf (ev2_mac r) /\
             match ev2_ip r with None => True | Some a => ip_wf a end /\ ev_stack_wf (ev2_labels r)
  | Ev3 r => rd_wf (ev3_rd r) /\ ev3_tag r < 2 ^ 32 /\ ip_wf (ev3_ip r)
  | Ev4 r => rd_wf (ev4_rd r) /\ esi_wf (ev4_esi_type r) (ev4_esi r) /\ ip_wf (ev4_ip r)
  | Ev5 r => rd_wf (ev5_rd r) /\ esi_wf (ev5_esi_type r) (ev5_esi r) /\ ev5_tag r < 2 ^ 32 /\ ev5_len r < 256 /\
             ip_wf (ev5_prefix r) /\ ip_wf (ev5_gw r) /\ ev_stack_wf (ev5_labels r)
  end.
(** the type 5 routes the codec can carry: IPv4 prefix and gateway, exactly one label *)
Definition ev5_ok (r : evpn) : Prop :=
  match r with
  | Ev5 (mkEvpn5 _ _ _ _ _ (IPv4 _) (IPv4 _) [_]) => True
  | Ev5 _ => False
  | _ => True
  end.
