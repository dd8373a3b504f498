(** Specification of MCAST-VPN routes (RFC 6514 4.1-4.6). *)
From Verif Require Import Base M_Util S_Wire M_Prefix M_Nlri S_Nlri M_Session M_Mvpn.

(** an address preceded by its length in bits *)
Definition ip_bits (a : ipaddr) : N := match a with IPv4 _ => 32 | IPv6 _ => 128 end.
Definition lip (a : ipaddr) : list N := ip_bits a :: ip_bytes a.

Definition mv_code (r : mvpn) : N :=
  match r with MvT1 _ => 1 | MvT2 _ => 2 | MvT3 _ => 3 | MvT4 _ => 4 | MvT5 _ => 5 | MvT6 _ => 6 | MvT7 _ => 7 end.

Definition mv3_body (r : mvpn3) : list N :=
  rd_wire (mv3_rd r) ++ lip (mv3_source r) ++ lip (mv3_group r) ++ ip_bytes (mv3_orig r).
Definition mv67_body (r : mvpn67) : list N :=
  rd_wire (mv67_rd r) ++ be_bytes 4 (mv67_asn r) ++ lip (mv67_rp r) ++ lip (mv67_group r).
Definition mv_body (r : mvpn) : list N :=
  match r with
  | MvT1 r => rd_wire (mv1_rd r) ++ ip_bytes (mv1_orig r)
  | MvT2 r => rd_wire (mv2_rd r) ++ be_bytes 4 (mv2_asn r)
  | MvT3 r => mv3_body r
  | MvT4 r => 3 :: N.of_nat (length (mv3_body (mv4_spmsi r))) :: mv3_body (mv4_spmsi r) ++ ip_bytes (mv4_orig r)
  | MvT5 r => rd_wire (mv5_rd r) ++ lip (mv5_source r) ++ lip (mv5_group r)
  | MvT6 r | MvT7 r => mv67_body r
  end.
Definition mv_wire (r : mvpn) : list N := mv_code r :: N.of_nat (length (mv_body r)) :: mv_body r.

(** fields in range, every address of the family of the session *)
Definition of_mode (m : tmode) (a : ipaddr) : Prop :=
  match m, a with ModeV4, IPv4 a => a < 2 ^ 32 | ModeV6, IPv6 a => a < 2 ^ 128 | _, _ => False end.
Definition mv3_wf (m : tmode) (r : mvpn3) : Prop :=
  rd_wf (mv3_rd r) /\ of_mode m (mv3_source r) /\ of_mode m (mv3_group r) /\ of_mode m (mv3_orig r).
Definition mv67_wf (m : tmode) (r : mvpn67) : Prop :=
  rd_wf (mv67_rd r) /\ mv67_asn r < 2 ^ 32 /\ of_mode m (mv67_rp r) /\ of_mode m (mv67_group r).
Definition mv_wf (m : tmode) (r : mvpn) : Prop :=
  match r with
  | MvT1 r => rd_wf (mv1_rd r) /\ of_mode m (mv1_orig r)
  | MvT2 r => rd_wf (mv2_rd r) /\ mv2_asn r < 2 ^ 32
  | MvT3 r => mv3_wf m r
  | MvT4 r => mv3_wf m (mv4_spmsi r) /\ of_mode m (mv4_orig r)
  | MvT5 r => rd_wf (mv5_rd r) /\ of_mode m (mv5_source r) /\ of_mode m (mv5_group r)
  | MvT6 r | MvT7 r => mv67_wf m r
  end.
