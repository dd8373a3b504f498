(** What the encoder of MCAST-VPN routes writes: the RFC 6514 form without the length octets in front of sources and groups, and without the
    header of the route inside a type 4 route. *)
From Verif Require Import Base M_Util S_Wire M_Prefix M_Nlri S_Nlri M_Session M_Mvpn S_Mvpn.

Definition mv3_bare (r : mvpn3) : list N := rd_wire (mv3_rd r) ++ ip_bytes (mv3_source r) ++ ip_bytes (mv3_group r) ++ ip_bytes (mv3_orig r).
Definition mv67_bare (r : mvpn67) : list N := rd_wire (mv67_rd r) ++ be_bytes 4 (mv67_asn r) ++ ip_bytes (mv67_rp r) ++ ip_bytes (mv67_group r).
Definition mv_bare (r : mvpn) : list N :=
  match r with
  | MvT1 _ | MvT2 _ => mv_body r
  | MvT3 r => mv3_bare r
  | MvT4 r => mv3_bare (mv4_spmsi r) ++ ip_bytes (mv4_orig r)
  | MvT5 r => rd_wire (mv5_rd r) ++ ip_bytes (mv5_source r) ++ ip_bytes (mv5_group r)
  | MvT6 r | MvT7 r => mv67_bare r
  end.
Definition mv_written (r : mvpn) : list N := mv_code r :: N.of_nat (length (mv_bare r)) :: mv_bare r.
