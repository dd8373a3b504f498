(** Proofs about the octets written for MCAST-VPN routes. *)
From Verif Require Import Base BaseFacts M_Util F_Util S_Wire M_Prefix M_Nlri S_Nlri F_Nlri M_Session M_Mvpn S_Mvpn F_Mvpn S_Mvpn2.

Lemma bare_sent r : mv_bare r = sent r.
Proof. destruct r; reflexivity. Qed.
Lemma mvpn_written r : writes (mvpn_encode r) (mv_written r) (length (mv_written r)).
Proof. unfold mv_written. cbn [length]. rewrite bare_sent. apply writes_mvpn. Qed.
