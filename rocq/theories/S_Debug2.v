(** What C120 and C121 are about: the values of the Rust types (strings are UTF-8, addresses have 32 or 128 bits), and texts of one line. *)
From Verif Require Import Base M_Cap M_Open M_Session M_Nlri M_Bmp M_Update S_Serde S_Exact3 S_Debug.

Definition opt_any {A} (P : A -> Prop) (o : option A) : Prop := match o with None => True | Some x => P x end.
Definition cap_any (c : bgpcap) : Prop := match c with CapFQDN h d => utf8 h /\ utf8 d | _ => True end.
Definition open_any (m : openMsg) : Prop := op_rid m < 2 ^ 32 /\ Forall cap_any (op_caps m).
Definition params_any (p : params) : Prop := sp_rid p < 2 ^ 32 /\ Forall cap_any (sp_caps p).
Definition peer_any (h : peerhdr) : Prop := ip_any (ph_addr h) /\ ph_rid h < 2 ^ 32.
Definition skey_any (k : skey) : Prop := ip_any (snd k).
Definition term_any (m : bmpterm) : Prop := opt_any utf8 (tm_str m).
Definition init_any (m : bmpinit) : Prop := opt_any utf8 (in_str m) /\ opt_any utf8 (in_descr m) /\ opt_any utf8 (in_name m).
Definition up_any (m : peerup) : Prop := peer_any (pu_peer m) /\ ip_any (pu_local m) /\ open_any (pu_msg1 m) /\ open_any (pu_msg2 m).
Definition bmp_any (m : bmpmsg) : Prop :=
  match m with
  | RouteMonitoring m => peer_any (rm_peer m) /\ update_any (rm_update m)
  | PeerDown m => peer_any (pd_peer m)
  | PeerUp m => up_any m
  | Initiation m => init_any m
  | Termination m => term_any m
  | StatisticsReport | RouteMirroring => True
  end.

(** no control character of ASCII: nothing that ends a line or moves the cursor *)
Definition one_line (t : list N) : Prop := Forall (fun c => 32 <= c /\ c <> 127) t.
