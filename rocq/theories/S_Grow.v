(** What "a larger buffer makes no difference" means. *)
From Verif Require Import Base M_Util M_Cap M_Bmp.

(** Whenever the encoder succeeds on a buffer it succeeds on every longer one which begins alike, with the same result and the same octets;
    what the longer buffer has in addition is left as it was. *)
Definition same_in_larger {A} (e : Enc A) : Prop :=
  forall buf more x buf', e buf = Ok (x, buf') -> e (buf ++ more) = Ok (x, buf' ++ more).
(** the capabilities which are copied from a literal *)
Definition cap_literal (c : bgpcap) : bool :=
  match c with CapMP _ | CapASN32 _ | CapRR | CapEnhancedRR | CapBFD => true | _ => false end.

(** the BMP messages which carry an IPv4 address in a BMP address field *)
Definition is_v4 (a : ipaddr) : bool := match a with IPv4 _ => true | IPv6 _ => false end.
Definition bmp_clears (m : bmpmsg) : bool :=
  match m with
  | RouteMonitoring m => is_v4 (ph_addr (rm_peer m))
  | PeerUp m => is_v4 (ph_addr (pu_peer m)) || is_v4 (pu_local m)
  | PeerDown m => is_v4 (ph_addr (pd_peer m))
  | _ => false
  end.
