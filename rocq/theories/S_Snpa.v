(** The octet behind the next hop of a multiprotocol announcement: reserved in RFC 4760 ("MUST be set to 0, and SHOULD be
    ignored upon receipt"), the number of SNPAs, each with its length in front, in RFC 2858. *)
From Verif Require Import Base M_Util S_Wire M_Prefix M_Nlri S_Nlri M_Cap M_Open M_Session M_Addrs M_Attr S_Hop.

Definition announcement_with (c : N) (afi sf : N) (h : hop) (r : list N) : list N :=
  be_bytes 2 afi ++ [sf; N.of_nat (length (hop_wire h))] ++ hop_wire h ++ [c] ++ r.
(** what is left of [r] behind [c] SNPAs, if there are so many *)
Fixpoint behind_snpas (c : nat) (r : list N) : option (list N) :=
  match c, r with
  | O, _ => Some r
  | S c', l :: r' => if Nat.leb (N.to_nat l) (length r') then behind_snpas c' (skipn (N.to_nat l) r') else None
  | S _, [] => None
  end.
