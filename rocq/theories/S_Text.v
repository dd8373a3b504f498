(** Specification of text forms. A text is a list of characters (code points). *)
From Coq Require Import Ascii String.
From Verif Require Import Base S_Prefix M_Prefix S_Nlri M_Nlri M_Attr M_Vpls.

(** ** Numerals *)

(** [c] is a digit of value [d]; letters of either case *)
Definition is_digit (radix c d : N) : Prop :=
  d < radix /\ (d < 10 /\ c = 48 + d \/ 10 <= d /\ (c = 97 + (d - 10) \/ c = 65 + (d - 10))).
(** [s] is a numeral of value [v] *)
Definition digits_value (radix : N) (ds : list N) : N := fold_left (fun acc d => acc * radix + d) ds 0.
Definition numeral (radix : N) (s : list N) (v : N) : Prop :=
  exists ds, Forall2 (is_digit radix) s ds /\ ds <> [] /\ v = digits_value radix ds.
(** without leading zeros or capital letters *)
Definition canonical (radix : N) (s : list N) (v : N) : Prop :=
  numeral radix s v /\ (forall s', s = 48 :: s' -> s' = []) /\ Forall (fun c => c < 65 \/ 90 < c) s.
(** what is accepted for an integer of [w] bits: a numeral that fits, after an optional plus sign *)
Definition uint_text (w : N) (s : list N) (v : N) : Prop :=
  v < 2 ^ w /\ (numeral 10 s v \/ exists s', s = 43 :: s' /\ numeral 10 s' v).

(** ** Parts of texts *)

(** [ps] are the parts of [s] between separators *)
Inductive parts (sep : N -> Prop) : list N -> list (list N) -> Prop :=
| parts_one s : Forall (fun c => ~ sep c) s -> parts sep s [s]
| parts_more p c s ps : Forall (fun c => ~ sep c) p -> sep c -> parts sep s ps -> parts sep (p ++ c :: s) (p :: ps).
(** the characters of Unicode property White_Space *)
Definition white (c : N) : Prop :=
  In c [9; 10; 11; 12; 13; 32; 0x85; 0xa0; 0x1680; 0x2000; 0x2001; 0x2002; 0x2003; 0x2004; 0x2005; 0x2006; 0x2007; 0x2008; 0x2009; 0x200a;
        0x2028; 0x2029; 0x202f; 0x205f; 0x3000].
(** [t] is [s] without white space at both ends *)
Definition trimmed (s t : list N) : Prop :=
  exists l r, s = l ++ t ++ r /\ Forall white l /\ Forall white r /\ (forall c t', t = c :: t' -> ~ white c) /\ (forall c t', t = t' ++ [c] -> ~ white c).

(** ** Communities *)

(** string literals *)
Fixpoint lit (s : string) : list N :=
  match s with EmptyString => [] | String c s' => N_of_ascii c :: lit s' end.
Definition well_known : list (list N * N) :=
  [(lit "no_export", 0xffffff01); (lit "noexport", 0xffffff01); (lit "no-export", 0xffffff01);
   (lit "no_advertise", 0xffffff02); (lit "no-advertise", 0xffffff02); (lit "no_export_subconfed", 0xffffff03);
   (lit "nopeer", 0xffffff04); (lit "no-peer", 0xffffff04)].
(** the texts of community [c] *)
Definition community_text (s : list N) (c : N) : Prop :=
  In (s, c) well_known \/
  exists t, trimmed s t /\
    (uint_text 32 t c \/ exists h l hv lv, t = h ++ 58 :: l /\ uint_text 16 h hv /\ uint_text 16 l lv /\ c = hv * 65536 + lv).
(** the one that is displayed *)
Definition community_display (s : list N) (c : N) : Prop :=
  In (s, c) [(lit "no_export", 0xffffff01); (lit "no_advertise", 0xffffff02); (lit "no_export_subconfed", 0xffffff03); (lit "nopeer", 0xffffff04)] \/
  ~ In c [0xffffff01; 0xffffff02; 0xffffff03; 0xffffff04] /\
  exists h l, s = h ++ 58 :: l /\ canonical 10 h (c / 65536) /\ canonical 10 l (c mod 65536).
(** what separates the communities of a list *)
Definition list_separator (c : N) : Prop := c = 44 \/ c = 32 \/ c = 9.

(** ** Route distinguishers *)

(** type 1, administrator field an IPv4 address (RFC 4364 4.2) *)
Definition rd_type1 (r : bgpRD) : Prop := rdh r / 65536 = 1.
Definition rd_text (s : list N) (r : bgpRD) : Prop :=
  exists ps, parts (eq 58) s ps /\
    match ps with
    | [p] => uint_text 32 p (rdh r) /\ rdl r = 0
    | p :: q :: _ => uint_text 32 p (rdh r) /\ uint_text 32 q (rdl r)
    | [] => False
    end.

(** ** Addresses *)

(** the hexadecimal digits of a text, in order *)
Inductive hex_digits : list N -> list N -> Prop :=
| hd_nil : hex_digits [] []
| hd_digit c d s ds : is_digit 16 c d -> hex_digits s ds -> hex_digits (c :: s) (d :: ds)
| hd_other c s ds : (forall d, ~ is_digit 16 c d) -> hex_digits s ds -> hex_digits (c :: s) ds.
(** two lower case hexadecimal digits *)
Definition hex2 (s : list N) (b : N) : Prop := exists c d, s = [c; d] /\ numeral 16 s b /\ Forall (fun c => c < 65 \/ 90 < c) s.
(** the octets in network order, between colons *)
Definition mac_text (s : list N) (m : mac) : Prop :=
  exists a b c d e f a' b' c' d' e' f', m = [f'; e'; d'; c'; b'; a'] /\ s = a ++ 58 :: b ++ 58 :: c ++ 58 :: d ++ 58 :: e ++ 58 :: f /\
    hex2 a a' /\ hex2 b b' /\ hex2 c c' /\ hex2 d d' /\ hex2 e e' /\ hex2 f f'.
(** dotted decimal *)
Definition ipv4_text (s : list N) (a : N) : Prop :=
  exists s0 s1 s2 s3 b0 b1 b2 b3, s = s0 ++ 46 :: s1 ++ 46 :: s2 ++ 46 :: s3 /\
    canonical 10 s0 b0 /\ canonical 10 s1 b1 /\ canonical 10 s2 b2 /\ canonical 10 s3 b3 /\ bytes_ok [b0; b1; b2; b3] /\ a = be_val [b0; b1; b2; b3].

(** ** Prefixes: any length that the octet can hold *)
Definition v4_any (p : addrV4) : Prop := v4_addr p < 2 ^ 32 /\ v4_len p < 256.
Definition v6_any (p : addrV6) : Prop := v6_addr p < 2 ^ 128 /\ v6_len p < 256.
Definition macp_any (p : addrMac) : Prop := mac_wf (mc_addr p) /\ mc_len p < 256.
Definition net_any (n : bgpnet) : Prop := match n with NetV4 p => v4_any p | NetV6 p => v6_any p | NetMac p => macp_any p end.
(** a length that is not one *)
Definition no_length (l : list N) : Prop := ~ In 47 l /\ forall v, ~ uint_text 8 l v.
