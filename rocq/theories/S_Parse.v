(** Specification of the texts that are read as IPv6 addresses, prefixes, networks and MDT routes. *)
From Verif Require Import Base M_Prefix S_Prefix M_Nlri S_Nlri M_Vpls S_Text.

(** ** IPv6 addresses (RFC 4291 2.2) *)
(** one to four hexadecimal digits *)
Definition group (s : list N) (g : N) : Prop := numeral 16 s g /\ (length s <= 4)%nat.
(** groups between colons *)
Definition groups (s : list N) (gs : list N) : Prop := exists ps, parts (eq 58) s ps /\ Forall2 group ps gs.
(** groups between colons, the last two written as an IPv4 address *)
Definition groups4 (s : list N) (gs : list N) : Prop := exists ps hs q a, parts (eq 58) s (ps ++ [q]) /\ Forall2 group ps hs /\ ipv4_text q a /\
  gs = hs ++ [a / 65536; a mod 65536].
(** nothing, or groups *)
Definition some_groups (R : list N -> list N -> Prop) (s gs : list N) : Prop := s = [] /\ gs = [] \/ R s gs.
(** all eight groups, or [::] in place of one or more groups of zeros *)
Definition ipv6_groups (s gs : list N) : Prop :=
  ((groups s gs \/ groups4 s gs) /\ length gs = 8%nat) \/
  exists h hs t ts z, s = h ++ 58 :: 58 :: t /\ some_groups groups h hs /\ (some_groups groups t ts \/ groups4 t ts) /\
    gs = hs ++ repeat 0 (S z) ++ ts /\ length gs = 8%nat.
Definition ipv6_text (s : list N) (a : N) : Prop := exists gs, ipv6_groups s gs /\ a = digits_value 65536 gs.

(** ** MAC addresses: the hexadecimal digits of the text, whatever is between them; the last twelve count *)
Definition mac_digits_text (s : list N) (m : mac) : Prop := exists ds, hex_digits s ds /\ ds <> [] /\ m = rev (be_bytes 6 (digits_value 16 ds)).

(** ** Prefixes: an address, or an address before a slash; what follows the slash is the length if it is a number below 256,
    and ignored otherwise; what follows a second slash is ignored *)
Definition prefix_text {A} (addr : list N -> A -> Prop) (host : N) (s : list N) (a : A) (len : N) : Prop :=
  exists h ps, parts (eq 47) s (h :: ps) /\ addr h a /\
  match ps with
  | [] => len = host
  | l :: _ => uint_text 8 l len \/ (forall v, ~ uint_text 8 l v) /\ len = host
  end.
(** a network: an IPv4 prefix, or else an IPv6 prefix, or else a MAC prefix *)
Definition net_text (s : list N) (n : bgpnet) : Prop :=
  match n with
  | NetV4 p => prefix_text ipv4_text 32 s (v4_addr p) (v4_len p)
  | NetV6 p => prefix_text ipv6_text 128 s (v6_addr p) (v6_len p)
  | NetMac p => prefix_text mac_digits_text 48 s (mc_addr p) (mc_len p) /\
                (forall a l, ~ prefix_text ipv4_text 32 s a l) /\ (forall a l, ~ prefix_text ipv6_text 128 s a l)
  end.
(** two texts at either side of the only [@] *)
Definition at_text {A B} (P : list N -> A -> Prop) (Q : list N -> B -> Prop) (s : list N) (a : A) (b : B) : Prop :=
  exists x y, parts (eq 64) s [x; y] /\ P x a /\ Q y b.

(** ** Every text is answered: with a value or with an error message *)
Definition answers {A} (r : res A) : Prop := (exists a, r = Ok a) \/ r = Err EOther.
