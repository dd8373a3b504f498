(** Model of text forms ([Display], [FromStr]): /repo/src/message/attributes/community.rs, aspath.rs, /repo/src/afi/mac.rs, mod.rs,
    ipv4.rs, ipv6.rs, mdt.rs.

    A [&str] is its sequence of characters (code points). The functions of the Rust standard library used there
    ([Display] and [FromStr] of integers, [Ipv4Addr] and [Ipv6Addr], [trim], [split], [to_digit]) are not part of /repo; they are
    modelled after the library's sources (core/src/num/mod.rs, core/src/net/parser.rs, core/src/net/ip_addr.rs). *)
From Coq Require Import Ascii String.
From Verif Require Import Base M_Util M_Prefix M_Nlri M_Vpls M_Attr.

(** ** The standard library *)

(** [&str], e.g. afi/mod.rs:342 *)
Definition text := list N.

(** string literals (e.g. community.rs:203-209) *)
Fixpoint txt (s : string) : text :=
  match s with EmptyString => [] | String c s' => N_of_ascii c :: txt s' end.
(** equality of strings, as used by [match] on string constants (community.rs:203-209) *)
Fixpoint text_eqb (a b : text) : bool :=
  match a, b with
  | [], [] => true
  | x :: a', y :: b' => (x =? y) && text_eqb a' b'
  | _, _ => false
  end.

(** [char::to_digit] (mac.rs:97-105) *)
Definition to_digit (radix c : N) : option N :=
  let d := if (48 <=? c) && (c <=? 57) then c - 48
           else if (97 <=? c) && (c <=? 122) then c - 87
           else if (65 <=? c) && (c <=? 90) then c - 55
           else 36 in
  if d <? radix then Some d else None.
(** the digit [d], in lower case (mac.rs:67-80) *)
Definition digit_char (d : N) : N := if d <? 10 then 48 + d else 87 + d.

(** [{}] and [{:x}] of unsigned integers: digits of [n] before [acc] (afi/mod.rs:365-381) *)
Fixpoint fmt_digits (radix : N) (fuel : nat) (n : N) (acc : text) : text :=
  match fuel with
  | O => acc
  | S fuel' =>
      let acc' := digit_char (n mod radix) :: acc in
      if n / radix =? 0 then acc' else fmt_digits radix fuel' (n / radix) acc'
  end.
(** the whole numeral, e.g. afi/mod.rs:365-381 *)
Definition fmt_radix (radix n : N) : text := fmt_digits radix (S (N.size_nat n)) n [].
(** [{}], e.g. afi/mod.rs:365-381 *)
Definition fmt_dec (n : N) : text := fmt_radix 10 n.
(** [{:x}], used by ip_addr.rs of the library and mac.rs:67-80 *)
Definition fmt_hex (n : N) : text := fmt_radix 16 n.
(** [{:02x}] (mac.rs:67-80) *)
Definition fmt_hex2 (n : N) : text :=
  let s := fmt_hex n in repeat 48 (2 - length s) ++ s.

(** [str::parse] for unsigned integers of [w] bits: an optional plus sign, then at least one digit; no overflow (afi/mod.rs:339-356) *)
Fixpoint parse_digits (w : N) (acc : N) (s : text) : res N :=
  match s with
  | [] => Ok acc
  | c :: s' =>
      match to_digit 10 c with
      | Some d => if acc * 10 + d <? 2 ^ w then parse_digits w (acc * 10 + d) s' else Err EOther
      | None => Err EOther
      end
  end.
(** the sign, then the digits; e.g. afi/mod.rs:339-356 *)
Definition parse_uint (w : N) (s : text) : res N :=
  match s with
  | [] => Err EOther
  | [c] => match to_digit 10 c with Some _ => parse_digits w 0 s | None => Err EOther end
  | c :: s' => if c =? 43 then parse_digits w 0 s' else parse_digits w 0 s
  end.

(** [str::split] by a predicate on characters: at least one part (community.rs:267-280) *)
Fixpoint split_by (p : N -> bool) (s : text) : list text :=
  match s with
  | [] => [[]]
  | c :: s' =>
      if p c then [] :: split_by p s'
      else match split_by p s' with part :: parts => (c :: part) :: parts | [] => [[c]] end
  end.
(** [str::split] by a character (community.rs:211, afi/mod.rs:343) *)
Definition split_on (c : N) (s : text) : list text := split_by (N.eqb c) s.

(** [char::is_whitespace]: the Unicode property [White_Space] (community.rs:211) *)
Definition is_white (c : N) : bool :=
  ((9 <=? c) && (c <=? 13)) || (c =? 32) || (c =? 0x85) || (c =? 0xa0) || (c =? 0x1680) || ((0x2000 <=? c) && (c <=? 0x200a))
  || (c =? 0x2028) || (c =? 0x2029) || (c =? 0x202f) || (c =? 0x205f) || (c =? 0x3000).
(** white space at the start; community.rs:211 *)
Fixpoint trim_start (s : text) : text :=
  match s with c :: s' => if is_white c then trim_start s' else s | [] => [] end.
(** [str::trim] (community.rs:211) *)
Definition trim (s : text) : text := rev (trim_start (rev (trim_start s))).

(** [slice::join] as the address formatters do it (core/src/net/ip_addr.rs) *)
Fixpoint joined (sep : N) (l : list text) : text :=
  match l with
  | [] => []
  | [s] => s
  | s :: l' => s ++ sep :: joined sep l'
  end.

(** core/src/net/parser.rs: a parser returns its value and the remaining text; on [None] nothing is consumed
    ([read_atomically]) *)
Definition parser (A : Type) := text -> option (A * text).
(** parser.rs [read_given_char] *)
Definition read_char (c : N) : parser unit :=
  fun s => match s with x :: s' => if x =? c then Some (tt, s') else None | [] => None end.
(** parser.rs [read_separator] *)
Definition read_separator {A} (sep : N) (index : nat) (inner : parser A) : parser A :=
  fun s => match index with O => inner s | S _ => match read_char sep s with Some (_, s') => inner s' | None => None end end.
(** the loop of parser.rs [read_number]: value, count of digits, rest *)
Fixpoint read_digits (radix : N) (max count : nat) (acc : N) (s : text) : option (N * nat * text) :=
  match s with
  | [] => Some (acc, count, s)
  | c :: s' =>
      match to_digit radix c with
      | Some d => if Nat.ltb max (S count) then None else read_digits radix max (S count) (acc * radix + d) s'
      | None => Some (acc, count, s)
      end
  end.
(** parser.rs [read_number] for a type of [w] bits *)
Definition read_number (w radix : N) (max : nat) (zero_prefix : bool) : parser N :=
  fun s =>
    match read_digits radix max 0 0 s with
    | None => None
    | Some (v, count, rest) =>
        if Nat.eqb count 0 then None
        else if negb zero_prefix && (match s with c :: _ => c =? 48 | [] => false end) && Nat.ltb 1 count then None
        else if v <? 2 ^ w then Some (v, rest) else None
    end.
(** parser.rs [read_ipv4_addr] *)
Definition read_octet (index : nat) : parser N := read_separator 46 index (read_number 8 10 3 false).
(** parser.rs [read_ipv4_addr] *)
Definition read_ipv4 : parser N :=
  fun s =>
    match read_octet 0 s with None => None | Some (a, s) =>
    match read_octet 1 s with None => None | Some (b, s) =>
    match read_octet 2 s with None => None | Some (c, s) =>
    match read_octet 3 s with None => None | Some (d, s) => Some (ip4_new a b c d, s)
    end end end end.
(** parser.rs [read_groups]: up to [limit - i] more groups; the groups, whether they end in an IPv4 address, the rest *)
Fixpoint read_groups (left i : nat) (s : text) : list N * bool * text :=
  match left with
  | O => ([], false, s)
  | S left' =>
      match (match left' with O => None | S _ => read_separator 58 i read_ipv4 s end) with
      | Some (a, s') => ([N.shiftr a 16; N.land a 0xffff], true, s')
      | None =>
          match read_separator 58 i (read_number 16 16 4 true) s with
          | Some (g, s') => let '(gs, v4, rest) := read_groups left' (S i) s' in (g :: gs, v4, rest)
          | None => ([], false, s)
          end
      end
  end.
(** parser.rs [read_ipv6_addr] *)
Definition read_ipv6 : parser N :=
  fun s =>
    let '(head, head_v4, s1) := read_groups 8 0 s in
    if Nat.eqb (length head) 8 then Some (ip6_new head, s1)
    else if head_v4 then None
    else match read_char 58 s1 with None => None | Some (_, s2) =>
         match read_char 58 s2 with None => None | Some (_, s3) =>
           let '(tail, _, s4) := read_groups (8 - (length head + 1)) 0 s3 in
           Some (ip6_new (head ++ repeat 0 (8 - length tail - length head) ++ tail), s4)
         end end.
(** parser.rs [parse_with] *)
Definition parse_with {A} (p : parser A) (s : text) : res A :=
  match p s with Some (a, []) => Ok a | _ => Err EOther end.
(** [FromStr] of [Ipv4Addr] and [Ipv6Addr] (ipv4.rs:172-185) *)
Definition parse_ipv4 (s : text) : res N := if Nat.ltb 15 (length s) then Err EOther else parse_with read_ipv4 s.
(** [FromStr] of [Ipv6Addr], ipv6.rs:181-194 *)
Definition parse_ipv6 (s : text) : res N := parse_with read_ipv6 s.

(** ip_addr.rs [Display] of [Ipv4Addr] *)
Definition fmt_ipv4 (a : N) : text := joined 46 (map fmt_dec (octets4 a)).
(** [Ipv6Addr::segments] (core/src/net/ip_addr.rs) *)
Definition segments (a : N) : list N := map (fun k => N.shiftr a (16 * k) mod 65536) [7; 6; 5; 4; 3; 2; 1; 0].
(** ip_addr.rs: the first longest run of zero segments, as start and length *)
Fixpoint zero_span (l : list N) (i : nat) (cur longest : nat * nat) : nat * nat :=
  match l with
  | [] => longest
  | g :: l' =>
      if g =? 0 then
        let cur := (if Nat.eqb (snd cur) 0 then i else fst cur, S (snd cur)) in
        zero_span l' (S i) cur (if Nat.ltb (snd longest) (snd cur) then cur else longest)
      else zero_span l' (S i) (O, O) longest
  end.
(** ip_addr.rs [fmt_subslice] *)
Definition fmt_groups (l : list N) : text := joined 58 (map fmt_hex l).
(** ip_addr.rs [Display] of [Ipv6Addr]; [Debug] is the same *)
Definition fmt_ipv6 (a : N) : text :=
  let seg := segments a in
  if N.shiftr a 32 =? 0xffff then txt "::ffff:" ++ fmt_ipv4 (a mod 2 ^ 32)
  else
    let '(start, len) := zero_span seg 0 (O, O) (O, O) in
    if Nat.ltb 1 len then fmt_groups (firstn start seg) ++ txt "::" ++ fmt_groups (skipn (start + len) seg)
    else fmt_groups seg.

(** ** Communities *)

(** community.rs:17-23 *)
Definition NO_EXPORT : N := 0xffffff01.
(** community.rs:17-23 *)
Definition NO_ADVERTISE : N := 0xffffff02.
(** community.rs:17-23 *)
Definition NO_EXPORT_SUBCONFED : N := 0xffffff03.
(** community.rs:17-23 *)
Definition NOPEER : N := 0xffffff04.
(** community.rs:184-199, strings of 145-152 *)
Definition community_fmt (c : N) : text :=
  if c =? NO_EXPORT then txt "no_export"
  else if c =? NO_ADVERTISE then txt "no_advertise"
  else if c =? NO_EXPORT_SUBCONFED then txt "no_export_subconfed"
  else if c =? NOPEER then txt "nopeer"
  else fmt_dec (cast 16 (N.shiftr c 16)) ++ txt ":" ++ fmt_dec (cast 16 (N.land c 0xffff)).
(** community.rs:203-209 *)
Definition community_name (s : text) : option N :=
  if text_eqb s (txt "no_export") || text_eqb s (txt "noexport") || text_eqb s (txt "no-export") then Some NO_EXPORT
  else if text_eqb s (txt "no_advertise") || text_eqb s (txt "no-advertise") then Some NO_ADVERTISE
  else if text_eqb s (txt "no_export_subconfed") then Some NO_EXPORT_SUBCONFED
  else if text_eqb s (txt "nopeer") || text_eqb s (txt "no-peer") then Some NOPEER
  else None.
(** community.rs:200-224 *)
Definition community_parse (s : text) : res N :=
  match community_name s with
  | Some c => Ok c
  | None =>
      let parts := split_on 58 (trim s) in
      if Nat.ltb (length parts) 2 then p <- idx parts 0 ;; parse_uint 32 p
      else if Nat.ltb (length parts) 3 then
        p0 <- idx parts 0 ;; h <- parse_uint 16 p0 ;; p1 <- idx parts 1 ;; l <- parse_uint 16 p1 ;; Ok (N.lor (N.shiftl h 16) l)
      else parse_uint 32 s
  end.
(** community.rs:267-280 *)
Definition is_separator (c : N) : bool := (c =? 44) || (c =? 32) || (c =? 9).
(** community.rs:267-280 *)
Definition community_list_parse (s : text) : res (list N) :=
  Ok (fold_left (fun v p => match community_parse p with Ok c => bset_insert N.compare c v | _ => v end) (split_by is_separator s) []).
(** community.rs:91-95 *)
Definition large_fmt (c : lcomm) : text :=
  fmt_dec (lc_ga c) ++ txt ":" ++ fmt_dec (lc_1 c) ++ txt ":" ++ fmt_dec (lc_2 c).

(** ** AS numbers *)

(** aspath.rs:72-80 *)
Definition as_fmt (v : N) : text := if N.land v 0xffff =? 0 then fmt_dec (N.shiftr v 16) else fmt_dec v.

(** ** Route distinguishers *)

(** afi/mod.rs:365-381 *)
Definition rd_fmt (r : bgpRD) : text :=
  if N.shiftr (rdh r) 16 =? 1 then
    fmt_dec (N.land (N.shiftr (rdh r) 8) 255) ++ txt "." ++ fmt_dec (N.land (rdh r) 255) ++ txt "." ++
    fmt_dec (N.land (N.shiftr (rdl r) 24) 255) ++ txt "." ++ fmt_dec (N.land (N.shiftr (rdl r) 16) 255) ++ txt ":" ++
    fmt_dec (N.land (rdl r) 0xffff)
  else fmt_dec (rdh r) ++ txt ":" ++ fmt_dec (rdl r).
(** afi/mod.rs:339-356 *)
Definition rd_parse (s : text) : res bgpRD :=
  let parts := split_on 58 s in
  if Nat.ltb (length parts) 2 then p <- idx parts 0 ;; h <- parse_uint 32 p ;; Ok (mkRD h 0)
  else p0 <- idx parts 0 ;; h <- parse_uint 32 p0 ;; p1 <- idx parts 1 ;; l <- parse_uint 32 p1 ;; Ok (mkRD h l).

(** ** MAC addresses *)

(** mac.rs:67-80 *)
Definition mac_fmt (m : mac) : text :=
  fmt_hex2 (nth 5 m 0) ++ txt ":" ++ fmt_hex2 (nth 4 m 0) ++ txt ":" ++ fmt_hex2 (nth 3 m 0) ++ txt ":" ++
  fmt_hex2 (nth 2 m 0) ++ txt ":" ++ fmt_hex2 (nth 1 m 0) ++ txt ":" ++ fmt_hex2 (nth 0 m 0).
(** mac.rs:97-105: the loop; value and count of digits ([cnt += 1] cannot overflow: it counts characters) *)
Fixpoint mac_digits (s : text) (v : N) (cnt : nat) : N * nat :=
  match s with
  | [] => (v, cnt)
  | c :: s' =>
      match to_digit 16 c with
      | Some d => mac_digits s' (N.lor (cast 64 (N.shiftl v 4)) d) (S cnt)
      | None => mac_digits s' v cnt
      end
  end.
(** mac.rs:94-111 *)
Definition mac_parse (s : text) : res mac :=
  let '(v, cnt) := mac_digits s 0 0 in if Nat.ltb cnt 1 then Err EOther else Ok (mac_from_u64 v).

(** ** Prefixes *)

(** [unwrap_or] (ipv4.rs:182) *)
Definition unwrap_or {A} (x : res A) (d : A) : A := match x with Ok a => a | _ => d end.
(** the common shape of ipv4.rs:172-185, ipv6.rs:181-194 and mac.rs:205-218 *)
Definition prefix_parse {A} (addr : text -> res A) (host : N) (s : text) : res (A * N) :=
  let parts := split_on 47 s in
  if Nat.ltb (length parts) 2 then p <- idx parts 0 ;; a <- addr p ;; Ok (a, host)
  else p0 <- idx parts 0 ;; a <- addr p0 ;; p1 <- idx parts 1 ;; Ok (a, unwrap_or (parse_uint 8 p1) host).
(** ipv4.rs:169-186, 198-202 *)
Definition v4_parse (s : text) : res addrV4 := '(a, l) <- prefix_parse parse_ipv4 32 s ;; Ok (mkV4 a l).
(** ipv4.rs:198-202 *)
Definition v4_fmt (p : addrV4) : text := fmt_ipv4 (v4_addr p) ++ txt "/" ++ fmt_dec (v4_len p).
(** ipv6.rs:178-195, 207-211 *)
Definition v6_parse (s : text) : res addrV6 := '(a, l) <- prefix_parse parse_ipv6 128 s ;; Ok (mkV6 a l).
(** ipv6.rs:207-211 *)
Definition v6_fmt (p : addrV6) : text := fmt_ipv6 (v6_addr p) ++ txt "/" ++ fmt_dec (v6_len p).
(** mac.rs:202-219, 220-224 *)
Definition macp_parse (s : text) : res addrMac := '(a, l) <- prefix_parse mac_parse 48 s ;; Ok (mkMac a l).
(** mac.rs:220-224 *)
Definition macp_fmt (p : addrMac) : text := mac_fmt (mc_addr p) ++ txt "/" ++ fmt_dec (mc_len p).
(** afi/mod.rs:101-113 *)
Definition net_parse (s : text) : res bgpnet :=
  match v4_parse s with
  | Ok p => Ok (NetV4 p)
  | _ => match v6_parse s with Ok p => Ok (NetV6 p) | _ => p <- macp_parse s ;; Ok (NetMac p) end
  end.
(** afi/mod.rs:114-122; the text is also the serialised form (123-131, 136-157) *)
Definition net_fmt (n : bgpnet) : text :=
  match n with NetV4 p => v4_fmt p | NetV6 p => v6_fmt p | NetMac p => macp_fmt p end.

(** ** MDT *)

(** mdt.rs:47-60, 112-116 *)
Definition mdt4_parse (s : text) : res mdtV4 :=
  let parts := split_on 64 s in
  if negb (Nat.eqb (length parts) 2) then Err EOther
  else p0 <- idx parts 0 ;; a <- v4_parse p0 ;; p1 <- idx parts 1 ;; g <- parse_ipv4 p1 ;; Ok (mkMdt4 a g).
(** mdt.rs:112-116 *)
Definition mdt4_fmt (m : mdtV4) : text := v4_fmt (mdt4_addr m) ++ txt "@" ++ fmt_ipv4 (mdt4_group m).
(** mdt.rs:148-161, 213-217 *)
Definition mdt6_parse (s : text) : res mdtV6 :=
  let parts := split_on 64 s in
  if negb (Nat.eqb (length parts) 2) then Err EOther
  else p0 <- idx parts 0 ;; a <- v6_parse p0 ;; p1 <- idx parts 1 ;; g <- parse_ipv6 p1 ;; Ok (mkMdt6 a g).
(** mdt.rs:213-217 *)
Definition mdt6_fmt (m : mdtV6) : text := v6_fmt (mdt6_addr m) ++ txt "@" ++ fmt_ipv6 (mdt6_group m).
