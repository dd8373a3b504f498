(** Model of small public helpers: [BgpItem::prefixlen] (/repo/src/afi/mod.rs:40 and its implementations), [BgpAddrV6::is_multicast] and
    [util::slice]. *)
From Verif Require Import Base M_Util M_Prefix M_Nlri M_Vpls M_Flowspec.

(** ipv4.rs:194-196 *)
Definition v4_prefixlen (p : addrV4) : N := v4_len p.
(** ipv6.rs:203-205 *)
Definition v6_prefixlen (p : addrV6) : N := v6_len p.
(** afi/mod.rs:495-497 *)
Definition labels_prefixlen (v : list N) : N := N.of_nat (length v) * 24.
(** afi/mod.rs:561-563 *)
Definition labeled_prefixlen {T} (f : T -> N) (x : labeled T) : N := labels_prefixlen (lab_labels x) + f (lab_prefix x).
(** afi/mod.rs:626-628 *)
Definition withrd_prefixlen {T} (f : T -> N) (x : withRd T) : N := 64 + f (wrd_prefix x).
(** mdt.rs:108-110 *)
Definition mdt4_prefixlen (x : mdtV4) : N := v4_len (mdt4_addr x).
(** mdt.rs:209-211 *)
Definition mdt6_prefixlen (x : mdtV6) : N := v6_len (mdt6_addr x).
(** ipv6.rs:137-139 *)
Definition v6_is_multicast (p : addrV6) : bool := nth 0 (octets16 (v6_addr p)) 0 =? 255.
(** util.rs:111-117; [slice_mut], 119-125, differs in the mutability only *)
Definition util_slice {T} (buf : list T) (start stop : nat) : res (list T) :=
  if (Nat.leb start stop && Nat.leb stop (length buf))%bool then Ok (firstn (stop - start) (skipn start buf)) else Err EInsufficient.
