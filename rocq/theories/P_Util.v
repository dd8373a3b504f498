(** C01: network-order integers and IP addresses survive the buffer. *)
From Verif Require Import Base M_Util S_Wire F_Util F_Prefix2.

(** Storing a u16 writes exactly its two octets, leaves the rest alone, and it can be read back. *)
Theorem C01_u16 : forall s buf, s < 2 ^ 16 -> (2 <= length buf)%nat ->
  exists bs, net_repr 2 s bs /\ setn_u16 s buf = Ok (tt, bs ++ skipn 2 buf) /\
    getn_u16 (bs ++ skipn 2 buf) = Ok s.
Proof. exact C01_u16_l. Qed.
Print Assumptions C01_u16.

Theorem C01_u32 : forall s buf, s < 2 ^ 32 -> (4 <= length buf)%nat ->
  exists bs, net_repr 4 s bs /\ setn_u32 s buf = Ok (tt, bs ++ skipn 4 buf) /\
    getn_u32 (bs ++ skipn 4 buf) = Ok s.
Proof. exact C01_u32_l. Qed.
Print Assumptions C01_u32.

Theorem C01_u64 : forall s buf, s < 2 ^ 64 -> (8 <= length buf)%nat ->
  exists bs, net_repr 8 s bs /\ setn_u64 s buf = Ok (tt, bs ++ skipn 8 buf) /\
    getn_u64 (bs ++ skipn 8 buf) = Ok s.
Proof. exact C01_u64_l. Qed.
Print Assumptions C01_u64.

(** Readers return the big-endian value of the leading octets of any byte string. *)
Theorem C01_readers : forall l, bytes_ok l -> (16 <= length l)%nat ->
  getn_u128 l = Ok (be_val (firstn 16 l)) /\ getn_u64 l = Ok (be_val (firstn 8 l)) /\
  getn_u32 l = Ok (be_val (firstn 4 l)) /\ getn_u16 l = Ok (be_val (firstn 2 l)).
Proof. exact C01_u128_l. Qed.
Print Assumptions C01_readers.

(** Addresses: [Err] on a short buffer, otherwise exact octets, count and frame; and back. *)
Theorem C01_addr_encode : forall a buf, ip_wf a ->
  let k := match a with IPv4 _ => 4%nat | IPv6 _ => 16%nat end in
  let v := match a with IPv4 v => v | IPv6 v => v end in
  if Nat.ltb (length buf) k then encode_addr_to a buf = Err EOther
  else exists bs, net_repr k v bs /\ encode_addr_to a buf = Ok (k, bs ++ skipn k buf) /\
         decode_addr_from bs = Ok a.
Proof. exact C01_addr_l. Qed.
Print Assumptions C01_addr_encode.

(** Decoding an address never panics; it succeeds exactly on 4 or 16 octets and returns their value. *)
Theorem C01_addr_decode : forall l, bytes_ok l ->
  (decode_addr_from l = Err EOther /\ length l <> 4%nat /\ length l <> 16%nat) \/
  (exists a, decode_addr_from l = Ok a /\ ip_wf a /\
     net_repr (match a with IPv4 _ => 4 | IPv6 _ => 16 end) (match a with IPv4 v => v | IPv6 v => v end) l).
Proof. exact C01_addr_dec_l. Qed.
Print Assumptions C01_addr_decode.

(** The readers of a fixed kind: [Err] on a short buffer, otherwise the value of the leading octets. *)
Theorem C01_addrv4_decode : forall l, bytes_ok l ->
  if Nat.ltb (length l) 4 then decode_addrv4_from l = Err EOther
  else exists a, decode_addrv4_from l = Ok a /\ net_repr 4 a (firstn 4 l).
Proof. exact C01_v4_decode_l. Qed.
Print Assumptions C01_addrv4_decode.
Theorem C01_addrv6_decode : forall l, bytes_ok l ->
  if Nat.ltb (length l) 16 then decode_addrv6_from l = Err EOther
  else exists a, decode_addrv6_from l = Ok a /\ net_repr 16 a (firstn 16 l).
Proof. exact C01_v6_decode_l. Qed.
Print Assumptions C01_addrv6_decode.

Example C01_u32_ex : setn_u32 0x0a000102 [1;2;3;4;5;6] = Ok (tt, [10;0;1;2;5;6]).
Proof. vm_compute. reflexivity. Qed.
Example C01_addr_ex : encode_addr_to (IPv4 0xc0a80001) [9;9;9;9;9] = Ok (4%nat, [192;168;0;1;9])
  /\ decode_addr_from [192;168;0;1] = Ok (IPv4 0xc0a80001) /\ decode_addr_from [1;2;3] = Err EOther.
Proof. vm_compute. auto. Qed.
Example C01_addrv4_decode_ex : decode_addrv4_from [10;0;0] = Err EOther /\ decode_addrv4_from [10;0;0;7;9] = Ok 0x0a000007.
Proof. vm_compute. auto. Qed.
