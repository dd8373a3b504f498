(** Kinds of errors. *)
From Verif Require Import Base M_Util S_Wire M_Prefix S_Prefix M_Nlri S_Nlri M_Vpls M_Cap M_Open M_Session M_Mvpn S_Mvpn M_Evpn S_Evpn M_Flowspec S_Flowspec M_Addrs S_Addrs
  M_Attr S_Attr S_Attr2 S_Attr3 M_Update S_Exact S_Exact2 S_Panic.
(** an error of [r], if there is one, is one of these *)
Definition kinds {A} (P : err -> Prop) (r : res A) : Prop := forall e, r = Err e -> P e.
(** a message text ([Static], [DynStr], [Other]) *)
Definition message (e : err) : Prop := e = EOther.
Definition insufficient (e : err) : Prop := e = EInsufficient.
Definition plain (e : err) : Prop := insufficient e \/ message e.

(** ** Attributes of an UPDATE that do not fit the room announced for them *)
(** a whole header announces more octets than are left in the attribute area *)
Definition overruns (s : list N) : Prop :=
  exists f tc n r, s = [f; tc] ++ be_bytes (len_octets f) n ++ r /\ n <= len_max f /\ (length r < N.to_nat n)%nat.
(** the attribute area ends within a header, and that header is completed by the octets [nl] that follow the area *)
Definition straddles (nl s : list N) : Prop := s <> [] /\ cut_header s /\ ~ cut_header (s ++ nl).
(** after some number of attributes that can be read *)
Inductive area_overruns (oc : bool) (p : params) (nl : list N) : list N -> Prop :=
| ao_here s : overruns s \/ straddles nl s -> area_overruns oc p nl s
| ao_next f tc d s a : N.of_nat (length d) <= len_max f -> attr_reads oc p tc f (length d) d a -> area_overruns oc p nl s -> area_overruns oc p nl (frame f tc d ++ s).
(** the withdrawn routes can be read, and then the attributes are announced to be longer than the rest of the message or
    one of them is announced to be longer than the rest of the attributes *)
Definition update_overruns (oc : bool) (p : params) (b : list N) : Prop := exists w wd n r,
  b = be_bytes 2 (N.of_nat (length w)) ++ w ++ be_bytes 2 n ++ r /\ N.of_nat (length w) < 2 ^ 16 /\ n < 2 ^ 16 /\ plain_nlri oc p w wd /\
  ((length r < N.to_nat n)%nat \/ exists s nl, r = s ++ nl /\ length s = N.to_nat n /\ area_overruns oc p nl s).

(** ** Encoders *)
Definition ekinds {A} (P : err -> Prop) (e : Enc A) : Prop := forall buf, kinds P (e buf).
(** the EVPN routes of a route list, of an attribute *)
Definition evpn_routes (a : addrs) : list evpn := match a with EVPN v => v | _ => [] end.
Definition attr_routes (a : attr) : list evpn := match a with AMPUpdates _ a => evpn_routes a | AMPWithdraws a => evpn_routes a | _ => [] end.
(** a MAC address is of six octets, as its type in the code says *)
Definition mac6 (r : evpn) : Prop := match r with Ev2 r => length (ev2_mac r) = 6%nat | _ => True end.
(** more than the octet for the length of a route can tell *)
Definition evpn_long (r : evpn) : Prop := (255 < length (ev_body r))%nat.
(** the tests of a flow specification rule *)
Definition fs_tests {T} (r : flowspec T) : nat :=
  match r with
  | FsDst _ | FsSrc _ => 0
  | FsTcpFlags v | FsFragment v => length v
  | FsProto v | FsPortAny v | FsPortDst v | FsPortSrc v | FsIcmpType v | FsIcmpCode v | FsPacketLength v | FsDscp v | FsFlowLabel v => length v
  end.
