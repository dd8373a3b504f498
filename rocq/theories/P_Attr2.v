(** C37 (attributes, exact), C47 (SNPAs), C76-C78: PMSI tunnels, attribute sets, flag octets. *)
From Verif Require Import Base BaseFacts M_Util S_Wire M_Prefix M_Nlri S_Nlri M_Vpls M_Mvpn S_Mvpn M_Cap M_Open M_Session
  M_Addrs S_Addrs M_Attr S_Attr S_Attr2 F_Attr3.

(** C76: a PMSI tunnel attribute without a tunnel, with an RSVP-TE P2MP LSP, with an mLDP LSP rooted at an
    IPv4 address or with an ingress replication endpoint at an IPv4 address is decoded to its flags, label
    and identifier, whatever the four undefined bits below the label. *)
Theorem C76_decode_partial : forall oc p fl n flags label low t, label < 2 ^ 20 -> low < 16 -> tunnel_wf t ->
  (forall a o, t <> PtMLDP (IPv6 a) o) ->
  attr_decode oc p 22 fl n (pmsi_wire flags label low t) = Ok (APMSITunnel (mkPmsi flags (tunnel_type t) [label] t)).
Proof. exact C76_decode_l. Qed.
Print Assumptions C76_decode_partial.
(** An IPv6 endpoint is taken for the IPv4 address in its first four octets, *)
Theorem C76_ingress6_refuted : forall oc p fl n flags label low a, label < 2 ^ 20 -> low < 16 -> a < 2 ^ 128 ->
  attr_decode oc p 22 fl n ([flags; 6] ++ be_bytes 3 (label * 16 + low) ++ be_bytes 16 a) =
  Ok (APMSITunnel (mkPmsi flags 6 [label] (PtIngress (a / 2 ^ 96)))).
Proof. exact C76_ingress6_l. Qed.
Print Assumptions C76_ingress6_refuted.
(** an mLDP LSP rooted at an IPv6 address is refused, *)
Theorem C76_mldp6_refuted : forall oc p fl n flags label low a o, label < 2 ^ 20 -> low < 16 -> tunnel_wf (PtMLDP (IPv6 a) o) ->
  attr_decode oc p 22 fl n (pmsi_wire flags label low (PtMLDP (IPv6 a) o)) = Err EOther.
Proof. exact C76_mldp6_l. Qed.
Print Assumptions C76_mldp6_refuted.
(** and so is every other tunnel type, such as PIM-SSM (3), PIM-SM (4), BIDIR-PIM (5) and mLDP MP2MP (7). *)
Theorem C76_types_refuted : forall oc p fl n flags t b0 b1 b2 id, ~ In t [0; 1; 2; 6] -> b0 < 256 -> b1 < 256 -> b2 < 256 ->
  attr_decode oc p 22 fl n ([flags; t; b0; b1; b2] ++ id) = Err EOther.
Proof. exact C76_type_l. Qed.
Print Assumptions C76_types_refuted.
(** No tunnel can be sent: the encoder panics. *)
Theorem C76_encode_refuted : forall oc p t buf, attr_encode oc p (APMSITunnel t) buf = Panic.
Proof. exact (fun oc p t buf => enc_panics oc p _ buf (or_intror (ex_intro _ t eq_refl))). Qed.
Print Assumptions C76_encode_refuted.
Example C76_ex : let p := params_new 1 1 ModeV4 1 [] in
  tunnel_wf (PtMLDP (IPv4 167772161) [1; 2; 3]) /\ tunnel_wf (PtRSVP 1 0 7 9) /\
  pmsi_wire 1 1048575 5 (PtMLDP (IPv4 167772161) [1; 2; 3]) =
    [1; 2; 255; 255; 245; 6; 0; 1; 4; 10; 0; 0; 1; 0; 3; 1; 2; 3] /\
  attr_decode true p 22 192 9 (pmsi_wire 1 100 0 (PtRSVP 1 0 7 9)) = Ok (APMSITunnel (mkPmsi 1 1 [100] (PtRSVP 1 0 7 9))) /\
  attr_decode true p 22 192 21 ([0; 6; 0; 0; 16] ++ [32; 1; 13; 184] ++ repeat 0 12) =
    Ok (APMSITunnel (mkPmsi 0 6 [1] (PtIngress 536939960))).
Proof.
  cbv zeta. split; [|split; [|split; [|split]]]; try reflexivity.
  - split; [reflexivity|split; [discriminate|reflexivity]].
  - split; [reflexivity|split; [reflexivity|split; reflexivity]].
Qed.

(** C77: on a session with four-octet AS numbers an attribute set is decoded to its origin AS and, in order,
    the attributes it holds, each as it would be decoded outside the set; sets nest. *)
Theorem C77_decode_partial : forall oc p fl n asn fs v, sp_as32 p = true -> asn < 2 ^ 32 ->
  Forall2 (fun x a => raw_wf x /\ raw_decodes oc p x (Ok a)) fs v ->
  attr_decode oc p 128 fl n (be_bytes 4 asn ++ flat_map raw_wire fs) = Ok (AAttrSet asn v).
Proof. exact C77_decode_l. Qed.
Print Assumptions C77_decode_partial.
(** The first inner attribute that is not decoded decides the outcome of the whole, *)
Theorem C77_inner_failure : forall oc p fl n asn fs v x rest r, sp_as32 p = true -> asn < 2 ^ 32 ->
  Forall2 (fun x a => raw_wf x /\ raw_decodes oc p x (Ok a)) fs v ->
  raw_wf x -> raw_decodes oc p x r -> (forall a, r <> Ok a) ->
  attr_decode oc p 128 fl n (be_bytes 4 asn ++ flat_map raw_wire fs ++ raw_wire x ++ rest) = r.
Proof. exact C77_inner_l. Qed.
Print Assumptions C77_inner_failure.
(** an inner attribute whose length reaches beyond the set is refused, *)
Theorem C77_overrun : forall oc p fl n asn fs v f tc k body, sp_as32 p = true -> asn < 2 ^ 32 ->
  Forall2 (fun x a => raw_wf x /\ raw_decodes oc p x (Ok a)) fs v ->
  k <= len_max f -> N.of_nat (length body) < k ->
  attr_decode oc p 128 fl n (be_bytes 4 asn ++ flat_map raw_wire fs ++ [f; tc] ++ be_bytes (len_octets f) k ++ body) = Err EOther.
Proof. exact C77_overrun_l. Qed.
Print Assumptions C77_overrun.
(** as is a set too short for its AS number; *)
Theorem C77_short : forall oc p fl n buf, (length buf < 4)%nat -> attr_decode oc p 128 fl n buf = Err EOther.
Proof. exact C77_short_l. Qed.
Print Assumptions C77_short.
(** but a set that ends inside an inner header panics. *)
Theorem C77_cut_header_refuted : forall oc p fl n asn fs v t, sp_as32 p = true -> asn < 2 ^ 32 ->
  Forall2 (fun x a => raw_wf x /\ raw_decodes oc p x (Ok a)) fs v -> cut_header t ->
  attr_decode oc p 128 fl n (be_bytes 4 asn ++ flat_map raw_wire fs ++ t) = Panic.
Proof. exact C77_cut_l. Qed.
Print Assumptions C77_cut_header_refuted.
(** Nothing else can happen: every payload of at least four octets is one of these cases. *)
Theorem C77_cases : forall oc p fl n buf, sp_as32 p = true -> bytes_ok buf -> (4 <= length buf)%nat ->
  exists asn fs v t, buf = be_bytes 4 asn ++ flat_map raw_wire fs ++ t /\ asn < 2 ^ 32 /\
  Forall2 (fun x a => raw_wf x /\ raw_decodes oc p x (Ok a)) fs v /\
  (t = [] /\ attr_decode oc p 128 fl n buf = Ok (AAttrSet asn v) \/
   (exists x rest r, t = raw_wire x ++ rest /\ raw_wf x /\ raw_decodes oc p x r /\ (forall a, r <> Ok a) /\ attr_decode oc p 128 fl n buf = r) \/
   (exists f tc k body, t = [f; tc] ++ be_bytes (len_octets f) k ++ body /\ k <= len_max f /\ N.of_nat (length body) < k /\
      attr_decode oc p 128 fl n buf = Err EOther) \/
   (cut_header t /\ attr_decode oc p 128 fl n buf = Panic)).
Proof. exact C77_cases_l. Qed.
Print Assumptions C77_cases.
(** With two-octet AS numbers every set is refused, although RFC 6368 gives the set its own four-octet form, *)
Theorem C77_two_octet_refuted : forall oc p fl n buf, sp_as32 p = false -> attr_decode oc p 128 fl n buf = Err EOther.
Proof. exact C77_two_octet_l. Qed.
Print Assumptions C77_two_octet_refuted.
(** and no set can be sent: the encoder panics. *)
Theorem C77_encode_refuted : forall oc p asn v buf, attr_encode oc p (AAttrSet asn v) buf = Panic.
Proof. exact (fun oc p asn v buf => enc_panics oc p _ buf (or_introl (ex_intro _ asn (ex_intro _ v eq_refl)))). Qed.
Print Assumptions C77_encode_refuted.
Example C77_ex : let p := params_new 1 1 ModeV4 1 [] in
  let fs := [(64, 1, [0]); (80, 2, [2; 1; 0; 0; 0; 5]); (192, 128, [0; 0; 0; 7; 64; 5; 4; 0; 0; 0; 100])] in
  Forall2 (fun x a => raw_wf x /\ raw_decodes true p x (Ok a)) fs [AOrigin Igp; AASPath [5]; AAttrSet 7 [ALocalPref 100]] /\
  be_bytes 4 65001 ++ flat_map raw_wire fs =
    [0; 0; 253; 233; 64; 1; 1; 0; 80; 2; 0; 6; 2; 1; 0; 0; 0; 5; 192; 128; 11; 0; 0; 0; 7; 64; 5; 4; 0; 0; 0; 100] /\
  cut_header [64; 1] /\ cut_header [80; 2; 0].
Proof.
  cbv zeta. split; [|split; [|split]].
  - constructor; [split; [discriminate|reflexivity]|]. constructor; [split; [discriminate|reflexivity]|].
    constructor; [split; [discriminate|reflexivity]|]. constructor.
  - reflexivity.
  - cbn. auto.
  - cbn. auto.
Qed.

(** C47: SNPAs before the routes are skipped, however many there are. *)
Theorem C47_snpa : forall oc p nh snpas a, addrs_wf a -> nexthop_ok a nh -> session_form p a ->
  Forall (fun s => (length s < 256)%nat) snpas -> (length snpas < 256)%nat ->
  mpupdates_decode oc p (mp_reach_snpa_wire nh snpas a) = Ok (nh, addrs_trunc a).
Proof. exact C47_snpa_l. Qed.
Print Assumptions C47_snpa.
Example C47_snpa_ex : let p := params_new 1 1 ModeV4 1 [] in
  mp_reach_snpa_wire (BAV4 167772161) [[1; 2]; []] (IPV4U [mkV4 167772160 8]) =
    [0; 1; 1; 4; 10; 0; 0; 1; 2; 2; 1; 2; 0; 8; 10] /\
  mpupdates_decode true p [0; 1; 1; 4; 10; 0; 0; 1; 2; 2; 1; 2; 0; 8; 10] = Ok (BAV4 167772161, IPV4U [mkV4 167772160 8]).
Proof. cbv zeta. split; reflexivity. Qed.

(** C78: bit by bit, the flag octet that is sent has the attribute's class, the partial bit only on large
    communities, the extended length bit on the kinds with a two-octet length, and four zero bits. *)
Theorem C78_flag_octet_partial : forall oc p a buf n b, (forall asn ad, a <> AAggregatorAS asn ad) ->
  (forall tc f v, a <> AUnknown tc f v) -> attr_encode oc p a buf = Ok (n, b) -> exists rest,
  b = flag_octet (fst (rfc_class a)) (snd (rfc_class a)) (match a with ALargeCommunityList _ => true | _ => false end) (long_length a) :: rest.
Proof. exact C39_flags_l. Qed.
Print Assumptions C78_flag_octet_partial.
(** Large communities are always sent with the partial bit, though whoever originates them knows them all. *)
Theorem C78_large_partial_bit_refuted : forall oc p v buf n b, attr_encode oc p (ALargeCommunityList v) buf = Ok (n, b) ->
  exists f rest, b = f :: rest /\ fl_partial f = true.
Proof. exact C78_large_l. Qed.
Print Assumptions C78_large_partial_bit_refuted.
Example C78_flag_octet_ex : let p := params_new 1 1 ModeV4 1 [] in
  attr_encode true p (AMED 5) (repeat 9 8) = Ok (7%nat, [128; 4; 4; 0; 0; 0; 5; 9]) /\
  flag_octet true false false false = 128 /\ flag_octet true true true true = 240.
Proof. cbv zeta. split; [|split]; reflexivity. Qed.

(** C37: exactly the payloads on which the decoders of communities, ORIGINATOR_ID, PMSI tunnels and large
    communities panic (C77 says when attribute sets do). *)
Theorem C37_attributes_exact : forall oc p tc f n buf, bytes_ok buf ->
  (tc = 8 -> (attr_decode oc p tc f n buf = Panic <-> Nat.modulo (length buf) 4 <> 0%nat)) /\
  (tc = 9 -> (attr_decode oc p tc f n buf = Panic <-> (length buf < 4)%nat)) /\
  (tc = 22 -> (attr_decode oc p tc f n buf = Panic <-> pmsi_panics buf)) /\
  (tc = 32 -> (attr_decode oc p tc f n buf = Panic <-> Nat.modulo (length buf) 12 <> 0%nat)).
Proof. exact panics_exact_l. Qed.
Print Assumptions C37_attributes_exact.
Example C37_attributes_exact_ex : let p := params_new 1 1 ModeV4 1 [] in
  pmsi_panics [0; 1; 0; 0; 16; 10; 0; 0; 1] /\ attr_decode false p 22 192 9 [0; 1; 0; 0; 16; 10; 0; 0; 1] = Panic /\
  ~ pmsi_panics [0; 6; 0; 0; 16; 10; 0; 0; 1].
Proof.
  cbv zeta. split; [cbn; left; split; [reflexivity|lia]|]. split; [reflexivity|].
  cbn. intros [(A & _)|[(A & _)|(_ & A)]]; [discriminate|discriminate|lia].
Qed.
