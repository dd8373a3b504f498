(** Capabilities: C22, C23. *)
From Verif Require Import Base M_Util M_Cap S_Cap F_Cap.

(** C22: every capability but FQDN, with fields in range and a payload of at
    most 255 octets, is written as its RFC wire form, which decodes to the same
    capability and consumes exactly its bytes, whatever follows. *)
Theorem C22_capability_roundtrip : forall c, cap_wf c -> ~ is_fqdn c ->
  bytes_len c = length (cap_wire c) /\
  (forall buf, length buf = length (cap_wire c) -> fill_buffer c buf = Ok (tt, cap_wire c)) /\
  (forall rest, from_buffer (cap_wire c ++ rest) = Ok (inl c, length (cap_wire c))).
Proof.
  exact (fun c Hw Hf => conj (bytes_len_wire c)
           (conj (fun buf => fill_ok c buf Hw Hf) (fun rest => cap_decode_wire c rest Hw Hf))).
Qed.
Print Assumptions C22_capability_roundtrip.

(** Everything the decoder produces is in that class (fields in range, size as
    consumed), so it can be encoded again. *)
Theorem C22_decoded_encodable : forall buf c n, bytes_ok buf ->
  from_buffer buf = Ok (inl c, n) -> cap_wf c /\ n = length (cap_wire c).
Proof. exact cap_decoded_wf. Qed.
Print Assumptions C22_decoded_encodable.

(** The FQDN capability never survives: whatever host and domain name, and
    whatever the buffer held or is followed by, decoding what was encoded does
    not give the capability back (lib.rs:507 and 632). *)
Theorem C22_fqdn_refuted : forall h d buf out rest n,
  length buf = bytes_len (CapFQDN h d) ->
  fill_buffer (CapFQDN h d) buf = Ok (tt, out) ->
  from_buffer (out ++ rest) <> Ok (inl (CapFQDN h d), n).
Proof. exact fqdn_never. Qed.
Print Assumptions C22_fqdn_refuted.

Example C22_ex :
  let c := CapGR true 120 [mkGR 1 1 true; mkGR 25 70 false] in
  cap_wf c /\ ~ is_fqdn c /\
  cap_wire c = [64; 10; 128; 120; 0; 1; 1; 128; 0; 25; 70; 0] /\
  fill_buffer c (repeat 7 12) = Ok (tt, cap_wire c) /\
  from_buffer (cap_wire c ++ [9; 9]) = Ok (inl c, 12%nat).
Proof.
  repeat split; try reflexivity; try (cbn; lia).
  - repeat constructor.
  - intros (h & d & H); discriminate.
Qed.
Example C22_ex_fqdn : exists out,
  fill_buffer (CapFQDN [104; 49] [100]) (repeat 0 7) = Ok (tt, out) /\
  out = [73; 104; 49; 1; 100; 0; 0] /\ from_buffer out = Err EInsufficient.
Proof. eexists. repeat split; reflexivity. Qed.

(** C23: total; consumes exactly the announced 2 + length octets; what is not
    understood is handed back verbatim, and only codes outside the known ones,
    or address families outside the table, are not understood. *)
Theorem C23_capability_parse_total : forall buf,
  match from_buffer buf with
  | Ok (r, n) =>
      (2 <= n <= length buf)%nat /\
      (exists code l rest, buf = code :: l :: rest /\ n = (2 + N.to_nat l)%nat /\
       let data := firstn (N.to_nat l) rest in
       length data = N.to_nat l /\
       match r with
       | inl c => code = cap_code c /\ (bytes_ok buf -> payload_wf c) /\
                  length data = length (cap_payload c) /\
                  match c with CapFQDN h d => data = cap_payload c /\ d = [] | _ => True end
       | inr (co, dat) => co = code /\ dat = data /\
            (~ In code known_codes \/ code = 1 /\ length data = 4%nat /\
               forall s, data <> cap_payload (CapMP s))
       end)
  | Err _ => True
  | Panic | OutOfFuel => False
  end.
Proof. exact from_buffer_cases. Qed.
Print Assumptions C23_capability_parse_total.

(** Conversely an unknown code is never rejected. *)
Theorem C23_unknown_verbatim : forall code data rest,
  ~ In code known_codes -> (length data < 256)%nat ->
  from_buffer (code :: N.of_nat (length data) :: data ++ rest) =
  Ok (inr (code, data), 2 + length data)%nat.
Proof. exact from_buffer_unknown. Qed.
Print Assumptions C23_unknown_verbatim.

Example C23_ex : from_buffer [6; 2; 1; 2; 99] = Ok (inr (6, [1; 2]), 4%nat) /\
  from_buffer [1; 4; 0; 3; 0; 1] = Ok (inr (1, [0; 3; 0; 1]), 6%nat) /\
  from_buffer [65; 3; 0; 0; 0] = Err EOther /\ from_buffer [65; 4; 0] = Err EInsufficient.
Proof. repeat split; reflexivity. Qed.
