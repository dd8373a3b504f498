(** Which octets are which capability, OPEN or NOTIFICATION: relations between
    octets and values written without any decoder (RFC 4271 sections 4.2 and
    4.5, RFC 5492, RFC 4760, RFC 4724, RFC 6793, RFC 7911, RFC 9494, RFC 3629),
    with the library's deviations said where they occur. *)
From Verif Require Import Base M_Cap M_Open S_Cap.

(** UTF-8 (RFC 3629): the encoding of a Unicode scalar value, and the texts. *)
Definition scalar (c : N) : Prop := c < 55296 \/ 57344 <= c < 1114112.
Definition utf8_of (c : N) : list N :=
  if c <? 128 then [c]
  else if c <? 2048 then [192 + c / 64; 128 + c mod 64]
  else if c <? 65536 then [224 + c / 64 / 64; 128 + (c / 64) mod 64; 128 + c mod 64]
  else [240 + c / 64 / 64 / 64; 128 + (c / 64 / 64) mod 64; 128 + (c / 64) mod 64; 128 + c mod 64].
Definition utf8 (b : list N) : Prop :=
  exists cs, Forall scalar cs /\ b = concat (map utf8_of cs).

(** One entry of the graceful restart, ADD-PATH and long-lived graceful restart
    capabilities. Only the highest bit of the first one's flags and the two
    lowest bits of the second one's are looked at. *)
Definition gr_reads (b : list N) (g : capGR) : Prop :=
  gr_wf g /\ exists fl, fl < 256 /\ b = be_bytes 2 (gr_afi g) ++ [gr_safi g; fl] /\
  gr_fwd g = N.testbit fl 7.
Definition ap_reads (b : list N) (g : capAP) : Prop :=
  ap_wf g /\ exists fl, fl < 256 /\ b = be_bytes 2 (ap_afi g) ++ [ap_safi g; fl] /\
  ap_send g = N.testbit fl 1 /\ ap_receive g = N.testbit fl 0.
Definition ll_reads (b : list N) (g : capLLGR) : Prop := ll_wf g /\ b = ll_wire g.
(** one after another *)
Definition in_row {T} (R : list N -> T -> Prop) (b : list N) (v : list T) : Prop :=
  exists bs, b = concat bs /\ Forall2 R bs v.

(** The payload [d] of a capability with code [code] gives [Some c], or is a
    capability the library passes over ([None]): an unknown code, or a
    multiprotocol capability for a family it has no name for. Bits 12 to 14 of
    the restart time are ignored. A host name is accepted only beside an empty
    domain name (the length of the domain name is not skipped in the check for
    trailing octets). *)
Definition cap_reads (code : N) (d : list N) (o : option bgpcap) : Prop :=
  match o with
  | Some c =>
      code = cap_code c /\
      match c with
      | CapGR st t v =>
          exists w e, w < 2 ^ 16 /\ d = be_bytes 2 w ++ e /\ st = N.testbit w 15 /\
          t = w mod 4096 /\ in_row gr_reads e v
      | CapASN32 n => n < 2 ^ 32 /\ d = be_bytes 4 n
      | CapAddPath v => in_row ap_reads d v
      | CapLLGR v => in_row ll_reads d v
      | CapFQDN h dn => utf8 h /\ dn = [] /\ d = N.of_nat (length h) :: h ++ [0]
      | CapMP _ | CapRR | CapEnhancedRR | CapBFD => d = cap_payload c
      end
  | None =>
      ~ In code known_codes \/
      code = 1 /\ length d = 4%nat /\ forall s, d <> cap_payload (CapMP s)
  end.

(** Capabilities in a row: each is a code, a length and that many octets. *)
Inductive caps_read : list N -> list bgpcap -> Prop :=
| caps_end : caps_read [] []
| caps_some code d c b v : (length d < 256)%nat -> cap_reads code d (Some c) -> caps_read b v ->
    caps_read (code :: N.of_nat (length d) :: d ++ b) (c :: v)
| caps_none code d b v : (length d < 256)%nat -> cap_reads code d None -> caps_read b v ->
    caps_read (code :: N.of_nat (length d) :: d ++ b) v.

(** Optional parameters: each of type 2 (capabilities). A last single octet is
    ignored. *)
Inductive params_read : list N -> list bgpcap -> Prop :=
| params_end b : (length b <= 1)%nat -> params_read b []
| params_more p b v w : (length p < 256)%nat -> caps_read p v -> params_read b w ->
    params_read (2 :: N.of_nat (length p) :: p ++ b) (v ++ w).

(** An OPEN body. The octet [ol], the length of the optional parameters, is not
    looked at: the parameters run to the end of the message. *)
Definition open_reads (b : list N) (m : openMsg) : Prop :=
  op_as m < 2 ^ 16 /\ op_hold m < 2 ^ 16 /\ op_rid m < 2 ^ 32 /\
  exists ol p, b = [4] ++ be_bytes 2 (op_as m) ++ be_bytes 2 (op_hold m) ++
    be_bytes 4 (op_rid m) ++ [ol] ++ p /\ params_read p (op_caps m).

(** A NOTIFICATION body: error code, subcode, and as data the only octet after
    them or the first two. With no data the number from before stays. *)
Definition notif_reads (before : N) (b : list N) (m : notifMsg) : Prop :=
  exists r, b = nt_code m :: nt_sub m :: r /\
  nt_data m = match r with [] => before | [x] => x | x :: y :: _ => be_val [x; y] end.
