(** What errors say (C133). *)
From Coq Require Import Ascii String.
From Verif Require Import Base M_Util M_Nlri M_Session M_Addrs M_Attr M_Text M_Debug M_Debug2 S_Exact3 S_Debug2 M_Error S_Error F_Error.

(** C133: an error displays what it says, verbatim; two errors display alike exactly when they say the same. *)
Theorem C133_display : forall e e', error_fmt e = txt "BgpError " ++ says e /\ (error_fmt e = error_fmt e' <-> says e = says e').
Proof. exact (fun e e' => conj (fmt_says e) (fmt_same e e')). Qed.
Print Assumptions C133_display.
(** The kind of an error cannot be told from it: for every error there is one of another kind that displays the same. *)
Theorem C133_kind_refuted : forall e, exists e', error_fmt e' = error_fmt e /\ kind_of e' <> kind_of e.
Proof. exact kind_lost. Qed.
Print Assumptions C133_kind_refuted.
(** [Debug] tells errors apart, kind and text, and stays on one line unless it is another library's. *)
Theorem C133_debug : forall pr e e', error_wf e -> error_wf e' -> (error_debug pr e = error_debug pr e' <-> same_error e e').
Proof. exact debug_tells. Qed.
Print Assumptions C133_debug.
Theorem C133_debug_line : forall pr e, kind_of e <> KOther -> one_line (error_debug pr e).
Proof. exact debug_line. Qed.
Print Assumptions C133_debug_line.

(** An unknown family is refused whatever the octets, in announcements and in withdrawals; *)
Theorem C133_family : forall oc p afi sf,
  (forall e, family_error afi sf = Some e -> forall buf, addrs_decode oc p afi sf buf = Err (error_class e)) /\
  (family_error afi sf = None -> exists a, addrs_decode oc p afi sf [] = Ok (a, 0%nat)).
Proof. exact (fun oc p afi sf => conj (family_refused oc p afi sf) (family_accepted oc p afi sf)). Qed.
Print Assumptions C133_family.
Theorem C133_attributes : forall oc p afi sf, afi < 65536 ->
  (forall e nl rest, nexthop_error afi sf = Some e -> mpupdates_decode oc p (be_bytes 2 afi ++ sf :: nl :: rest) = Err (error_class e)) /\
  (forall e rest, family_error afi sf = Some e -> mpwithdraws_decode oc p (be_bytes 2 afi ++ sf :: rest) = Err (error_class e)).
Proof. exact (fun oc p afi sf A => conj (fun e nl rest => announce_refused oc p afi sf nl rest e A) (fun e rest => withdraw_refused oc p afi sf rest e A)). Qed.
Print Assumptions C133_attributes.
(** and the text says which family it was, *)
Theorem C133_names : forall afi sf e afi' sf' e', known_afi afi ->
  (family_error afi sf = Some e -> family_error afi' sf' = Some e' -> error_fmt e = error_fmt e' -> afi = afi' /\ sf = sf') /\
  (nexthop_error afi sf = Some e -> nexthop_error afi' sf' = Some e' -> error_fmt e = error_fmt e' -> afi = afi' /\ sf = sf').
Proof. exact (fun afi sf e afi' sf' e' K => conj (family_named afi sf e afi' sf' e' K) (nexthop_named afi sf e afi' sf' e' K)). Qed.
Print Assumptions C133_names.
(** or at least the AFI if that is unknown: the SAFI is never told then. *)
Theorem C133_afi : forall afi sf e afi' sf' e', ~ known_afi afi -> ~ known_afi afi' -> family_error afi sf = Some e -> family_error afi' sf' = Some e' ->
  (error_fmt e = error_fmt e' <-> afi = afi').
Proof. exact afi_named. Qed.
Print Assumptions C133_afi.
Theorem C133_safi_refuted : forall afi sf sf', ~ known_afi afi -> family_error afi sf <> None /\ family_error afi sf = family_error afi sf'.
Proof. exact safi_lost. Qed.
Print Assumptions C133_safi_refuted.
(** IPv6 FlowSpec is the one family of which withdrawals are read but announcements are not. *)
Theorem C133_one_way_refuted : forall afi sf,
  (family_error afi sf = None /\ nexthop_error afi sf <> None <-> afi = 2 /\ sf = 133) /\ (nexthop_error afi sf = None -> family_error afi sf = None).
Proof. exact (fun afi sf => conj (one_way afi sf) (no_other_way afi sf)). Qed.
Print Assumptions C133_one_way_refuted.

Example C133_ex : error_fmt (from_string (txt "Unknown afi 7")) = txt "BgpError Unknown afi 7" /\
  error_fmt protocol_error = error_fmt (static_str (txt "ProtocolError")) /\
  error_debug (fun _ => true) (static_str (txt "a""b")) = txt "Static(""a\""b"")" /\
  error_debug (fun _ => true) (from_error (txt "x") (txt "Utf8Error")) = txt "Other(Utf8Error)" /\
  family_error 1 3 = Some (XDynStr (txt "Unknown safi for ipv4 3")) /\ known_afi 1 /\ ~ known_afi 16388 /\
  family_error 16388 71 = Some (XDynStr (txt "Unknown afi 16388")) /\ nexthop_error 2 133 = Some (XDynStr (txt "Unknown safi for ipv6: 133")).
Proof.
  do 5 (split; [vm_compute; reflexivity|]). split; [now left|]. split; [intros [H|[H|H]]; discriminate|]. split; vm_compute; reflexivity.
Qed.
