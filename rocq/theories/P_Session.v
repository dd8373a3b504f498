(** Session: C25-C30. *)
From Verif Require Import Base M_Util M_Cap M_Open M_Session S_Cap S_Open F_Session S_Peer F_Refute.

(** C25 *)
Theorem C25_match_caps : forall p r,
  (forall c, plain c -> In c (sp_caps (match_caps p r)) <-> In c (sp_caps p) /\ In c r) /\
  selects (fun c => plain c /\ In c r) (filter plainb (sp_caps p))
          (filter plainb (sp_caps (match_caps p r))) /\
  (forall n, In (CapASN32 n) (sp_caps (match_caps p r)) <-> In (CapASN32 n) (sp_caps p) /\ has_asn32 r) /\
  (sp_as32 (match_caps p r) = true <-> has_asn32 (sp_caps p) /\ has_asn32 r).
Proof.
  exact (fun p r => conj (match_plain p r) (conj (match_selects p r) (conj (match_asn p r) (match_as32 p r)))).
Qed.
Print Assumptions C25_match_caps.

(** check_caps: the flag says whether a 32-bit-AS capability is present, the AS
    number becomes the last one announced, nothing else changes. *)
Theorem C25_check_caps : forall p, let q := check_caps p in
  sp_caps q = sp_caps p /\ sp_hold q = sp_hold p /\ sp_mode q = sp_mode p /\ sp_rid q = sp_rid p /\
  sp_fuzzy q = sp_fuzzy p /\ (sp_as32 q = true <-> has_asn32 (sp_caps p)) /\
  (forall pre n post, sp_caps p = pre ++ CapASN32 n :: post -> ~ has_asn32 post -> sp_as q = n) /\
  (~ has_asn32 (sp_caps p) -> sp_as q = sp_as p).
Proof. exact check_caps_spec. Qed.
Print Assumptions C25_check_caps.

Example C25_ex :
  let p := params_new 65000 90 ModeV4 1 [CapMP SafiIPv4u; CapRR; CapASN32 65000; CapBFD] in
  let q := match_caps p [CapBFD; CapASN32 7; CapMP SafiIPv4u; CapEnhancedRR] in
  sp_caps q = [CapMP SafiIPv4u; CapASN32 65000; CapBFD] /\ sp_as32 q = true /\
  sp_as32 (match_caps p [CapRR]) = false.
Proof. repeat split; reflexivity. Qed.

(** C26 is false: match_caps answers with the mirror image of the remote
    announcement and ignores which directions the local side announced
    (lib.rs:732-743). *)
Theorem C26_addpath_refuted : forall p r afi sf x, clear_addpath r -> announces r afi sf x ->
  (exists l, announces (sp_caps p) afi sf l) ->
  (ap_send x = true -> (forall l, announces (sp_caps p) afi sf l -> ap_receive l = false) ->
     check_addpath_receive (match_caps p r) afi sf = true) /\
  (ap_receive x = true -> (forall l, announces (sp_caps p) afi sf l -> ap_send l = false) ->
     check_addpath_send (match_caps p r) afi sf = true).
Proof. exact addpath_refuted_all. Qed.
Print Assumptions C26_addpath_refuted.

(** What does hold: both sides announced the family, and the remote side
    announced the matching direction. *)
Theorem C26_addpath_remote_agrees : forall p r afi sf,
  (check_addpath_send (match_caps p r) afi sf = true ->
     (exists l, ap_entry (sp_caps p) l /\ ap_afi l = afi /\ ap_safi l = sf) /\
     (exists x, ap_entry r x /\ ap_afi x = afi /\ ap_safi x = sf /\ ap_receive x = true)) /\
  (check_addpath_receive (match_caps p r) afi sf = true ->
     (exists l, ap_entry (sp_caps p) l /\ ap_afi l = afi /\ ap_safi l = sf) /\
     (exists x, ap_entry r x /\ ap_afi x = afi /\ ap_safi x = sf /\ ap_send x = true)).
Proof. exact addpath_dir. Qed.
Print Assumptions C26_addpath_remote_agrees.

(** Hence the full claim holds for a side that always announces both
    directions. *)
Theorem C26_addpath_both : forall p r afi sf,
  (forall e, ap_entry (sp_caps p) e -> ap_send e = true /\ ap_receive e = true) ->
  (check_addpath_send (match_caps p r) afi sf = true ->
     exists l x, ap_entry (sp_caps p) l /\ ap_afi l = afi /\ ap_safi l = sf /\ ap_send l = true /\
                 ap_entry r x /\ ap_afi x = afi /\ ap_safi x = sf /\ ap_receive x = true) /\
  (check_addpath_receive (match_caps p r) afi sf = true ->
     exists l x, ap_entry (sp_caps p) l /\ ap_afi l = afi /\ ap_safi l = sf /\ ap_receive l = true /\
                 ap_entry r x /\ ap_afi x = afi /\ ap_safi x = sf /\ ap_send x = true).
Proof. exact addpath_both. Qed.
Print Assumptions C26_addpath_both.

Example C26_ex_refuted :
  let p := params_new 1 90 ModeV4 1 [CapAddPath [mkAP 1 1 true false]] in
  let r := [CapAddPath [mkAP 1 1 true true]] in
  clear_addpath r /\ announces r 1 1 (mkAP 1 1 true true) /\ check_addpath_receive (match_caps p r) 1 1 = true.
Proof.
  cbv zeta. split; [|split; [|reflexivity]].
  - split; [intros v w [H|[]] [K|[]]; congruence|].
    intros afi sf e f ((v & [H|[]] & E) & _) ((w & [K|[]] & F) & _). injection H as <-. injection K as <-.
    destruct E as [<-|[]], F as [<-|[]]. reflexivity.
  - split; [|split; reflexivity]. exists [mkAP 1 1 true true]. split; now left.
Qed.
Example C26_ex :
  let p := params_new 1 90 ModeV4 1 [CapAddPath [mkAP 1 1 true true; mkAP 2 1 true true]] in
  let q := match_caps p [CapAddPath [mkAP 1 1 true false; mkAP 1 2 true true]] in
  sp_caps q = [CapAddPath [mkAP 1 1 false true]] /\
  check_addpath_send q 1 1 = false /\ check_addpath_receive q 1 1 = true /\
  check_addpath_receive q 2 1 = false.
Proof. repeat split; reflexivity. Qed.

(** C27: for every capability but ADD-PATH: exactly the entries equal to it (for
    the 32-bit-AS capability: any 32-bit-AS entry) go, the rest stays in order,
    nothing else in the session changes, and removing twice is removing once. *)
Theorem C27_remove : forall p c, ~ (exists v, c = CapAddPath v) ->
  selects (removed_plain c) (sp_caps p) (sp_caps (remove_capability p c)) /\
  sp_as (remove_capability p c) = sp_as p /\ sp_hold (remove_capability p c) = sp_hold p /\
  sp_mode (remove_capability p c) = sp_mode p /\ sp_as32 (remove_capability p c) = sp_as32 p /\
  sp_rid (remove_capability p c) = sp_rid p /\ sp_fuzzy (remove_capability p c) = sp_fuzzy p /\
  remove_capability (remove_capability p c) c = remove_capability p c.
Proof. exact remove_plain. Qed.
Print Assumptions C27_remove.

(** ADD-PATH: with a single ADD-PATH capability in the list its named entries
    go; an emptied capability is dropped. *)
Theorem C27_remove_addpath : forall p vc pre v post,
  sp_caps p = pre ++ CapAddPath v :: post ->
  Forall (fun c => is_addpath c = false) pre -> Forall (fun c => is_addpath c = false) post ->
  exists v', selects (fun e => ~ In e vc) v v' /\
  sp_caps (remove_capability p (CapAddPath vc)) =
    pre ++ (match v' with [] => [] | _ => [CapAddPath v'] end) ++ post /\
  remove_capability (remove_capability p (CapAddPath vc)) (CapAddPath vc) = remove_capability p (CapAddPath vc).
Proof. exact remove_addpath_single. Qed.
Print Assumptions C27_remove_addpath.

Theorem C27_remove_addpath_absent : forall p vc,
  Forall (fun c => is_addpath c = false) (sp_caps p) -> remove_capability p (CapAddPath vc) = p.
Proof. exact remove_addpath_none. Qed.
Print Assumptions C27_remove_addpath_absent.

Theorem C27_remove_all_addpath : forall p,
  selects (fun x => ~ exists v, x = CapAddPath v) (sp_caps p) (sp_caps (remove_capability_addpath p)).
Proof. exact remove_all_addpath. Qed.
Print Assumptions C27_remove_all_addpath.

(** With two ADD-PATH capabilities in the list the claim is false: only the
    first is edited, so the capability is still there and a second removal
    removes more. *)
Theorem C27_remove_refuted : forall p pre v1 mid v2 post,
  sp_caps p = pre ++ CapAddPath v1 :: mid ++ CapAddPath v2 :: post ->
  Forall (fun c => is_addpath c = false) pre -> v2 <> [] ->
  check_capability (remove_capability p (CapAddPath v2)) (CapAddPath v2) = true /\
  (Forall (fun c => is_addpath c = false) mid -> (forall e, In e v1 -> In e v2) ->
   remove_capability (remove_capability p (CapAddPath v2)) (CapAddPath v2) <> remove_capability p (CapAddPath v2)).
Proof. exact remove_refuted_all. Qed.
Print Assumptions C27_remove_refuted.
(** The exact effect on any list: entries go from the first ADD-PATH capability
    only, and ADD-PATH capabilities without entries go everywhere behind it. *)
Theorem C27_remove_addpath_exact : forall p vc pre v post, sp_caps p = pre ++ CapAddPath v :: post ->
  Forall (fun c => is_addpath c = false) pre ->
  exists v' post', selects (fun e => ~ In e vc) v v' /\ selects (fun c => c <> CapAddPath []) post post' /\
  sp_caps (remove_capability p (CapAddPath vc)) =
    pre ++ (match v' with [] => [] | _ => [CapAddPath v'] end) ++ post'.
Proof. exact remove_addpath_exact. Qed.
Print Assumptions C27_remove_addpath_exact.

Example C27_ex_two :
  let p := params_new 1 90 ModeV4 1 [CapAddPath [mkAP 1 1 true true]; CapRR; CapAddPath [mkAP 1 1 true true]] in
  sp_caps (remove_capability p (CapAddPath [mkAP 1 1 true true])) = [CapRR; CapAddPath [mkAP 1 1 true true]].
Proof. reflexivity. Qed.
Example C27_ex :
  let p := params_new 1 90 ModeV4 1 [CapRR; CapMP SafiEVPN; CapRR; CapAddPath [mkAP 1 1 true true; mkAP 2 1 true true]] in
  sp_caps (remove_capability p CapRR) = [CapMP SafiEVPN; CapAddPath [mkAP 1 1 true true; mkAP 2 1 true true]] /\
  sp_caps (remove_capability p (CapAddPath [mkAP 1 1 true true])) = [CapRR; CapMP SafiEVPN; CapRR; CapAddPath [mkAP 2 1 true true]] /\
  sp_caps (remove_capability p (CapAddPath [mkAP 1 1 true true; mkAP 2 1 true true])) = [CapRR; CapMP SafiEVPN; CapRR].
Proof. repeat split; reflexivity. Qed.

(** C28 *)
Theorem C28_header : forall oc t n buf, N.of_nat n <= 65516 -> (n + 19 <= length buf)%nat ->
  prepare_message_buf oc t n buf = Ok (n + 19, header t n ++ skipn 19 buf)%nat /\
  send_message_buf oc t n buf = Ok (header t n ++ sub buf 19 (n + 19), header t n ++ skipn 19 buf) /\
  (forall rest, decode_message_head oc (header t n ++ rest) = Ok (t, n)).
Proof.
  exact (fun oc t n buf H1 H2 => conj (prepare_ok oc t n buf H1 H2)
    (conj (send_ok oc t n buf H1 H2) (fun rest => head_rt oc t n rest H1))).
Qed.
Print Assumptions C28_header.

(** A buffer too small is refused. *)
Theorem C28_short : forall oc t n buf, (length buf < n + 19)%nat ->
  prepare_message_buf oc t n buf = Err EInsufficient /\ send_message_buf oc t n buf = Err EInsufficient.
Proof. exact send_short. Qed.
Print Assumptions C28_short.

(** The bound 65516 is sharp. *)
Theorem C28_overlong : forall t n buf, 65516 < N.of_nat n < 65536 -> (n + 19 <= length buf)%nat ->
  prepare_message_buf true t n buf = Panic /\
  exists out, prepare_message_buf false t n buf = Ok (n + 19 - N.to_nat 65536, out)%nat.
Proof. exact prepare_overlong. Qed.
Print Assumptions C28_overlong.

Example C28_ex : prepare_message_buf true MUpdate 3 (repeat 0 19 ++ [7; 8; 9; 10]) =
  Ok (22%nat, repeat 255 16 ++ [0; 22; 2; 7; 8; 9; 10]).
Proof. reflexivity. Qed.

(** C29: exact outcome for every byte string. *)
Theorem C29_header_exact : forall oc buf, bytes_ok buf ->
  match decode_message_head oc buf with
  | Ok (t, n) => exists len, is_header buf t len /\
       (19 <= len /\ N.of_nat n = len - 19 \/ len < 19 /\ oc = false /\ N.of_nat n = len + 65517)
  | Err _ => forall t len, ~ is_header buf t len
  | Panic => oc = true /\ exists t len, is_header buf t len /\ len < 19
  | OutOfFuel => False
  end.
Proof. exact head_spec. Qed.
Print Assumptions C29_header_exact.

(** So a length below 19 is not rejected: it panics with overflow checks and
    announces a body of more than 65500 octets without. *)
Theorem C29_header_refuted : forall t len rest, len < 19 -> bytes_ok rest ->
  let buf := repeat 255 16 ++ be_bytes 2 len ++ [msg_code t] ++ rest in
  decode_message_head true buf = Panic /\
  exists n, decode_message_head false buf = Ok (t, n) /\ N.of_nat n = len + 65517.
Proof. exact head_refuted_all. Qed.
Print Assumptions C29_header_refuted.

Example C29_ex : decode_message_head true (repeat 255 15 ++ [254; 0; 19; 4]) = Err EOther /\
  decode_message_head true (repeat 255 16 ++ [0; 19; 5]) = Err EOther /\
  decode_message_head true (repeat 255 16 ++ [0; 19; 4]) = Ok (MKeepalive, 0%nat).
Proof. repeat split; reflexivity. Qed.

(** C30 *)
Theorem C30_reframing : forall oc cap msgs fuel,
  Forall (fun m => N.of_nat (length (snd m)) <= 65516 /\ (length (snd m) <= cap)%nat) msgs ->
  (length msgs < fuel)%nat ->
  recv_loop oc cap fuel (concat (map frame msgs)) = Ok msgs.
Proof. exact (fun oc cap msgs fuel => recv_frames oc cap msgs fuel). Qed.
Print Assumptions C30_reframing.

(** The loop makes progress on any input. *)
Theorem C30_progress : forall oc cap fuel s, (length s < fuel)%nat -> recv_loop oc cap fuel s <> OutOfFuel.
Proof. exact recv_fuel. Qed.
Print Assumptions C30_progress.

Example C30_ex : recv_loop true 100 3 (frame (MNotification, [6; 2; 0; 0]) ++ frame (MKeepalive, [])) =
  Ok [(MNotification, [6; 2; 0; 0]); (MKeepalive, [])].
Proof. reflexivity. Qed.
