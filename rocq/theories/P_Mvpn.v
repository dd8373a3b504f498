(** C18: MCAST-VPN routes. *)
From Verif Require Import Base BaseFacts M_Util M_Prefix M_Nlri S_Nlri M_Session M_Mvpn S_Mvpn F_Mvpn S_Mvpn2 F_Mvpn2.

(** Types 1 and 2 round trip for every address kind. *)
Theorem C18_mvpn12_partial : forall m r, match r with MvT1 _ | MvT2 _ => True | _ => False end -> mv_wf m r ->
  writes (mvpn_encode r) (mv_wire r) (length (mv_wire r)) /\
  forall rest, mvpn_decode m (mv_wire r ++ rest) = Ok (r, length (mv_wire r)).
Proof. exact mvpn12_roundtrip. Qed.
Print Assumptions C18_mvpn12_partial.

(** Types 3 to 7 never round trip: encoding succeeds given room, and under no
    session kind do the bytes written decode to the route (the prefix length
    octets and the inner route header are not written). *)
Theorem C18_mvpn_refuted : forall r buf, ~ match r with MvT1 _ | MvT2 _ => True | _ => False end -> (74 <= length buf)%nat ->
  exists n out, mvpn_encode r buf = Ok (n, out) /\ (n <= length buf)%nat /\
    forall m rest k, mvpn_decode m (firstn n out ++ rest) <> Ok (r, k).
Proof. exact mvpn_refuted. Qed.
Print Assumptions C18_mvpn_refuted.

(** The octets written for every type, exactly: the RFC form without those octets. *)
Theorem C18_mvpn_written : forall r, writes (mvpn_encode r) (mv_written r) (length (mv_written r)).
Proof. exact mvpn_written. Qed.
Print Assumptions C18_mvpn_written.

(** The decoder does accept the RFC 6514 form of every type, except types 4
    and 5 over IPv6. *)
Theorem C18_mvpn_decode : forall m r rest, mv_wf m r ->
  (match r with MvT4 _ | MvT5 _ => True | _ => False end -> m = ModeV4) ->
  mvpn_decode m (mv_wire r ++ rest) = Ok (r, length (mv_wire r)).
Proof. exact mvpn_decode_rfc. Qed.
Print Assumptions C18_mvpn_decode.

(** A type 5 route is never decoded over IPv6, whatever the bytes. *)
Theorem C18_mvpn5_v6_refuted : forall buf r n, mvpn5_decode ModeV6 buf <> Ok (r, n).
Proof. exact mvpn5_v6. Qed.
Print Assumptions C18_mvpn5_v6_refuted.

Example C18_ex :
  let rd := mkRD 65000 1 in
  let a n := IPv4 (ip4_new 10 0 0 n) in
  let r1 := MvT1 (mkMvpn1 rd (a 1)) in
  let r7 := MvT7 (mkMvpn67 rd 65000 (a 1) (IPv4 (ip4_new 239 0 0 1))) in
  mv_wf ModeV4 r1 /\ mv_wf ModeV4 r7 /\
  mv_wire r1 = [1; 12; 0; 0; 253; 232; 0; 0; 0; 1; 10; 0; 0; 1] /\
  mvpn_decode ModeV4 (mv_wire r1) = Ok (r1, 14%nat) /\
  mvpn_decode ModeV4 (mv_wire r7) = Ok (r7, 24%nat) /\
  mvpn_encode r7 (repeat 0 22) =
    Ok (22%nat, [7; 20; 0; 0; 253; 232; 0; 0; 0; 1; 0; 0; 253; 232; 10; 0; 0; 1; 239; 0; 0; 1]) /\
  mvpn_decode ModeV4 [7; 20; 0; 0; 253; 232; 0; 0; 0; 1; 0; 0; 253; 232; 10; 0; 0; 1; 239; 0; 0; 1] = Err EOther.
Proof.
  split; [split; [split; reflexivity|reflexivity]|].
  split; [split; [split; reflexivity|split; [reflexivity|split; reflexivity]]|].
  split; [reflexivity|]. split; [reflexivity|]. split; [reflexivity|]. split; reflexivity.
Qed.
