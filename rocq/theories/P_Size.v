(** What is received bounds what is built: C106, C107. *)
From Verif Require Import Base M_Util M_Prefix M_Nlri M_Vpls M_Mvpn M_Evpn M_Flowspec M_Addrs M_Attr M_Update M_Cap M_Open M_Session M_Bmp S_Size F_Size.

(** C106: routes with their labels and conditions are no more than the octets they were read from. *)
Theorem C106_routes : forall oc p afi sf b a n, bytes_ok b -> addrs_decode oc p afi sf b = Ok (a, n) -> (addrs_size a <= length b)%nat.
Proof. exact routes_bound. Qed.
Print Assumptions C106_routes.
(** So with an attribute, which has at least three octets in front of its payload, and everything inside it. *)
Theorem C106_attribute : forall oc p tc f n b a, bytes_ok b -> attr_decode oc p tc f n b = Ok a -> (attr_size a <= S (length b))%nat.
Proof. exact attr_bound. Qed.
Print Assumptions C106_attribute.
(** So with an UPDATE. What a message object held before stays, and is the only thing beyond the octets. *)
Theorem C106_update : forall oc p m b u, bytes_ok b -> update_decode oc p m b = Ok u -> (update_size u <= total attr_size (u_attrs m) + length b)%nat.
Proof. exact update_bound. Qed.
Print Assumptions C106_update.
(** So with OPEN, and with BMP messages with and without a session table. *)
Theorem C106_open : forall self b m, bytes_ok b -> open_decode self b = Ok m -> (open_size m <= length b)%nat.
Proof. exact open_bound. Qed.
Print Assumptions C106_open.
Theorem C106_bmp : forall oc b m, bytes_ok b -> bmp_decode oc b = Ok m -> (bmp_size m <= length b)%nat.
Proof. exact bmp_bound. Qed.
Print Assumptions C106_bmp.
Theorem C106_session : forall oc t b m, bytes_ok b -> fst (session_decode oc t b) = Ok m -> (bmp_size m <= length b)%nat.
Proof. exact session_bound. Qed.
Print Assumptions C106_session.

(** the bound is met: 0.0.0.0/0 takes one octet *)
Example C106_ex_routes : let p := mkParams 1 180 ModeV4 true 1 [] false in
  let b := repeat 0 100 in bytes_ok b /\ exists a, addrs_decode true p 1 1 b = Ok (a, 100%nat) /\ addrs_size a = 100%nat.
Proof.
  cbv zeta. split; [apply Forall_forall; intros x H; apply repeat_spec in H; subst; reflexivity|].
  exists (IPV4U (repeat (mkV4 0 0) 100)). split; vm_compute; reflexivity.
Qed.
(** a VPN route with two labels, and two communities: sizes 4 and 3, of 52 octets *)
Example C106_ex_update : let p := mkParams 1 180 ModeV4 true 1 [] false in
  let b := [0; 0; 0; 48;
            144; 14; 0; 33; 0; 1; 128; 12; 0; 0; 0; 0; 0; 0; 0; 0; 10; 0; 0; 1; 0; 120; 0; 1; 0; 0; 2; 1; 0; 0; 0; 1; 0; 0; 0; 2; 10;
            192; 8; 8; 0; 1; 0; 2; 0; 3; 0; 4] in
  bytes_ok b /\ exists u, update_decode true p update_new b = Ok u /\ update_size u = 7%nat.
Proof.
  cbv zeta. split; [repeat (apply Forall_cons; [reflexivity|]); apply Forall_nil|]. eexists. vm_compute. split; reflexivity.
Qed.

(** C107: nesting is bounded by a seventh of the octets only: *)
Theorem C107_depth : forall oc p b u, bytes_ok b -> update_decode oc p update_new b = Ok u ->
  Forall (fun a => (7 * depth a <= length b)%nat) (u_attrs u).
Proof. exact update_depth. Qed.
Print Assumptions C107_depth.
(** in a session with four-octet AS numbers an UPDATE of 12 + 8n octets can bring n + 1 attribute sets one inside the other, and the decoder,
    which calls itself for each, follows; up to 8191 of them fit a message. *)
Theorem C107_shallow_refuted : forall oc p n, sp_as32 p = true -> sp_mode p = ModeV4 -> 8 * N.of_nat n < 65528 ->
  exists b u, bytes_ok b /\ length b = (12 + 8 * n)%nat /\ update_decode oc p update_new b = Ok u /\ u_attrs u = [nest n] /\ depth (nest n) = S n.
Proof.
  exact (fun oc p n H1 H2 H3 => match nest_decodes oc p n H1 H2 H3 with
    | ex_intro _ b (ex_intro _ u (conj A (conj B (conj C D)))) => ex_intro _ b (ex_intro _ u (conj A (conj B (conj C (conj D (nest_depth n)))))) end).
Qed.
Print Assumptions C107_shallow_refuted.
Example C107_ex : let p := params_new 1 180 ModeV4 1 [] in sp_as32 p = true /\ sp_mode p = ModeV4 /\ 8 * N.of_nat 2 < 65528 /\
  exists a, update_decode true p update_new [0; 0; 0; 24; 208; 128; 0; 20; 0; 0; 0; 0; 208; 128; 0; 12; 0; 0; 0; 0; 208; 128; 0; 4; 0; 0; 0; 0] =
    Ok (mkUpd a a [nest 2]).
Proof. cbv zeta. split; [reflexivity|]. split; [reflexivity|]. split; [reflexivity|]. exists (IPV4U []). vm_compute. reflexivity. Qed.
