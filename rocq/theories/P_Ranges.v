(** * C125: what arrives is in range, and can be logged and stored without loss *)
From Verif Require Import Base M_Util S_Wire M_Prefix S_Prefix M_Nlri S_Nlri M_Vpls M_Cap M_Open M_Session M_Mvpn M_Evpn M_Flowspec M_Addrs S_Addrs M_Attr M_Update M_Text S_Text M_Serde S_Serde S_Serde2
  M_Bmp M_Debug S_Debug M_Debug2 S_Debug2 S_Ranges F_Ranges2.

(** The conditions under which C85, C90, C91, C118 and C120 speak of a value ([addrs_any], [attr_any], [update_any], [bmp_any]) hold of everything
    decoded from octets; moreover all prefixes have lengths their family allows ([lens_ok]). *)
Theorem C125_routes : forall oc p afi sf b a n, bytes_ok b -> addrs_decode oc p afi sf b = Ok (a, n) -> addrs_any a /\ lens_ok a.
Proof. exact routes_decoded. Qed.
Print Assumptions C125_routes.
Theorem C125_attribute : forall oc p tc f n b a, bytes_ok b -> f < 256 -> tc < 256 -> attr_decode oc p tc f n b = Ok a -> attr_any a /\ attr_lens a.
Proof. exact attr_decoded. Qed.
Print Assumptions C125_attribute.
Theorem C125_update : forall oc p m b u, bytes_ok b -> Forall attr_any (u_attrs m) -> Forall attr_lens (u_attrs m) -> update_decode oc p m b = Ok u -> update_any u /\ update_lens u.
Proof. exact update_decoded. Qed.
Print Assumptions C125_update.
Theorem C125_bmp : forall oc b m, bytes_ok b -> bmp_decode oc b = Ok m -> bmp_any m.
Proof. exact bmp_decoded. Qed.
Print Assumptions C125_bmp.
Theorem C125_session : forall oc t b m, bytes_ok b -> fst (session_decode oc t b) = Ok m -> bmp_any m.
Proof. exact session_decoded. Qed.
Print Assumptions C125_session.

(** So two UPDATEs received anywhere print alike exactly if they are the same, ... *)
Theorem C125_update_logged : forall oc oc' p p' b b' u u', bytes_ok b -> bytes_ok b' ->
  update_decode oc p update_new b = Ok u -> update_decode oc' p' update_new b' = Ok u' -> (update_debug u = update_debug u' <-> u = u').
Proof. exact update_logged. Qed.
Print Assumptions C125_update_logged.
Theorem C125_bmp_logged : forall oc oc' b b' m m' pr, bytes_ok b -> bytes_ok b' -> bmp_decode oc b = Ok m -> bmp_decode oc' b' = Ok m' -> (bmp_debug pr m = bmp_debug pr m' <-> m = m').
Proof. exact bmp_logged. Qed.
Print Assumptions C125_bmp_logged.
(** ... and any attribute or list of routes received, FlowSpec aside, is read back from where serde put it. *)
Theorem C125_attribute_stored : forall oc p tc f n b a hr k d, bytes_ok b -> f < 256 -> tc < 256 -> attr_decode oc p tc f n b = Ok a ->
  (sets_deep a <= k)%nat -> attr_lists flow_list a = false -> presents false (ser hr (T_Attr k) (g_attr a)) d -> de hr (T_Attr k) d = SOk (g_attr a).
Proof. exact attr_stored. Qed.
Print Assumptions C125_attribute_stored.
Theorem C125_routes_stored : forall oc p afi sf b a n hr d, bytes_ok b -> addrs_decode oc p afi sf b = Ok (a, n) -> flow_list a = false ->
  presents false (ser hr T_Addrs (g_addrs a)) d -> de hr T_Addrs d = SOk (g_addrs a).
Proof. exact routes_stored. Qed.
Print Assumptions C125_routes_stored.
(** The prefix of an EVPN type 5 route is not covered by [lens_ok]: whatever its length octet says is taken for an IPv4 address. *)
Theorem C125_evpn_refuted : forall oc p l a, l < 256 -> a < 2 ^ 32 ->
  exists b, bytes_ok b /\ addrs_decode oc p 25 70 b = Ok (EVPN [Ev5 (mkEvpn5 (mkRD 0 1) 0 (repeat 0 9) 7 l (IPv4 a) (IPv4 0) [100])], length b).
Proof. exact ev5_any_length. Qed.
Print Assumptions C125_evpn_refuted.

(** An UPDATE withdrawing 10.0.0.0/9 and announcing 10.1.0.0/16 with an ORIGIN *)
Example C125_case : let p := params_new 65000 90 ModeV4 1 [] in let b := [0; 3; 9; 10; 0; 0; 4; 64; 1; 1; 0; 16; 10; 1] in
  bytes_ok b /\ exists u, update_decode true p update_new b = Ok u /\ prefixes4 (u_updates u) = [mkV4 0x0a010000 16] /\ prefixes4 (u_withdraws u) = [mkV4 0x0a000000 9].
Proof. split; [repeat (constructor; [reflexivity|]); constructor|]. eexists. split; [vm_compute; reflexivity|]. now split. Qed.
(** ... and the prefix length 33 is refused. *)
Example C125_refuses : update_decode true (params_new 65000 90 ModeV4 1 []) update_new [0; 0; 0; 4; 64; 1; 1; 0; 33; 10; 1; 0; 0; 0] = Err EOther.
Proof. vm_compute. reflexivity. Qed.
