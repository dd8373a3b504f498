(** Every path attribute and the UPDATE message, exactly: C95, C96. *)
From Verif Require Import Base M_Util S_Wire M_Prefix S_Prefix M_Nlri S_Nlri M_Vpls M_Cap M_Open M_Session M_Mvpn S_Mvpn M_Evpn S_Evpn M_Flowspec S_Flowspec M_Addrs S_Addrs
  M_Attr S_Attr S_Attr3 M_Update S_Exact S_Exact2 F_Exact6.

(** C95: an attribute of any type decodes to a value exactly when its payload means it. *)
Theorem C95_attribute : forall oc p tc f n b a, bytes_ok b -> attr_decode oc p tc f n b = Ok a <-> attr_reads oc p tc f n b a.
Proof. exact attr_exact. Qed.
Print Assumptions C95_attribute.

(** an attribute set of two attributes, the second of unknown type *)
Example C95_ex_set : let p := params_new 65000 90 ModeV4 1 [] in
  let b := [0; 0; 253; 232; 64; 1; 1; 2; 192; 99; 2; 7; 8] in
  attr_reads true p 128 192 13 b (AAttrSet 65000 [AOrigin Incomplete; AUnknown 99 192 [7; 8]]) /\
  attr_decode true p 128 192 13 b = Ok (AAttrSet 65000 [AOrigin Incomplete; AUnknown 99 192 [7; 8]]).
Proof.
  intros p b. assert (R : attr_reads true p 128 192 13 b (AAttrSet 65000 [AOrigin Incomplete; AUnknown 99 192 [7; 8]])).
  { apply (ar_set true p 192 13 65000 [64; 1; 1; 2; 192; 99; 2; 7; 8]); [reflexivity|reflexivity|].
    apply (area_more _ 64 1 [2] [192; 99; 2; 7; 8]); [discriminate| |].
    - apply ar_plain; [left; reflexivity|]. exists 2, []. auto.
    - apply (area_more _ 192 99 [7; 8] []); [discriminate| |constructor]. apply (ar_unknown true p 99 192 2 [7; 8] []); [|reflexivity].
      cbn. intuition discriminate. }
  split; [exact R|]. apply C95_attribute; [|exact R]. unfold b, bytes_ok. repeat (apply Forall_cons; [reflexivity|]). apply Forall_nil.
Qed.
(** MP_REACH_NLRI with one SNPA *)
Example C95_ex_reach : let p := params_new 65000 90 ModeV4 1 [] in
  let b := [0; 1; 1; 4; 10; 0; 0; 1; 1; 2; 9; 9; 8; 11] in
  attr_decode true p 14 128 14 b = Ok (AMPUpdates (BAV4 (10 * 2 ^ 24 + 1)) (IPV4U [mkV4 (11 * 2 ^ 24) 8])) /\
  attr_reads true p 14 128 14 b (AMPUpdates (BAV4 (10 * 2 ^ 24 + 1)) (IPV4U [mkV4 (11 * 2 ^ 24) 8])).
Proof.
  intros p b. assert (D : attr_decode true p 14 128 14 b = Ok (AMPUpdates (BAV4 (10 * 2 ^ 24 + 1)) (IPV4U [mkV4 (11 * 2 ^ 24) 8]))) by (vm_compute; reflexivity).
  split; [exact D|]. apply C95_attribute; [|exact D]. unfold b, bytes_ok. repeat (apply Forall_cons; [reflexivity|]). apply Forall_nil.
Qed.

(** C96: an UPDATE decodes to a message exactly when its octets mean it; the attributes are appended to those already there. *)
Theorem C96_update : forall oc p m b up wd l, bytes_ok b ->
  update_decode oc p m b = Ok (mkUpd up wd l) <-> exists v, l = u_attrs m ++ v /\ update_reads oc p b wd v up.
Proof. exact update_exact'. Qed.
Print Assumptions C96_update.

Example C96_ex : let p := params_new 65000 90 ModeV4 1 [] in
  let b := [0; 2; 8; 12; 0; 4; 64; 1; 1; 0; 8; 11] in
  update_decode true p update_new b = Ok (mkUpd (IPV4U [mkV4 (11 * 2 ^ 24) 8]) (IPV4U [mkV4 (12 * 2 ^ 24) 8]) [AOrigin Igp]) /\
  update_reads true p b (IPV4U [mkV4 (12 * 2 ^ 24) 8]) [AOrigin Igp] (IPV4U [mkV4 (11 * 2 ^ 24) 8]).
Proof.
  intros p b. assert (D : update_decode true p update_new b = Ok (mkUpd (IPV4U [mkV4 (11 * 2 ^ 24) 8]) (IPV4U [mkV4 (12 * 2 ^ 24) 8]) [AOrigin Igp])) by (vm_compute; reflexivity).
  split; [exact D|]. apply C96_update in D as (v & E & R); [|unfold b, bytes_ok; repeat (apply Forall_cons; [reflexivity|]); apply Forall_nil].
  cbn [u_attrs update_new app] in E. now subst v.
Qed.
(** one octet fewer in the attribute area: no message *)
Example C96_ex_none : let p := params_new 65000 90 ModeV4 1 [] in forall wd v up, ~ update_reads true p [0; 0; 0; 3; 64; 1; 1; 0] wd v up.
Proof.
  intros p wd v up R. assert (D : update_decode true p update_new [0; 0; 0; 3; 64; 1; 1; 0] = Ok (mkUpd up wd v)).
  { apply C96_update; [unfold bytes_ok; repeat (apply Forall_cons; [reflexivity|]); apply Forall_nil|]. exists v. auto. }
  vm_compute in D. discriminate D.
Qed.
