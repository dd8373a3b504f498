(** Exactly which octets stop the program: C102, C103. *)
From Verif Require Import Base M_Util S_Wire M_Prefix S_Prefix M_Nlri S_Nlri M_Vpls M_Cap M_Open M_Session M_Mvpn S_Mvpn M_Evpn S_Evpn M_Flowspec S_Flowspec M_Addrs S_Addrs
  M_Attr S_Attr S_Attr2 S_Attr3 M_Update S_Exact S_Exact2 S_Panic F_Panic3 F_Panic4 F_Panic5.

(** C102: decoding the routes of any family panics exactly on these octets. *)
Theorem C102_nlri_panics : forall oc p afi sf b, bytes_ok b -> addrs_decode oc p afi sf b = Panic <-> nlri_crash oc p afi sf b.
Proof. exact nlri_panic_l. Qed.
Print Assumptions C102_nlri_panics.

Ltac ex_bytes := unfold bytes_ok; repeat (apply Forall_cons; [reflexivity|]); apply Forall_nil.
(** one VPNv4 route is read, the label of the next is cut: 64 bits are announced, two octets are there *)
Example C102_ex_label : let p := params_new 65000 90 ModeV4 1 [] in
  let b := [88; 0; 6; 65; 0; 0; 253; 232; 0; 0; 0; 1; 64; 0; 1] in
  nlri_crash true p 1 128 b /\ addrs_decode true p 1 128 b = Panic.
Proof.
  intros p b. assert (E : addrs_decode true p 1 128 b = Panic) by (vm_compute; reflexivity).
  split; [|exact E]. apply C102_nlri_panics; [unfold b; ex_bytes|exact E].
Qed.
(** said without the decoder: an IPv4 prefix of 250 bits, in a build that checks arithmetic *)
Example C102_ex_prefix : let p := params_new 65000 90 ModeV4 1 [] in nlri_crash true p 1 1 [250; 1] /\ ~ nlri_crash false p 1 1 [250; 1].
Proof.
  intros p. split.
  - right. split; [intros [X|(_ & X & _)]; [discriminate X|cbn in X; repeat (apply le_S_n in X); inversion X]|].
    apply mc_here; [discriminate|]. exists 250, [1]. split; [reflexivity|]. split; [reflexivity|]. discriminate.
  - intros H. apply C102_nlri_panics in H; [|ex_bytes]. vm_compute in H. discriminate H.
Qed.
(** a truncated prefix is an error, not a panic *)
Example C102_ex_none : let p := params_new 65000 90 ModeV4 1 [] in ~ nlri_crash true p 1 1 [24; 10; 0].
Proof. intros p H. apply C102_nlri_panics in H; [|ex_bytes]. vm_compute in H. discriminate H. Qed.

(** C103: decoding a path attribute of any type panics exactly on these octets. *)
Theorem C103_attribute_panics : forall oc p tc f n b, bytes_ok b -> attr_decode oc p tc f n b = Panic <-> attr_crash oc p tc n b.
Proof. exact attr_panic. Qed.
Print Assumptions C103_attribute_panics.
(** ... and decoding an UPDATE exactly on these, whatever the message held before. *)
Theorem C103_update_panics : forall oc p m b, bytes_ok b -> update_decode oc p m b = Panic <-> update_crash oc p b.
Proof. exact update_panic. Qed.
Print Assumptions C103_update_panics.

(** MP_REACH_NLRI of an unknown family never panics once its header is there; with a known one a next hop length beyond the end does *)
Example C103_ex_reach : let p := params_new 65000 90 ModeV4 1 [] in
  attr_crash true p 14 6 [0; 1; 1; 4; 10; 0] /\ ~ attr_crash true p 14 6 [0; 9; 1; 4; 10; 0].
Proof.
  intros p. split.
  - constructor. right. exists 1, 1, 4, [10; 0]. split; [reflexivity|]. split; [reflexivity|]. left. split; [left; cbn; auto|]. apply Nat.leb_le. reflexivity.
  - intros H. apply (C103_attribute_panics true p 14 128) in H; [|ex_bytes]. vm_compute in H. discriminate H.
Qed.
(** an attribute set with one attribute and the first octet of another *)
Example C103_ex_set : let p := params_new 65000 90 ModeV4 1 [] in let b := [0; 0; 253; 232; 64; 1; 1; 2; 64] in
  attr_crash true p 128 9 b /\ attr_decode true p 128 192 9 b = Panic.
Proof.
  intros p b. assert (R : attr_crash true p 128 9 b).
  { apply (acr_set true p 9 65000 [64; 1; 1; 2; 64]); [reflexivity|reflexivity|]. apply (ac_next _ _ _ 64 1 [2] [64] (AOrigin Incomplete)); [discriminate| |apply ac_cut; exact I].
    apply ar_plain; [left; reflexivity|]. exists 2, []. auto. }
  split; [exact R|]. apply C103_attribute_panics; [unfold b; ex_bytes|exact R].
Qed.
(** an UPDATE that ends within the header of its only attribute panics; with a route after it, it is refused *)
Example C103_ex_update : let p := params_new 65000 90 ModeV4 1 [] in
  update_crash true p [0; 0; 0; 1; 64] /\ ~ update_crash true p [0; 0; 0; 1; 64; 8; 10].
Proof.
  intros p. split.
  - exists [], [0; 1; 64]. split; [reflexivity|]. split; [reflexivity|]. split; [discriminate|]. right. exists (IPV4U []), [64], [].
    split; [exists 0%nat; right; split; [intros [X|(_ & X & _)]; [discriminate X|inversion X]|exists []; split; [constructor|reflexivity]]|].
    split; [reflexivity|]. split; [reflexivity|]. left. apply ac_cut. split; [discriminate|]. left. exists 64. reflexivity.
  - intros H. apply (C103_update_panics true p update_new) in H; [|ex_bytes]. vm_compute in H. discriminate H.
Qed.
