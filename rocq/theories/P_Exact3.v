(** Capabilities, OPEN and NOTIFICATION, exactly: C97, C98. *)
From Verif Require Import Base M_Util M_Cap M_Open S_Cap S_Exact3 F_Utf8 F_Exact7.

(** C97: a capability is read exactly when the octets are a code, a length and that many
    octets meaning the capability; one passed over is reported with its code and octets. *)
Theorem C97_capability : forall b r n, bytes_ok b -> from_buffer b = Ok (r, n) <->
  exists code d rest, b = code :: N.of_nat (length d) :: d ++ rest /\ (length d < 256)%nat /\
    n = (2 + length d)%nat /\
    match r with
    | inl c => cap_reads code d (Some c)
    | inr (code', d') => code' = code /\ d' = d /\ cap_reads code d None
    end.
Proof. exact buffer_exact. Qed.
Print Assumptions C97_capability.
(** and a string is taken for text exactly when it is UTF-8 *)
Theorem C97_text : forall l, utf8_ok l = true <-> utf8 l.
Proof. exact utf8_exact. Qed.
Print Assumptions C97_text.

(** graceful restart, restart flag and an ignored bit set, 300 seconds, IPv4 unicast with forwarding kept and ignored bits *)
Example C97_ex_gr : let b := [64; 6; 145; 44; 0; 1; 1; 129; 7] in
  from_buffer b = Ok (inl (CapGR true 300 [mkGR 1 1 true]), 8%nat) /\
  cap_reads 64 [145; 44; 0; 1; 1; 129] (Some (CapGR true 300 [mkGR 1 1 true])).
Proof.
  intros b. assert (R : cap_reads 64 [145; 44; 0; 1; 1; 129] (Some (CapGR true 300 [mkGR 1 1 true]))).
  { split; [reflexivity|]. exists 37164, [0; 1; 1; 129]. split; [reflexivity|]. split; [reflexivity|]. split; [reflexivity|]. split; [reflexivity|].
    exists [[0; 1; 1; 129]]. split; [reflexivity|]. constructor; [|constructor]. split; [split; reflexivity|]. exists 129. repeat split; reflexivity. }
  split; [|exact R]. apply C97_capability; [unfold b, bytes_ok; repeat (apply Forall_cons; [reflexivity|]); apply Forall_nil|].
  exists 64, [145; 44; 0; 1; 1; 129], [7]. split; [reflexivity|]. split; [cbn [length]; lia|]. split; [reflexivity|exact R].
Qed.
(** a host name in Cyrillic, followed by the empty domain name *)
Example C97_ex_host : from_buffer [73; 6; 4; 208; 160; 209; 143; 0] = Ok (inl (CapFQDN [208; 160; 209; 143] []), 8%nat) /\
  utf8 [208; 160; 209; 143].
Proof.
  split; [vm_compute; reflexivity|]. exists [1056; 1103]. split; [|reflexivity].
  apply Forall_cons; [left; reflexivity|]. apply Forall_cons; [left; reflexivity|]. apply Forall_nil.
Qed.
(** a surrogate is not text *)
Example C97_ex_surrogate : ~ utf8 [237; 160; 128].
Proof. intros U. apply C97_text in U. vm_compute in U. discriminate U. Qed.
(** an unknown capability is reported, an AS number of three octets refused *)
Example C97_ex_other : from_buffer [200; 2; 1; 2] = Ok (inr (200, [1; 2]), 4%nat) /\
  forall r n, from_buffer [65; 3; 0; 0; 1] <> Ok (r, n).
Proof. split; [vm_compute; reflexivity|]. intros r n E. vm_compute in E. discriminate E. Qed.

(** C98: an OPEN or NOTIFICATION decodes to a message exactly when its octets mean it. *)
Theorem C98_open : forall self b m, bytes_ok b -> open_decode self b = Ok m <-> open_reads b m.
Proof. exact open_exact. Qed.
Print Assumptions C98_open.
Theorem C98_notification : forall self b m, bytes_ok b -> notif_decode self b = Ok m <-> notif_reads (nt_data self) b m.
Proof. exact notif_exact. Qed.
Print Assumptions C98_notification.

(** two optional parameters, a capability passed over, a wrong parameters length and an octet left over *)
Example C98_ex_open : let b := [4; 253; 232; 0; 180; 10; 0; 0; 1; 99; 2; 6; 200; 0; 2; 0; 6; 0; 2; 6; 65; 4; 0; 1; 0; 2; 7] in
  let m := mkOpen 65000 180 (10 * 2 ^ 24 + 1) [CapRR; CapASN32 65538] in
  forall self, open_decode self b = Ok m /\ open_reads b m.
Proof.
  intros b m self.
  assert (R : open_reads b m).
  { split; [reflexivity|]. split; [reflexivity|]. split; [reflexivity|].
    exists 99, [2; 6; 200; 0; 2; 0; 6; 0; 2; 6; 65; 4; 0; 1; 0; 2; 7]. split; [reflexivity|].
    apply (params_more [200; 0; 2; 0; 6; 0] [2; 6; 65; 4; 0; 1; 0; 2; 7] [CapRR] [CapASN32 65538]); [cbn [length]; lia| |].
    - apply (caps_none 200 [] [2; 0; 6; 0] [CapRR]); [cbn [length]; lia|left; cbn; intuition discriminate|].
      apply (caps_some 2 [] CapRR [6; 0] []); [cbn [length]; lia|split; reflexivity|].
      apply (caps_none 6 [] [] []); [cbn [length]; lia|left; cbn; intuition discriminate|constructor].
    - apply (params_more [65; 4; 0; 1; 0; 2] [7] [CapASN32 65538] []); [cbn [length]; lia| |constructor; cbn [length]; lia].
      apply (caps_some 65 [0; 1; 0; 2] (CapASN32 65538) [] []); [cbn [length]; lia|split; [reflexivity|split; reflexivity]|constructor]. }
  split; [|exact R]. apply C98_open; [unfold b, bytes_ok; repeat (apply Forall_cons; [reflexivity|]); apply Forall_nil|exact R].
Qed.
(** an optional parameter of another type is refused *)
Example C98_ex_none : forall m, ~ open_reads [4; 253; 232; 0; 180; 10; 0; 0; 1; 2; 1; 0] m.
Proof.
  intros m R. apply (C98_open open_new) in R; [|unfold bytes_ok; repeat (apply Forall_cons; [reflexivity|]); apply Forall_nil].
  vm_compute in R. discriminate R.
Qed.
Example C98_ex_notif : notif_reads 77 [6; 2] (mkNotif 6 2 77) /\ notif_reads 77 [6; 2; 1; 4; 9] (mkNotif 6 2 260) /\
  notif_decode (mkNotif 0 0 77) [6; 2; 1; 4; 9] = Ok (mkNotif 6 2 260).
Proof. split; [exists []; auto|]. split; [exists [1; 4; 9]; split; reflexivity|reflexivity]. Qed.
