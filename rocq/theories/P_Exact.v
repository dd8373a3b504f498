(** NLRI of every family, exactly: C94. *)
From Verif Require Import Base M_Util S_Wire M_Prefix S_Prefix M_Nlri S_Nlri M_Vpls M_Cap M_Open M_Session M_Mvpn S_Mvpn M_Evpn S_Evpn M_Flowspec S_Flowspec M_Addrs S_Addrs
  M_Attr S_Attr S_Attr3 M_Update S_Exact F_Exact4.

(** C94: a list of routes decodes to a value, using so many octets, exactly when the octets mean it. *)
Theorem C94_nlri : forall oc p afi sf b a n, bytes_ok b -> addrs_decode oc p afi sf b = Ok (a, n) <-> nlri_reads oc p afi sf b a n.
Proof. exact nlri_exact_l. Qed.
Print Assumptions C94_nlri.

(** two prefixes *)
Example C94_ex_plain : let p := params_new 65000 90 ModeV4 1 [] in
  nlri_reads true p 1 1 [24; 10; 1; 2; 8; 11] (IPV4U [mkV4 (10 * 2 ^ 24 + 2 ^ 16 + 512) 24; mkV4 (11 * 2 ^ 24) 8]) 6 /\
  addrs_decode true p 1 1 [24; 10; 1; 2; 8; 11] = Ok (IPV4U [mkV4 (10 * 2 ^ 24 + 2 ^ 16 + 512) 24; mkV4 (11 * 2 ^ 24) 8], 6%nat).
Proof.
  intros p. assert (R : nlri_reads true p 1 1 [24; 10; 1; 2; 8; 11] (IPV4U [mkV4 (10 * 2 ^ 24 + 2 ^ 16 + 512) 24; mkV4 (11 * 2 ^ 24) 8]) 6).
  { right. split.
    - intros [H|(_ & _ & r & H)]; discriminate H.
    - eexists. split; [|reflexivity]. change 6%nat with (4 + (2 + 0))%nat.
      apply many_cons; [discriminate| |].
      + exists 24, [10; 1; 2; 8; 11], 3%nat. split; [reflexivity|]. split; [|reflexivity].
        split; [discriminate|]. split; [reflexivity|]. split; [reflexivity|]. split; [reflexivity|].
        exists [10; 1; 2], [8; 11]. split; [reflexivity|]. split; reflexivity.
      + apply many_cons; [discriminate| |apply many_nil].
        exists 8, [11], 1%nat. split; [reflexivity|]. split; [|reflexivity].
        split; [discriminate|]. split; [reflexivity|]. split; [reflexivity|]. split; [reflexivity|].
        exists [11], []. split; [reflexivity|]. split; reflexivity. }
  split; [exact R|]. apply C94_nlri; [|exact R]. unfold bytes_ok. repeat (apply Forall_cons; [reflexivity|]). apply Forall_nil.
Qed.

(** an EVPN prefix route of 58 octets, and the value it means *)
Example C94_ex_evpn : let p := params_new 65000 90 ModeV4 1 [] in
  let b := [5; 58; 0; 0; 0; 1; 0; 0; 0; 2; 0; 0; 0; 0; 0; 0; 0; 0; 0; 0; 0; 0; 0; 7; 24; 10; 9; 8; 0; 0; 0; 0; 0; 0; 0; 0; 0; 0; 0; 0; 0;
            10; 0; 0; 1; 0; 0; 0; 0; 0; 0; 0; 0; 0; 0; 0; 0; 0; 6; 65] in
  let a := EVPN [Ev5 (mkEvpn5 (mkRD 1 2) 0 [0; 0; 0; 0; 0; 0; 0; 0; 0] 7 24 (IPv4 (10 * 2 ^ 24 + 9 * 2 ^ 16 + 8 * 256)) (IPv4 (10 * 2 ^ 24 + 1)) [100])] in
  addrs_decode true p 25 70 b = Ok (a, 60%nat) /\ nlri_reads true p 25 70 b a 60.
Proof.
  intros p b a. assert (D : addrs_decode true p 25 70 b = Ok (a, 60%nat)) by (vm_compute; reflexivity).
  split; [exact D|]. apply C94_nlri; [|exact D]. unfold bytes_ok. repeat (apply Forall_cons; [reflexivity|]). apply Forall_nil.
Qed.

(** octets that mean nothing: the announced prefix is longer than what follows *)
Example C94_ex_none : let p := params_new 65000 90 ModeV4 1 [] in forall a n, ~ nlri_reads true p 1 1 [24; 10; 1] a n.
Proof.
  intros p a n R. apply C94_nlri in R; [vm_compute in R; discriminate R|].
  unfold bytes_ok. repeat (apply Forall_cons; [reflexivity|]). apply Forall_nil.
Qed.
