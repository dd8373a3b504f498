(** Proofs for the example client's keepalives (C132). *)
From Verif Require Import Base BaseFacts M_Util S_Wire M_Cap M_Open M_Session S_Cap S_Open M_Addrs S_Addrs M_Attr S_Attr M_Update S_Update M_Peer S_Peer F_Peer M_Client S_Client.
Ltac Zify.zify_post_hook ::= idtac.

Lemma send_keepalive_ok : send_keepalive = Ok keepalive_wire.
Proof. reflexivity. Qed.
Lemma keepalive_frame : keepalive_wire = S_Open.frame (MKeepalive, []).
Proof. reflexivity. Qed.

Fixpoint past (g : N) (n : nat) : list (N * list N) :=
  match n with O => [] | S n => (N.of_nat n * g, keepalive_wire) :: past g n end.
Lemma loop_is p n : keepalive_loop p n = Ok (N.of_nat n * keepalive_sleep p, past (keepalive_sleep p) n).
Proof.
  induction n as [|n IH]; [reflexivity|]. cbn [keepalive_loop]. rewrite IH, bind_ok, send_keepalive_ok, bind_ok.
  cbn [past]. do 2 f_equal. rewrite Nat2N.inj_succ, N.mul_succ_l. reflexivity.
Qed.
Lemma past_in g n t b : In (t, b) (past g n) <-> b = keepalive_wire /\ exists k, (k < n)%nat /\ t = N.of_nat k * g.
Proof.
  induction n as [|n IH]; cbn [past In].
  - split; [intros []|]. intros (_ & k & H & _). inversion H.
  - rewrite IH. split.
    + intros [E|(E & k & H & T)].
      * inversion E; subst. split; [reflexivity|]. exists n. split; [apply Nat.lt_succ_diag_r|reflexivity].
      * split; [exact E|]. exists k. split; [clear - H; lia|exact T].
    + intros (E & k & H & T). destruct (Nat.eq_dec k n) as [ -> |D].
      * left. now rewrite E, T.
      * right. split; [exact E|]. exists k. split; [clear - H D; lia|exact T].
Qed.
Lemma sends_at_is p t : sends_at p t <-> exists k : N, t = k * keepalive_sleep p.
Proof.
  unfold sends_at. split.
  - intros (n & now & log & E & I). rewrite loop_is in E. inversion E; subst. apply past_in in I. destruct I as (_ & k & _ & ->). eauto.
  - intros (k & ->). exists (S (N.to_nat k)). do 2 eexists. split; [apply loop_is|]. apply past_in. split; [reflexivity|].
    exists (N.to_nat k). split; [apply Nat.lt_succ_diag_r|now rewrite N2Nat.id].
Qed.
Lemma gap_pos q : 3 <= sp_hold q <-> 1 <= keepalive_sleep q.
Proof.
  unfold keepalive_sleep. split; intros H.
  - apply N.div_le_lower_bound; [discriminate|exact H].
  - pose proof (N.mul_div_le (sp_hold q) 3 ltac:(discriminate)) as M. clear - H M. lia.
Qed.
Lemma kept_up_iff q h : 3 <= sp_hold q -> (kept_up q h <-> keepalive_sleep q <= h).
Proof.
  intros H. apply gap_pos in H. unfold kept_up. split.
  - intros K. destruct (N.le_gt_cases (keepalive_sleep q) h) as [L|L]; [exact L|]. exfalso.
    destruct (K h) as (t & S & A & B). apply sends_at_is in S. destruct S as [k ->].
    destruct k as [|k]; [clear - B; lia|]. assert (1 <= N.pos k) by (clear; lia). nia.
  - intros L now. exists (now / keepalive_sleep q * keepalive_sleep q).
    pose proof (N.div_mod now (keepalive_sleep q) ltac:(clear - H; lia)) as D.
    pose proof (N.mod_lt now (keepalive_sleep q) ltac:(clear - H; lia)) as M.
    split; [apply sends_at_is; eauto|]. rewrite (N.mul_comm _ (keepalive_sleep q)). clear - D M L. lia.
Qed.
Lemma expires_iff q h : 3 <= sp_hold q -> (expires q h <-> h < keepalive_sleep q).
Proof.
  intros H. split.
  - intros (now & E). destruct (N.lt_ge_cases h (keepalive_sleep q)) as [L|L]; [exact L|]. exfalso.
    destruct (proj2 (kept_up_iff q h H) L now) as (t & S & A & B). destruct (E t S) as [X|X]; clear - A B X; lia.
  - intros L. exists h. intros t S. apply sends_at_is in S. destruct S as [k ->]. destruct k as [|k]; [left; clear; lia|right].
    assert (1 <= N.pos k) by (clear; lia). nia.
Qed.
Lemma pace_iff q : paced q <-> 3 <= sp_hold q.
Proof.
  rewrite gap_pos. unfold paced. split.
  - intros P. specialize (P 2%nat _ _ (loop_is q 2)). cbn [past map fst] in P. inversion P as [|a l NI _]; subst.
    destruct (N.le_gt_cases 1 (keepalive_sleep q)) as [L|L]; [exact L|]. exfalso. apply NI. left.
    assert (keepalive_sleep q = 0) as -> by (clear - L; lia). reflexivity.
  - intros G n now log E. rewrite loop_is in E. inversion E; subst. clear E. induction n as [|n IH]; cbn [past map fst]; constructor; [|exact IH].
    intros I. apply in_map_iff in I. destruct I as ((t & b) & T & I). cbn [fst] in T. apply past_in in I. destruct I as (_ & k & K & ->).
    assert (N.of_nat k < N.of_nat n) by (clear - K; lia). nia.
Qed.
Lemma pace_zero q n : sp_hold q < 3 -> exists log, keepalive_loop q n = Ok (0, log) /\ length log = n /\ Forall (fun e => e = (0, keepalive_wire)) log.
Proof.
  intros H. rewrite loop_is. assert (keepalive_sleep q = 0) as -> by (apply N.div_small; exact H).
  exists (past 0 n). rewrite N.mul_0_r. split; [reflexivity|]. induction n as [|n [IL IF]]; cbn [past length]; [auto|].
  split; [now rewrite IL|]. constructor; [now rewrite N.mul_0_r|exact IF].
Qed.

Section Session.
Variables (oc : bool) (p : params) (m : openMsg) (rest : list N).
Hypotheses (P : client_open_ok p) (W : open_wf m) (L : (length (body_wire p (MsgOpen m)) <= 4096)%nat).
Let stream := S_Open.frame (MOpen, body_wire p (MsgOpen m)) ++ rest.
Let out := S_Open.frame (MOpen, body_wire p (MsgOpen (open_message p))).
Lemma session_alive : 3 <= op_hold m -> exists q, start_active oc p stream = Ok (out, q, rest) /\
  (kept_up q (agreed_hold (sp_hold p) (op_hold m)) <-> op_hold m / 3 <= sp_hold p).
Proof.
  intros H. destruct (start_ok oc p m rest P W L) as (q & E & _ & Q & _). exists q. split; [exact E|].
  rewrite kept_up_iff by (rewrite Q; exact H). unfold keepalive_sleep, agreed_hold. rewrite Q, N.min_glb_iff.
  assert (op_hold m / 3 <= op_hold m) by (apply N.div_le_upper_bound; [discriminate|clear; lia]). tauto.
Qed.
Lemma session_expires : 3 * sp_hold p + 3 <= op_hold m -> exists q, start_active oc p stream = Ok (out, q, rest) /\
  expires q (agreed_hold (sp_hold p) (op_hold m)).
Proof.
  intros H. destruct (start_ok oc p m rest P W L) as (q & E & _ & Q & _). exists q. split; [exact E|].
  apply expires_iff; [rewrite Q; clear - H; lia|]. unfold keepalive_sleep, agreed_hold. rewrite Q, N.min_l by (clear - H; lia).
  apply N.lt_le_trans with (sp_hold p + 1); [clear; lia|]. apply N.div_le_lower_bound; [discriminate|clear - H; lia].
Qed.
Lemma session_paced : exists q, start_active oc p stream = Ok (out, q, rest) /\ (paced q <-> 3 <= op_hold m).
Proof.
  destruct (start_ok oc p m rest P W L) as (q & E & _ & Q & _). exists q. split; [exact E|]. rewrite pace_iff, Q. reflexivity.
Qed.
Lemma session_zero : op_hold m < 3 -> exists q, start_active oc p stream = Ok (out, q, rest) /\
  forall n, exists log, keepalive_loop q n = Ok (0, log) /\ length log = n /\ Forall (fun e => e = (0, keepalive_wire)) log.
Proof.
  intros H. destruct (start_ok oc p m rest P W L) as (q & E & _ & Q & _). exists q. split; [exact E|]. intros n. apply pace_zero. rewrite Q. exact H.
Qed.
End Session.

Lemma main_open_ok asn : asn < 2 ^ 32 -> client_open_ok (main_params asn).
Proof.
  intros A. split.
  - split; [exact A|]. split; [reflexivity|]. split; [reflexivity|]. cbn [open_message op_caps main_params params_new sp_caps].
    repeat (apply Forall_cons; [split; [split; [exact Logic.I || exact A|vm_compute; lia]|intros (h & d & X); discriminate X]|]). apply Forall_nil.
  - vm_compute. lia.
Qed.
Lemma main_alive oc asn m rest : asn < 2 ^ 32 -> open_wf m -> (length (body_wire (main_params asn) (MsgOpen m)) <= 4096)%nat -> 3 <= op_hold m ->
  exists q, start_active oc (main_params asn) (S_Open.frame (MOpen, body_wire (main_params asn) (MsgOpen m)) ++ rest) =
    Ok (S_Open.frame (MOpen, body_wire (main_params asn) (MsgOpen (open_message (main_params asn)))), q, rest) /\
  (kept_up q (agreed_hold 180 (op_hold m)) <-> op_hold m <= 542).
Proof.
  intros A W L H. destruct (session_alive oc (main_params asn) m rest (main_open_ok asn A) W L H) as (q & E & K).
  exists q. split; [exact E|]. cbn [sp_hold main_params params_new] in K. rewrite K.
  pose proof (N.div_mod (op_hold m) 3 ltac:(discriminate)) as D. pose proof (N.mod_lt (op_hold m) 3 ltac:(discriminate)) as M.
  clear - D M. lia.
Qed.
