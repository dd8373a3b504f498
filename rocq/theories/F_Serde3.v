From Coq Require Import Ascii String Permutation.
From Verif Require Import Base BaseFacts S_Attr S_Nlri S_Prefix S_Text S_Text2 F_Attr F_Text M_Util M_Prefix M_Nlri M_Vpls M_Mvpn M_Evpn M_Flowspec M_Addrs M_Attr M_Text M_Text2 M_Serde S_Serde S_Serde2 F_Serde F_Serde2.
Ltac Zify.zify_post_hook ::= idtac.

(** ** The model's values are exactly the values of the types *)
Definition rep {A} (t : ty) (g : A -> gval) (P : A -> Prop) : Prop :=
  (forall a, P a -> typed t (g a)) /\ (forall v, typed t v -> exists a, v = g a /\ P a).
Definition inj {A} (g : A -> gval) : Prop := forall a b, g a = g b -> a = b.

Lemma rep_uint w : rep (TUint w) GNum (fun n => n < 2 ^ w).
Proof. split; [now intros a H|]. intros v H. destruct v; cbn [typed] in H; try contradiction. eauto. Qed.
Lemma rep_bool : rep TBool GBool (fun _ => True).
Proof. split; [now intros a H|]. intros v H. destruct v; cbn [typed] in H; try contradiction. eauto. Qed.
Lemma rep_ip4 : rep TIp4 GIp4 (fun n => n < 2 ^ 32).
Proof. split; [now intros a H|]. intros v H. destruct v; cbn [typed] in H; try contradiction. eauto. Qed.
Lemma rep_ip6 : rep TIp6 GIp6 (fun n => n < 2 ^ 128).
Proof. split; [now intros a H|]. intros v H. destruct v; cbn [typed] in H; try contradiction. eauto. Qed.
Lemma rep_ip : rep TIp GIp ip_any.
Proof. split; [now intros a H|]. intros v H. destruct v; cbn [typed] in H; try contradiction. eauto. Qed.
Lemma rep_list {A} t (g : A -> gval) P : rep t g P -> forall l, Forall (typed t) l -> exists v, l = map g v /\ Forall P v.
Proof.
  intros R l F. induction F as [|x l Hx _ (v & -> & F)]; [now exists []|]. apply (proj2 R) in Hx as (a & -> & Ha). exists (a :: v). split; [reflexivity|now constructor].
Qed.
Lemma rep_vec {A} t (g : A -> gval) P : rep t g P -> rep (TVec t) (g_vec g) (Forall P).
Proof.
  intros R. split.
  - intros l F. cbn [typed g_vec]. rewrite Forall_map. eapply Forall_impl; [|exact F]. intros a. apply R.
  - intros v H. destruct v; cbn [typed] in H; try contradiction. apply (rep_list t g P R) in H as (v & -> & F). now exists v.
Qed.
Lemma rep_nums w : rep (TVec (TUint w)) g_nums (Forall (fun n => n < 2 ^ w)).
Proof. exact (rep_vec _ _ _ (rep_uint w)). Qed.
Lemma rep_arr n : rep (TArr n) g_nums (octets n).
Proof.
  split.
  - intros l [L F]. cbn [typed g_nums]. rewrite map_length, Forall_map. split; [exact L|]. eapply Forall_impl; [|exact F]. intros x Hx. now exists x.
  - intros v H. destruct v; cbn [typed] in H; try contradiction. destruct H as [L F]. apply num_belows in F as (ns & -> & F). exists ns.
    rewrite map_length in L. repeat split; auto.
Qed.
Lemma rep_set {A} t (g : A -> gval) P cmp : rep t g P -> (forall x y, gcmp (g x) (g y) = cmp x y) ->
  rep (TSet t) (g_vec g) (fun l => Forall P l /\ ascending cmp l).
Proof.
  intros R E. split.
  - intros l [F As]. cbn [typed g_vec]. rewrite Forall_map, (ascending_map g cmp E). split; [|exact As]. eapply Forall_impl; [|exact F]. intros a. apply R.
  - intros v H. destruct v; cbn [typed] in H; try contradiction. destruct H as [F As]. apply (rep_list t g P R) in F as (v & -> & F).
    rewrite (ascending_map g cmp E) in As. now exists v.
Qed.

(** taking the fields of a struct apart *)
Lemma fs_cons nm t fs l : typed_fs ((nm, t) :: fs) l -> exists v l', l = v :: l' /\ typed t v /\ typed_fs fs l'.
Proof. destruct l as [|v l]; [contradiction|]. intros [H1 H2]. eauto. Qed.
Lemma fs_nil l : typed_fs [] l -> l = [].
Proof. now destruct l. Qed.
Ltac fields H l :=
  match type of H with
  | typed_fs [] l => apply fs_nil in H; subst l
  | typed_fs (_ :: _) l => let v := fresh "v" in let l' := fresh "l" in let H' := fresh "H" in
      apply fs_cons in H; destruct H as (v & l' & -> & H' & H); fields H l'
  end.
Ltac use r H := apply (proj2 r) in H; let a := fresh "a" in let Ha := fresh "Ha" in destruct H as (a & -> & Ha).
Lemma struct_typed fs v : typed (struct fs) v -> exists l, v = GList l /\ typed_fs (map (fun f => (txt (fst f), snd f)) fs) l.
Proof. intros H. destruct v; cbn [typed struct] in H; try contradiction. eauto. Qed.
Ltac open_struct v H := apply struct_typed in H; let l := fresh "l" in destruct H as (l & -> & H); cbn [map fst snd] in H; fields H l.

Lemma rep_rd : rep T_RD g_rd rd_wf.
Proof.
  split; [now intros a [H1 H2]|]. intros v H. unfold T_RD in H. destruct v; cbn [typed] in H; try contradiction. change (typed_fs [(txt "rdh", TUint 32); (txt "rdl", TUint 32)] l) in H.
  fields H l. use (rep_uint 32) H0. use (rep_uint 32) H1. exists (mkRD a a0). split; [reflexivity|now split].
Qed.
Lemma rep_v4 : rep T_V4 g_v4 v4_any.
Proof.
  split; [now intros a [H1 H2]|]. intros v H. open_struct v H. use rep_ip4 H0. use (rep_uint 8) H1. exists (mkV4 a a0). split; [reflexivity|now split].
Qed.
Lemma rep_v6 : rep T_V6 g_v6 v6_any.
Proof.
  split; [now intros a [H1 H2]|]. intros v H. open_struct v H. use rep_ip6 H0. use (rep_uint 8) H1. exists (mkV6 a a0). split; [reflexivity|now split].
Qed.
Lemma rep_mdt4 : rep T_Mdt4 g_mdt4 mdt4_any.
Proof.
  split; [now intros a [[H1 H2] H3]|]. intros v H. open_struct v H. use rep_v4 H0. use rep_ip4 H1. exists (mkMdt4 a a0). split; [reflexivity|now split].
Qed.
Lemma rep_mdt6 : rep T_Mdt6 g_mdt6 mdt6_any.
Proof.
  split; [now intros a [[H1 H2] H3]|]. intros v H. open_struct v H. use rep_v6 H0. use rep_ip6 H1. exists (mkMdt6 a a0). split; [reflexivity|now split].
Qed.
Lemma rep_wrd {A} t (g : A -> gval) P : rep t g P -> rep (TRd t) (g_wrd g) (wrd_any P).
Proof.
  intros R. split.
  - intros a [[H1 H2] H3]. split; [|now apply R]. now exists (rdh (wrd_rd a)), (rdl (wrd_rd a)).
  - intros v H. destruct v; cbn [typed] in H; try contradiction. destruct H as ((h & l & -> & H1 & H2) & H3). use R H3. exists (mkWRD a (mkRD h l)).
    split; [reflexivity|now split].
Qed.
Lemma rep_lab {A} t (g : A -> gval) P : rep t g P -> rep (TLab t) (g_lab g) (lab_any P).
Proof.
  intros R. split.
  - intros a [H1 H3]. split; [|now apply R]. exists (map GNum (lab_labels a)). split; [reflexivity|]. rewrite Forall_map. eapply Forall_impl; [|exact H1].
    intros x Hx. now exists x.
  - intros v H. destruct v; cbn [typed] in H; try contradiction. destruct H as ((l & -> & H1) & H3). use R H3. apply num_belows in H1 as (ns & -> & F).
    exists (mkLab a ns). split; [reflexivity|now split].
Qed.
Lemma rep_pid {A} t (g : A -> gval) P : rep t g P -> rep (TPid t) (g_pid g) (pid_any P).
Proof.
  intros R. split.
  - intros a [H1 H3]. split; [|now apply R]. now exists (pid a).
  - intros v H. destruct v; cbn [typed] in H; try contradiction. destruct H as ((n & -> & H1) & H3). use R H3. exists (mkPid n a). split; [reflexivity|now split].
Qed.
Ltac conj := first [assumption|exact I|match goal with |- ?G => match eval hnf in G with _ /\ _ => split end end; conj].
Ltac done_rep := split; [reflexivity|conj].
Lemma rep_labels : rep T_Labels g_nums u32s.
Proof. exact (rep_nums 32). Qed.
Lemma rep_l2a : rep T_AddrL2 g_l2a l2a_any.
Proof.
  split.
  - intros a (H1 & H2 & H3 & H4 & H5). apply rep_rd in H1. apply rep_labels in H5. repeat (split; [assumption|]). exact I.
  - intros v H. open_struct v H. use rep_rd H0. use (rep_uint 16) H1. use (rep_uint 16) H2. use (rep_uint 16) H3. use rep_labels H4.
    exists (mkL2A a a0 a1 a2 a3). done_rep.
Qed.
Lemma rep_l2 : rep T_L2 g_l2 l2_any.
Proof.
  split.
  - intros a (H1 & H2 & H3 & H4). apply rep_rd in H1. repeat (split; [assumption|]). exact I.
  - intros v H. open_struct v H. use rep_rd H0. use (rep_uint 16) H1. use (rep_uint 16) H2. use (rep_uint 16) H3. exists (mkL2 a a0 a1 a2). done_rep.
Qed.
Lemma rep_mvpn3 : rep T_Mvpn3 g_mvpn3 mv3_any.
Proof.
  split.
  - intros a (H1 & H2 & H3 & H4). apply rep_rd in H1. repeat (split; [assumption|]). exact I.
  - intros v H. open_struct v H. use rep_rd H0. use rep_ip H1. use rep_ip H2. use rep_ip H3. exists (mkMvpn3 a a0 a1 a2). done_rep.
Qed.
Lemma rep_mvpn67 : rep T_Mvpn67 g_mvpn67 mv67_any.
Proof.
  split.
  - intros a (H1 & H2 & H3 & H4). apply rep_rd in H1. repeat (split; [assumption|]). exact I.
  - intros v H. open_struct v H. use rep_rd H0. use (rep_uint 32) H1. use rep_ip H2. use rep_ip H3. exists (mkMvpn67 a a0 a1 a2). done_rep.
Qed.
Lemma enum_typed vs v : typed (enum vs) v -> exists i p, v = GVariant i p /\ typed_vs p (map (fun f => (txt (fst f), snd f)) vs) i.
Proof. intros H. destruct v; cbn [typed enum] in H; try contradiction. eauto. Qed.
(** one goal per variant *)
Lemma vs_cons p nm ot vs i : typed_vs p ((nm, ot) :: vs) i ->
  (i = O /\ match ot with Some t => exists v, p = Some v /\ typed t v | None => p = None end) \/ (exists j, i = S j /\ typed_vs p vs j).
Proof. destruct i as [|j], ot as [t|]; intros H; [left|left|right|right]; eauto. destruct p as [v|]; [eauto|contradiction]. Qed.
Ltac variants H i :=
  match type of H with
  | typed_vs _ [] i => contradiction H
  | typed_vs _ (_ :: _) i => let j := fresh "i" in apply vs_cons in H; destruct H as [[-> H]|(j & -> & H)]; [|variants H j]
  end.
Ltac open_enum v H :=
  apply enum_typed in H; let i := fresh "i" in let p := fresh "p" in destruct H as (i & p & -> & H); cbn [map fst snd] in H; variants H i;
  [(subst p + (let v := fresh "v" in destruct H as (v & -> & H)))..].
Lemma rep_mvpn : rep T_Mvpn g_mvpn mv_any.
Proof.
  split.
  - intros [r|r|r|r|r|r|r] H; cbn [mv_any] in H; cbn [g_mvpn].
    + destruct H as [H1 H2]. apply rep_rd in H1. repeat (split; [assumption|]). exact I.
    + destruct H as [H1 H2]. apply rep_rd in H1. repeat (split; [assumption|]). exact I.
    + now apply rep_mvpn3.
    + destruct H as [H1 H2]. apply rep_mvpn3 in H1. repeat (split; [assumption|]). exact I.
    + destruct H as (H1 & H2 & H3). apply rep_rd in H1. repeat (split; [assumption|]). exact I.
    + now apply rep_mvpn67.
    + now apply rep_mvpn67.
  - intros v H. unfold T_Mvpn in H. open_enum v H.
    + open_struct v H. use rep_rd H0. use rep_ip H1. exists (MvT1 (mkMvpn1 a a0)). done_rep.
    + open_struct v H. use rep_rd H0. use (rep_uint 32) H1. exists (MvT2 (mkMvpn2 a a0)). done_rep.
    + use rep_mvpn3 H. exists (MvT3 a). done_rep.
    + open_struct v H. use rep_mvpn3 H0. use rep_ip H1. exists (MvT4 (mkMvpn4 a a0)). done_rep.
    + open_struct v H. use rep_rd H0. use rep_ip H1. use rep_ip H2. exists (MvT5 (mkMvpn5 a a0 a1)). done_rep.
    + use rep_mvpn67 H. exists (MvT6 a). done_rep.
    + use rep_mvpn67 H. exists (MvT7 a). done_rep.
Qed.
Lemma rep_optip : rep (TOpt TIp) g_opt (fun o => match o with None => True | Some a => ip_any a end).
Proof.
  split; [now intros [a|] H|]. intros v H. destruct v; cbn [typed] in H; try contradiction; [now exists None|]. use rep_ip H. now exists (Some a).
Qed.
Lemma rep_evpn : rep T_Evpn g_evpn evr_any.
Proof.
  split.
  - intros [r|r|r|r|r] H; cbn [evr_any] in H; cbn [g_evpn].
    + destruct H as (H1 & H2 & H3 & H4 & H5). apply rep_rd in H1. apply rep_arr in H3. apply rep_labels in H5. repeat (split; [assumption|]). exact I.
    + destruct H as (H1 & H2 & H3 & H4 & H5 & H6 & H7). apply rep_rd in H1. apply rep_arr in H3. apply rep_arr in H5. apply rep_optip in H6. apply rep_labels in H7.
      repeat (split; [assumption|]). exact I.
    + destruct H as (H1 & H2 & H3). apply rep_rd in H1. repeat (split; [assumption|]). exact I.
    + destruct H as (H1 & H2 & H3 & H4). apply rep_rd in H1. apply rep_arr in H3. repeat (split; [assumption|]). exact I.
    + destruct H as (H1 & H2 & H3 & H4 & H5 & H6 & H7 & H8). apply rep_rd in H1. apply rep_arr in H3. apply rep_labels in H8. repeat (split; [assumption|]). exact I.
  - intros v H. unfold T_Evpn in H. open_enum v H.
    + open_struct v H. use rep_rd H0. use (rep_uint 8) H1. use (rep_arr 9) H2. use (rep_uint 32) H3. use rep_labels H4. exists (Ev1 (mkEvpn1 a a0 a1 a2 a3)). done_rep.
    + open_struct v H. use rep_rd H0. use (rep_uint 8) H1. use (rep_arr 9) H2. use (rep_uint 32) H3. use (rep_arr 6) H4. use rep_optip H5. use rep_labels H6.
      exists (Ev2 (mkEvpn2 a a0 a1 a2 a3 a4 a5)). done_rep.
    + open_struct v H. use rep_rd H0. use (rep_uint 32) H1. use rep_ip H2. exists (Ev3 (mkEvpn3 a a0 a1)). done_rep.
    + open_struct v H. use rep_rd H0. use (rep_uint 8) H1. use (rep_arr 9) H2. use rep_ip H3. exists (Ev4 (mkEvpn4 a a0 a1 a2)). done_rep.
    + open_struct v H. use rep_rd H0. use (rep_uint 8) H1. use (rep_arr 9) H2. use (rep_uint 32) H3. use (rep_uint 8) H4. use rep_ip H5. use rep_ip H6. use rep_labels H7.
      exists (Ev5 (mkEvpn5 a a0 a1 a2 a3 a4 a5 a6)). done_rep.
Qed.
Lemma rep_fsval : rep T_FsVal g_fsval (fun x => fv_value x < 2 ^ 32).
Proof.
  split.
  - intros a H. repeat (split; [exact I|]). split; [exact H|try exact I].
  - intros v H. open_struct v H. use rep_bool H0. use rep_bool H1. use rep_bool H2. use rep_bool H3. use (rep_uint 32) H4. exists (mkFsVal a a0 a1 a2 a3). done_rep.
Qed.
Lemma rep_fsmask : rep T_FsMask g_fsmask (fun x => fm_value x < 2 ^ 32).
Proof.
  split.
  - intros a H. repeat (split; [exact I|]). split; [exact H|try exact I].
  - intros v H. open_struct v H. use rep_bool H0. use rep_bool H1. use rep_bool H2. use (rep_uint 32) H3. exists (mkFsMask a a0 a1 a2). done_rep.
Qed.
Lemma rep_fs6 : rep T_Fs6 g_fs6 fs6_any.
Proof.
  split; [now intros a [[H1 H2] H3]|]. intros v H. open_struct v H. use rep_v6 H0. use (rep_uint 8) H1. exists (mkFs6 a a0). done_rep.
Qed.
Lemma rep_flow {A} t (g : A -> gval) P : rep t g P -> rep (T_Flow t) (g_flow g) (flow_any P).
Proof.
  intros R. pose proof (rep_vec _ _ _ rep_fsval) as RV. pose proof (rep_vec _ _ _ rep_fsmask) as RM. split.
  - intros [a|a|v|v|v|v|v|v|v|v|v|v|v] H; cbn [flow_any] in H; first [apply R in H|apply RV in H|apply RM in H]; exact H.
  - intros v H. destruct v; cbn [typed T_Flow] in H; try contradiction. destruct p as [v|]; [|contradiction].
    destruct i as [|i]; [use R H; now exists (FsDst a)|].
    destruct i as [|i]; [use R H; now exists (FsSrc a)|].
    destruct i as [|i]; [use RV H; now exists (FsProto a)|].
    destruct i as [|i]; [use RV H; now exists (FsPortAny a)|].
    destruct i as [|i]; [use RV H; now exists (FsPortDst a)|].
    destruct i as [|i]; [use RV H; now exists (FsPortSrc a)|].
    destruct i as [|i]; [use RV H; now exists (FsIcmpType a)|].
    destruct i as [|i]; [use RV H; now exists (FsIcmpCode a)|].
    destruct i as [|i]; [use RM H; now exists (FsTcpFlags a)|].
    destruct i as [|i]; [use RV H; now exists (FsPacketLength a)|].
    destruct i as [|i]; [use RV H; now exists (FsDscp a)|].
    destruct i as [|i]; [use RM H; now exists (FsFragment a)|].
    destruct i as [|i]; [use RV H; now exists (FsFlowLabel a)|].
    contradiction H.
Qed.
Lemma rep_addr : rep T_Addr g_addr addr_any.
Proof.
  split.
  - intros [|a|a|rd a|rd a|x|r] H; cbn [addr_any] in H; cbn [g_addr]; try exact H.
    + reflexivity.
    + destruct H as [H1 H2]. apply rep_rd in H1. repeat (split; [assumption|]). exact I.
    + destruct H as [H1 H2]. apply rep_rd in H1. repeat (split; [assumption|]). exact I.
    + now apply rep_l2.
    + now apply rep_mvpn.
  - intros v H. unfold T_Addr in H. open_enum v H.
    + now exists BANone.
    + use rep_ip4 H. now exists (BAV4 a).
    + use rep_ip6 H. now exists (BAV6 a).
    + open_struct v H. use rep_rd H0. use rep_ip4 H1. now exists (BAV4RD a a0).
    + open_struct v H. use rep_rd H0. use rep_ip6 H1. now exists (BAV6RD a a0).
    + use rep_l2 H. now exists (BAL2 a).
    + use rep_mvpn H. now exists (BAMVPN a).
Qed.
Ltac vec_tac := first
  [ exact (rep_vec _ _ _ rep_v4) | exact (rep_vec _ _ _ rep_v6)
  | exact (rep_vec _ _ _ (rep_lab _ _ _ rep_v4)) | exact (rep_vec _ _ _ (rep_lab _ _ _ rep_v6))
  | exact (rep_vec _ _ _ (rep_lab _ _ _ (rep_wrd _ _ _ rep_v4))) | exact (rep_vec _ _ _ (rep_lab _ _ _ (rep_wrd _ _ _ rep_v6)))
  | exact (rep_vec _ _ _ (rep_wrd _ _ _ rep_mdt4)) | exact (rep_vec _ _ _ (rep_wrd _ _ _ rep_mdt6))
  | exact (rep_vec _ _ _ (rep_pid _ _ _ (rep_wrd _ _ _ rep_mdt4))) | exact (rep_vec _ _ _ (rep_pid _ _ _ (rep_wrd _ _ _ rep_mdt6)))
  | exact (rep_vec _ _ _ rep_l2a) | exact (rep_vec _ _ _ rep_mvpn) | exact (rep_vec _ _ _ rep_evpn)
  | exact (rep_vec _ _ _ (rep_flow _ _ _ rep_v4)) | exact (rep_vec _ _ _ (rep_flow _ _ _ rep_fs6)) | exact (rep_vec _ _ _ (rep_flow _ _ _ (rep_wrd _ _ _ rep_v4)))
  | exact (rep_vec _ _ _ (rep_pid _ _ _ rep_v4)) | exact (rep_vec _ _ _ (rep_pid _ _ _ rep_v6))
  | exact (rep_vec _ _ _ (rep_pid _ _ _ (rep_lab _ _ _ rep_v4))) | exact (rep_vec _ _ _ (rep_pid _ _ _ (rep_lab _ _ _ rep_v6)))
  | exact (rep_vec _ _ _ (rep_pid _ _ _ (rep_lab _ _ _ (rep_wrd _ _ _ rep_v4)))) | exact (rep_vec _ _ _ (rep_pid _ _ _ (rep_lab _ _ _ (rep_wrd _ _ _ rep_v6)))) ].
(** every variant of the route lists: its position, the type of its elements, its values *)
Lemma enum_case vs : forall i nm t v, nth_error vs i = Some (nm, Some t) -> typed t v -> typed (TEnum vs) (GVariant i (Some v)).
Proof.
  intros i nm t v E T. change (typed_vs (Some v) vs i). revert i E. induction vs as [|[nm' ot] vs IH]; intros [|i] E; cbn in E; try discriminate.
  - injection E as _ ->. exact T.
  - destruct ot; exact (IH i E).
Qed.
Lemma rep_addrs : rep T_Addrs g_addrs addrs_any.
Proof.
  split.
  - intros a H. destruct a; cbn [addrs_any] in H; cbn [g_addrs]; [reflexivity|..];
      (eapply enum_case; [reflexivity|]);
      match goal with |- typed ?t (g_vec ?g ?l) => 
        match type of H with Forall ?P l => let R := fresh "R" in assert (R : rep t (g_vec g) (Forall P)) by vec_tac; exact (proj1 R l H) end
      end.
  - intros v H. unfold T_Addrs in H. open_enum v H; [now exists ANone|..].
    + use (rep_vec _ _ _ rep_v4) H. now exists (IPV4U a).
    + use (rep_vec _ _ _ rep_v4) H. now exists (IPV4M a).
    + use (rep_vec _ _ _ (rep_lab _ _ _ rep_v4)) H. now exists (IPV4LU a).
    + use (rep_vec _ _ _ (rep_lab _ _ _ (rep_wrd _ _ _ rep_v4))) H. now exists (VPNV4U a).
    + use (rep_vec _ _ _ (rep_lab _ _ _ (rep_wrd _ _ _ rep_v4))) H. now exists (VPNV4M a).
    + use (rep_vec _ _ _ (rep_wrd _ _ _ rep_mdt4)) H. now exists (IPV4MDT a).
    + use (rep_vec _ _ _ (rep_pid _ _ _ (rep_wrd _ _ _ rep_mdt4))) H. now exists (IPV4MDTP a).
    + use (rep_vec _ _ _ rep_v6) H. now exists (IPV6U a).
    + use (rep_vec _ _ _ rep_v6) H. now exists (IPV6M a).
    + use (rep_vec _ _ _ (rep_lab _ _ _ rep_v6)) H. now exists (IPV6LU a).
    + use (rep_vec _ _ _ (rep_lab _ _ _ (rep_wrd _ _ _ rep_v6))) H. now exists (VPNV6U a).
    + use (rep_vec _ _ _ (rep_lab _ _ _ (rep_wrd _ _ _ rep_v6))) H. now exists (VPNV6M a).
    + use (rep_vec _ _ _ (rep_wrd _ _ _ rep_mdt6)) H. now exists (IPV6MDT a).
    + use (rep_vec _ _ _ (rep_pid _ _ _ (rep_wrd _ _ _ rep_mdt6))) H. now exists (IPV6MDTP a).
    + use (rep_vec _ _ _ rep_l2a) H. now exists (L2VPLS a).
    + use (rep_vec _ _ _ rep_mvpn) H. now exists (MVPN a).
    + use (rep_vec _ _ _ rep_evpn) H. now exists (EVPN a).
    + use (rep_vec _ _ _ (rep_flow _ _ _ rep_v4)) H. now exists (FS4U a).
    + use (rep_vec _ _ _ (rep_flow _ _ _ rep_fs6)) H. now exists (FS6U a).
    + use (rep_vec _ _ _ (rep_flow _ _ _ (rep_wrd _ _ _ rep_v4))) H. now exists (FSV4U a).
    + use (rep_vec _ _ _ (rep_pid _ _ _ rep_v4)) H. now exists (IPV4UP a).
    + use (rep_vec _ _ _ (rep_pid _ _ _ rep_v4)) H. now exists (IPV4MP a).
    + use (rep_vec _ _ _ (rep_pid _ _ _ (rep_lab _ _ _ rep_v4))) H. now exists (IPV4LUP a).
    + use (rep_vec _ _ _ (rep_pid _ _ _ (rep_lab _ _ _ (rep_wrd _ _ _ rep_v4)))) H. now exists (VPNV4UP a).
    + use (rep_vec _ _ _ (rep_pid _ _ _ (rep_lab _ _ _ (rep_wrd _ _ _ rep_v4)))) H. now exists (VPNV4MP a).
    + use (rep_vec _ _ _ (rep_pid _ _ _ rep_v6)) H. now exists (IPV6UP a).
    + use (rep_vec _ _ _ (rep_pid _ _ _ rep_v6)) H. now exists (IPV6MP a).
    + use (rep_vec _ _ _ (rep_pid _ _ _ (rep_lab _ _ _ rep_v6))) H. now exists (IPV6LUP a).
    + use (rep_vec _ _ _ (rep_pid _ _ _ (rep_lab _ _ _ (rep_wrd _ _ _ rep_v6)))) H. now exists (VPNV6UP a).
    + use (rep_vec _ _ _ (rep_pid _ _ _ (rep_lab _ _ _ (rep_wrd _ _ _ rep_v6)))) H. now exists (VPNV6MP a).
Qed.
