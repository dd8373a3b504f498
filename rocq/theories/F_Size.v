(** What is received bounds what is built. *)
From Verif Require Import Base BaseFacts M_Util S_Wire M_Prefix S_Prefix M_Nlri S_Nlri M_Vpls M_Cap S_Cap M_Open M_Session M_Mvpn S_Mvpn M_Evpn S_Evpn M_Flowspec S_Flowspec M_Addrs S_Addrs
  M_Attr S_Attr S_Attr3 M_Update M_Bmp S_Exact S_Exact2 S_Exact3 S_Exact4 S_Size F_Attr F_Attr4 F_Exact4 F_Exact6 F_Exact7 F_Exact8.
From Verif Require S_Bmp.
Ltac Zify.zify_post_hook ::= idtac.

(** ** Routes *)
Lemma stack_len oc bits b ls : stack_of oc bits b ls -> (3 * length ls <= length b)%nat.
Proof. induction 1; cbn [length] in *; lia. Qed.

Section Lists.
Context {T : Type} (w : T -> nat) (P : reading T) (HP : forall b x k, P b x k -> (w x <= k)%nat /\ (w x <= length b)%nat).
Lemma many_size b v n : many P b v n -> (total w v <= length b)%nat.
Proof.
  induction 1 as [|b x k v n Hb HX _ IH]; [apply Nat.le_refl|]. apply HP in HX as [H1 H2].
  unfold total in *. cbn [map list_sum fold_right]. change (fold_right Nat.add 0%nat (map w v)) with (list_sum (map w v)).
  rewrite skipn_length in IH. lia.
Qed.
Lemma many_pid_size b v n : many_pid P b v n -> (total (fun x => w (pid_nlri x)) v <= length b)%nat.
Proof.
  induction 1 as [b _|b i s x k v n E _ Hs HX _ IH]; [apply Nat.le_0_l|]. apply HP in HX as [H1 H2].
  unfold total in *. cbn [map list_sum fold_right pid_nlri]. change (fold_right Nat.add 0%nat (map ?f v)) with (list_sum (map f v)).
  rewrite skipn_length in IH. subst b. rewrite app_length, length_be_bytes. lia.
Qed.
End Lists.
Lemma total_one {T} (v : list T) : total (fun _ => 1%nat) v = length v.
Proof. unfold total. induction v; cbn [map list_sum fold_right length]; [reflexivity|]. change (fold_right Nat.add 0%nat (map ?f v)) with (list_sum (map f v)). now rewrite IHv. Qed.
Lemma many_len {T} (P : reading T) b v n : (forall b x k, P b x k -> (1 <= k)%nat /\ (1 <= length b)%nat) -> many P b v n -> (length v <= length b)%nat.
Proof. intros H M. rewrite <- total_one. apply (many_size (fun _ => 1%nat) P H b v n M). Qed.
Lemma many_pid_len {T} (P : reading T) b v n : (forall b x k, P b x k -> (1 <= k)%nat /\ (1 <= length b)%nat) -> many_pid P b v n -> (length v <= length b)%nat.
Proof. intros H M. rewrite <- total_one. apply (many_pid_size (fun _ => 1%nat) P H b v n M). Qed.

Lemma item_one {T} oc (P : bit_reading T) b x k : item oc P b x k -> (1 <= k)%nat /\ (1 <= length b)%nat.
Proof. intros (bits & s & m & -> & _ & ->). cbn [length]. lia. Qed.
Lemma item_lab {T} oc (P : bit_reading T) b x k : item oc (labelled P) b x k -> (lab_size x <= k)%nat /\ (lab_size x <= length b)%nat.
Proof.
  intros (bits & s & m & -> & (left & j & HS & _ & _ & ->) & ->). apply stack_len in HS. unfold lab_size. cbn [length]. lia.
Qed.
Lemma mv_one m b x k : mv_reads m b x k -> (1 <= k)%nat /\ (1 <= length b)%nat.
Proof. intros (body & rest & j & -> & _ & _ & ->). cbn [length]. lia. Qed.
Lemma ev_one oc b x k : ev_reads oc b x k -> (ev_size x <= k)%nat /\ (ev_size x <= length b)%nat.
Proof.
  intros (body & rest & j & -> & _ & H & ->). cbn [length]. rewrite app_length. destruct x as [r|r|r|r|r]; cbn [ev_body_reads ev_size] in *; try (cbn [length]; lia).
  - destruct H as (s & -> & _ & _ & _ & HS & ->). apply stack_len in HS. rewrite !app_length. lia.
  - destruct H as (s & -> & _ & _ & _ & _ & _ & HS & ->). apply stack_len in HS. rewrite !app_length. lia.
  - destruct H as (a & g & t & u & s & -> & _ & L3 & _ & _ & _ & _ & _ & _ & _ & _ & HS & ->). apply stack_len in HS. rewrite !app_length. lia.
Qed.
Lemma val_len b v n : many val_reads b v n -> (length v <= n)%nat /\ (length v <= length b)%nat.
Proof.
  intros M. split; [|apply (many_len val_reads b v n); [|exact M]].
  - induction M as [|b x k v n _ (o & j & r & _ & _ & _ & _ & _ & _ & _ & ->) _ IH]; cbn [length]; lia.
  - intros b' x k (o & j & r & -> & _ & _ & _ & _ & _ & _ & ->). cbn [length]. lia.
Qed.
Lemma mask_len b v n : many mask_reads b v n -> (length v <= n)%nat /\ (length v <= length b)%nat.
Proof.
  intros M. split; [|apply (many_len mask_reads b v n); [|exact M]].
  - induction M as [|b x k v n _ (o & j & r & _ & _ & _ & _ & _ & _ & ->) _ IH]; cbn [length]; lia.
  - intros b' x k (o & j & r & -> & _ & _ & _ & _ & _ & ->). cbn [length]. lia.
Qed.
Lemma rule_len b rule h : rule_reads b rule h -> (1 <= h)%nat /\ (length rule <= length b)%nat.
Proof.
  intros (rest & [(-> & _ & ->)|(-> & hi & lo & _ & _ & _ & ->)]); cbn [length]; rewrite app_length; lia.
Qed.
Lemma fs_one {T} (P : reading T) b x k : fs_reads P b x k -> (fs_size x <= k)%nat /\ (fs_size x <= length b)%nat.
Proof.
  intros (h & body & j & HR & H). apply rule_len in HR as [H1 H2]. cbn [length] in H2.
  destruct x; cbn [fs_size]; destruct H as [H ->]; try (apply val_len in H); try (apply mask_len in H); lia.
Qed.
Lemma vpls_one oc b x k : vpls_reads oc b x k -> (S (length (l2a_labels x)) <= k)%nat /\ (S (length (l2a_labels x)) <= length b)%nat.
Proof.
  intros (d & s & r & -> & -> & L & _ & E & _ & _ & _ & _ & HS). apply stack_len in HS.
  assert (LD := f_equal (@length N) E). rewrite !app_length, !length_be_bytes in *. lia.
Qed.
Lemma family_one {T} oc (P : bit_reading T) (plain : list T -> addrs) withid p afi sf b a n :
  (forall v, addrs_size (plain v) = length v) -> (forall v, addrs_size (withid v) = length v) ->
  family oc P plain withid p afi sf b a n -> (addrs_size a <= length b)%nat.
Proof.
  intros H1 H2 [(_ & v & M & ->)|(_ & v & M & ->)].
  - rewrite H2. exact (many_pid_len _ b v n (item_one oc P) M).
  - rewrite H1. exact (many_len _ b v n (item_one oc P) M).
Qed.
Lemma family_lab {T} oc (P : bit_reading T) (plain : list (labeled T) -> addrs) withid p afi sf b a n :
  (forall v, addrs_size (plain v) = total lab_size v) -> (forall v, addrs_size (withid v) = total pid_size v) ->
  family oc (labelled P) plain withid p afi sf b a n -> (addrs_size a <= length b)%nat.
Proof.
  intros H1 H2 [(_ & v & M & ->)|(_ & v & M & ->)].
  - rewrite H2. exact (many_pid_size lab_size _ (item_lab oc P) b v n M).
  - rewrite H1. exact (many_size lab_size _ (item_lab oc P) b v n M).
Qed.
Ltac fam := first [eapply family_one; [| |eassumption]; reflexivity|eapply family_lab; [| |eassumption]; reflexivity].
Lemma nlri_size oc p afi sf b a n : nlri_reads oc p afi sf b a n -> (addrs_size a <= length b)%nat.
Proof.
  intros H. unfold nlri_reads in H.
  repeat match type of H with match ?x with _ => _ end => destruct x; try contradiction end; try fam;
  destruct H as (v & M & ->); cbn [addrs_size].
  all: first [exact (many_len _ b v n (mv_one _) M)|exact (many_size ev_size _ (ev_one oc) b v n M)|exact (many_size _ _ (vpls_one oc) b v n M)
             |exact (many_size fs_size _ (fs_one _) b v n M)].
Qed.

(** ** Attributes *)
Lemma asc_nodup {A} (cmp : A -> A -> comparison) l : (forall x, cmp x x = Eq) -> ascending cmp l -> NoDup l.
Proof.
  intros R. induction l as [|x l IH]; cbn [ascending]; [constructor|]. intros [H1 H2]. constructor; [|auto].
  intros I. rewrite Forall_forall in H1. specialize (H1 x I). rewrite R in H1. discriminate.
Qed.
Lemma set_len {A} (cmp : A -> A -> comparison) v s : cmp_laws cmp -> set_from cmp v s -> (length s <= length v)%nat.
Proof.
  intros L [H1 H2]. apply NoDup_incl_length; [|intros x I; now apply H2]. apply (asc_nodup cmp); [|exact H1].
  intros x. now apply (cl_eq _ L).
Qed.
Lemma flat_len {A} (f : A -> list N) v : (forall x, (1 <= length (f x))%nat) -> (length v <= length (flat_map f v))%nat.
Proof. intros H. induction v as [|x v IH]; cbn [flat_map length]; [lia|]. rewrite app_length. specialize (H x). lia. Qed.
Lemma ip_len x : (1 <= length (ip_bytes x))%nat.
Proof. destruct x; cbn [ip_bytes]; rewrite length_be_bytes; lia. Qed.
Lemma payload_size p tc b a : payload p tc b a -> (attr_size a <= S (length b))%nat.
Proof.
  intros H. unfold payload in H.
  repeat match type of H with match ?x with _ => _ end => destruct x; try contradiction end;
  repeat match goal with H : exists _, _ |- _ => destruct H | H : _ /\ _ |- _ => destruct H | H : _ \/ _ |- _ => destruct H end; subst;
  cbn [attr_size]; try (apply le_n_S, Nat.le_0_l); apply le_n_S; rewrite ?app_length.
  all: try match goal with H : set_from ?c _ _ |- _ => apply set_len in H; [|first [apply N_laws|apply ecomm_laws|apply lcomm_laws]] end.
  all: match goal with |- context [flat_map ?f ?v] => pose proof (flat_len f v) as F end.
  all: match type of F with ?X -> _ => assert (G : X) end.
  all: try (intros ?; first [rewrite length_be_bytes; unfold as_octets; destruct (sp_as32 p); lia|apply ip_len
      |unfold ecomm_wire; rewrite !app_length; cbn [length]; lia|unfold lcomm_wire; rewrite !app_length, !length_be_bytes; lia]).
  all: specialize (F G); lia.
Qed.
Lemma snpas_len k s rest : snpas k s rest -> (length rest <= length s)%nat.
Proof. induction 1; cbn [length]; rewrite ?app_length; lia. Qed.
Lemma pmsi_size b x : pmsi_reads b x -> (length (pm_label x) + tun_size (pm_tun x) <= length b)%nat.
Proof.
  intros (l0 & l1 & l2 & r & -> & -> & H). cbn [app length]. destruct (pm_tun x); cbn [tunnel_reads tun_size] in *; try lia.
  destruct H as (_ & a & s & _ & _ & _ & _ & ->). rewrite !app_length. lia.
Qed.
Lemma area_size (R : N -> N -> nat -> list N -> attr -> Prop) k : (forall tc f n d a, (length d < k)%nat -> R tc f n d a -> (attr_size a <= S (length d))%nat) ->
  forall s v, area_of R s v -> (length s <= k)%nat -> (total attr_size v <= length s)%nat.
Proof.
  intros HR s v A. induction A as [|f tc d s a v F HA _ IH]; intros L; [apply Nat.le_0_l|].
  rewrite app_length, length_frame in *. unfold total in *. cbn [map list_sum fold_right]. change (fold_right Nat.add 0%nat (map ?f v)) with (list_sum (map f v)).
  apply HR in HA; [|lia]. unfold len_octets in *. destruct (fl_extended f); lia.
Qed.
Lemma attr_size_l oc p : forall k tc f n b a, (length b < k)%nat -> attr_reads oc p tc f n b a -> (attr_size a <= S (length b))%nat.
Proof.
  induction k as [|k IH]; intros tc f n b a L H; [lia|].
  destruct H as [tc f n b a _ H|f n b nh a H|f n b a H|f n b x H|f n asn s v _ _ H|tc f n v r _ E]; cbn [attr_size].
  - exact (payload_size p tc b a H).
  - destruct H as (afi & sf & nhlen & h & c & s & rest & m & -> & _ & _ & HS & HN). apply nlri_size in HN. apply snpas_len in HS.
    rewrite !app_length. lia.
  - destruct H as (afi & sf & s & m & -> & _ & HN). apply nlri_size in HN. rewrite !app_length. lia.
  - apply pmsi_size in H. lia.
  - rewrite app_length, length_be_bytes in *. apply (area_size _ k IH) in H; [|lia]. unfold total in *. lia.
  - rewrite app_length. lia.
Qed.
Lemma attr_size_ok oc p tc f n b a : attr_reads oc p tc f n b a -> (attr_size a <= S (length b))%nat.
Proof. apply (attr_size_l oc p (S (length b))). lia. Qed.
Lemma plain_size oc p b a : plain_nlri oc p b a -> (addrs_size a <= length b)%nat.
Proof. intros [n H]. destruct (sp_mode p); exact (nlri_size _ _ _ _ _ _ _ H). Qed.
Lemma update_reads_size oc p b wd v up : update_reads oc p b wd v up -> (addrs_size up + addrs_size wd + total attr_size v <= length b)%nat.
Proof.
  intros (w & s & nl & -> & _ & _ & HW & HA & HU). apply plain_size in HW, HU.
  apply (area_size _ (S (length s))) in HA; [|intros; eapply attr_size_ok; eassumption|lia]. rewrite !app_length. lia.
Qed.
Lemma routes_bound oc p afi sf b a n : bytes_ok b -> addrs_decode oc p afi sf b = Ok (a, n) -> (addrs_size a <= length b)%nat.
Proof. intros B H. apply nlri_exact_l in H; [|exact B]. exact (nlri_size _ _ _ _ _ _ _ H). Qed.
Lemma attr_bound oc p tc f n b a : bytes_ok b -> attr_decode oc p tc f n b = Ok a -> (attr_size a <= S (length b))%nat.
Proof. intros B H. apply attr_exact in H; [|exact B]. exact (attr_size_ok _ _ _ _ _ _ _ H). Qed.
Lemma total_app {T} (f : T -> nat) v w : total f (v ++ w) = (total f v + total f w)%nat.
Proof. unfold total. now rewrite map_app, list_sum_app. Qed.
Lemma update_bound oc p m b u : bytes_ok b -> update_decode oc p m b = Ok u -> (update_size u <= total attr_size (u_attrs m) + length b)%nat.
Proof.
  intros B H. destruct u as [up wd l]. apply update_exact' in H as (v & -> & R); [|exact B]. apply update_reads_size in R.
  unfold update_size. cbn [u_updates u_withdraws u_attrs]. rewrite total_app. lia.
Qed.

(** ** Nesting *)
Lemma payload_depth p tc b a : payload p tc b a -> depth a = 0%nat.
Proof.
  intros H. unfold payload in H.
  repeat match type of H with match ?x with _ => _ end => destruct x; try contradiction end;
  repeat match goal with H : exists _, _ |- _ => destruct H | H : _ /\ _ |- _ => destruct H | H : _ \/ _ |- _ => destruct H end; subst; reflexivity.
Qed.
Lemma area_depth (R : N -> N -> nat -> list N -> attr -> Prop) k : (forall tc f n d a, (length d < k)%nat -> R tc f n d a -> (7 * depth a <= length d + 3)%nat) ->
  forall s v, area_of R s v -> (length s <= k)%nat -> (7 * list_max (map depth v) <= length s)%nat.
Proof.
  intros HR s v A. induction A as [|f tc d s a v F HA _ IH]; intros L; [apply Nat.le_0_l|].
  rewrite app_length, length_frame in *. cbn [map list_max fold_right]. change (fold_right Nat.max 0%nat (map depth v)) with (list_max (map depth v)).
  apply HR in HA; [|lia]. unfold len_octets in *. destruct (fl_extended f); lia.
Qed.
Lemma attr_depth_l oc p : forall k tc f n b a, (length b < k)%nat -> attr_reads oc p tc f n b a -> (7 * depth a <= length b + 3)%nat.
Proof.
  induction k as [|k IH]; intros tc f n b a L H; [lia|].
  destruct H as [tc f n b a _ H|f n b nh a H|f n b a H|f n b x H|f n asn s v _ _ H|tc f n v r _ E]; cbn [depth]; try lia.
  - rewrite (payload_depth p tc b a H). lia.
  - rewrite app_length, length_be_bytes in *. apply (area_depth _ k IH) in H; [|lia]. lia.
Qed.
Lemma update_depth oc p b u : bytes_ok b -> update_decode oc p update_new b = Ok u -> Forall (fun a => (7 * depth a <= length b)%nat) (u_attrs u).
Proof.
  intros B H. destruct u as [up wd l]. apply update_exact' in H as (v & E & R); [|exact B]. cbn [u_attrs update_new app] in *. subst l.
  destruct R as (w & s & nl & -> & _ & _ & _ & HA & _).
  apply (area_depth _ (S (length s))) in HA; [|intros tc f n d a _ HR; exact (attr_depth_l oc p (S (length d)) tc f n d a (Nat.lt_succ_diag_r _) HR)|lia].
  apply Forall_forall. intros a I. assert (M : (depth a <= list_max (map depth v))%nat).
  { assert (F := proj1 (list_max_le (map depth v) _) (Nat.le_refl _)). rewrite Forall_forall in F. apply F, in_map, I. }
  rewrite !app_length. lia.
Qed.
Lemma nest_len n : length (nest_octets n) = (4 + 8 * n)%nat.
Proof. induction n as [|n IH]; cbn [nest_octets]; rewrite ?app_length, ?length_be_bytes; cbn [length]; lia. Qed.
Lemma nest_depth n : depth (nest n) = S n.
Proof. induction n as [|n IH]; [reflexivity|]. cbn [nest depth map list_max fold_right]. change (fold_right _ _ _) with (depth (nest n)) || idtac. rewrite IH. lia. Qed.
Lemma nest_reads oc p f m n : sp_as32 p = true -> 8 * N.of_nat n < 65532 -> attr_reads oc p 128 f m (nest_octets n) (nest n).
Proof.
  intros HP. revert f m. induction n as [|n IH]; intros f m L.
  - cbn [nest_octets nest]. apply (ar_set oc p f m 0 [] []); [exact HP|reflexivity|constructor].
  - cbn [nest_octets nest]. apply (ar_set oc p f m 0 _ [nest n]); [exact HP|reflexivity|].
    rewrite <- (app_nil_r (_ ++ be_bytes 2 _ ++ _)).
    apply (area_more _ 208 128 (nest_octets n) [] (nest n) []); [|apply IH; lia|constructor].
    change (len_max 208) with 65535. rewrite nest_len. lia.
Qed.
Lemma bytes_nest n : bytes_ok (nest_octets n).
Proof.
  induction n as [|n IH]; cbn [nest_octets]; apply bytes_app; (split; [repeat (apply Forall_cons; [reflexivity|]); apply Forall_nil|]); [apply Forall_nil|].
  apply bytes_app. split; [repeat (apply Forall_cons; [reflexivity|]); apply Forall_nil|]. apply bytes_app. split; [apply be_bytes_ok|exact IH].
Qed.
Lemma nest_decodes oc p n : sp_as32 p = true -> sp_mode p = ModeV4 -> 8 * N.of_nat n < 65528 ->
  exists b u, bytes_ok b /\ length b = (12 + 8 * n)%nat /\ update_decode oc p update_new b = Ok u /\ u_attrs u = [nest n].
Proof.
  intros HP HM L. exists (be_bytes 2 0 ++ [] ++ be_bytes 2 (N.of_nat (length (frame 208 128 (nest_octets n)))) ++ frame 208 128 (nest_octets n) ++ []).
  assert (LF : length (frame 208 128 (nest_octets n)) = (8 + 8 * n)%nat) by (rewrite length_frame, nest_len; change (len_octets 208) with 2%nat; lia).
  assert (B : bytes_ok (frame 208 128 (nest_octets n))).
  { unfold frame. apply bytes_app. split; [repeat (apply Forall_cons; [reflexivity|]); apply Forall_nil|]. apply bytes_app. split; [apply be_bytes_ok|apply bytes_nest]. }
  assert (E : exists a, plain_nlri oc p [] a).
  { unfold plain_nlri. rewrite HM. cbn [nlri_reads].
    destruct (check_addpath_receive p 1 1) eqn:C.
    - exists (IPV4UP []), 0%nat. left. split; [left; exact C|]. exists []. split; [apply many_pid_nil; cbn; lia|reflexivity].
    - exists (IPV4U []), 0%nat. right. split; [|exists []; split; [constructor|reflexivity]].
      intros [F|(_ & F & _)]; [congruence|cbn in F; lia]. }
  destruct E as [a HA].
  exists (mkUpd a a [nest n]). split; [|split; [|split; [|reflexivity]]].
  - apply bytes_app. split; [apply be_bytes_ok|]. apply bytes_app. split; [apply Forall_nil|]. apply bytes_app. split; [apply be_bytes_ok|].
    apply bytes_app. split; [exact B|apply Forall_nil].
  - rewrite !app_length, LF, !length_be_bytes. cbn [length]. lia.
  - apply update_exact'.
    + apply bytes_app. split; [apply be_bytes_ok|]. apply bytes_app. split; [apply Forall_nil|]. apply bytes_app. split; [apply be_bytes_ok|].
      apply bytes_app. split; [exact B|apply Forall_nil].
    + exists [nest n]. split; [reflexivity|]. exists [], (frame 208 128 (nest_octets n)), []. split; [reflexivity|]. split; [reflexivity|].
      split; [rewrite LF; clear - L; change (2 ^ 16) with 65536; lia|]. split; [exact HA|]. split; [|exact HA].
      rewrite <- (app_nil_r (frame 208 128 (nest_octets n))). apply (area_more _ 208 128 (nest_octets n) [] (nest n) []); [|apply nest_reads; [exact HP|lia]|constructor].
      change (len_max 208) with 65535. rewrite nest_len. lia.
Qed.

(** ** OPEN and BMP *)
Lemma row_len {T} (R : list N -> T -> Prop) b v : (forall b x, R b x -> (1 <= length b)%nat) -> in_row R b v -> (length v <= length b)%nat.
Proof.
  intros H (bs & -> & F). induction F as [|b' x bs v HR _ IH]; cbn [concat length]; [lia|]. rewrite app_length. apply H in HR. lia.
Qed.
Lemma cap_bound code d c : cap_reads code d (Some c) -> (cap_size c <= S (length d))%nat.
Proof.
  intros [_ H]. destruct c; cbn [cap_size]; try (apply le_n_S, Nat.le_0_l); apply le_n_S.
  - destruct H as (w & e & _ & -> & _ & _ & H). rewrite app_length. apply row_len in H; [lia|].
    intros b g (_ & fl & _ & -> & _). rewrite app_length. cbn [length]. lia.
  - apply row_len in H; [exact H|]. intros b g (_ & fl & _ & -> & _). rewrite app_length. cbn [length]. lia.
  - apply row_len in H; [exact H|]. intros b g (_ & ->). unfold ll_wire. rewrite !app_length, length_be_bytes. lia.
  - destruct H as (_ & -> & ->). cbn [length]. rewrite app_length. cbn [length]. lia.
Qed.
Lemma caps_bound b v : caps_read b v -> (total cap_size v <= length b)%nat.
Proof.
  unfold total. induction 1 as [|code d c b v _ H _ IH|code d b v _ H _ IH]; cbn [map list_sum fold_right length]; rewrite ?app_length; [lia| |lia].
  change (fold_right Nat.add 0%nat (map ?f v)) with (list_sum (map f v)). apply cap_bound in H. lia.
Qed.
Lemma params_bound b v : params_read b v -> (total cap_size v <= length b)%nat.
Proof.
  induction 1 as [b _|p b v w _ H _ IH]; [apply Nat.le_0_l|]. rewrite total_app. cbn [length]. rewrite app_length. apply caps_bound in H. lia.
Qed.
Lemma open_reads_bound b m : open_reads b m -> (open_size m <= length b)%nat.
Proof. intros (_ & _ & _ & ol & p & -> & H). apply params_bound in H. unfold open_size. rewrite !app_length. lia. Qed.
Lemma open_bound self b m : bytes_ok b -> open_decode self b = Ok m -> (open_size m <= length b)%nat.
Proof. intros B H. apply open_exact in H; [|exact B]. now apply open_reads_bound. Qed.

Definition of_type (t : N) (l : list (N * list N)) : nat := total (fun x => if fst x =? t then length (snd x) else 0%nat) l.
Lemma of_type_in t l x : In x l -> fst x = t -> (length (snd x) <= of_type t l)%nat.
Proof.
  intros I E. unfold of_type, total. induction l as [|y l IH]; [contradiction|]. cbn [map list_sum fold_right]. change (fold_right Nat.add 0%nat (map ?f l)) with (list_sum (map f l)).
  destruct I as [->|I]; [rewrite E, N.eqb_refl; lia|]. specialize (IH I). lia.
Qed.
Lemma last_bound t l : (opt_size (S_Bmp.last_of t l) <= of_type t l)%nat.
Proof.
  unfold S_Bmp.last_of. destruct (find _ (rev l)) as [x|] eqn:E; cbn [option_map opt_size]; [|lia].
  apply find_some in E as [I E]. apply N.eqb_eq in E. apply of_type_in; [now apply in_rev|exact E].
Qed.
Lemma types_bound l : (of_type 0 l + of_type 1 l + of_type 2 l <= length (S_Bmp.tlvs_wire l))%nat.
Proof.
  unfold of_type, total. induction l as [|[t s] l IH]; [apply Nat.le_0_l|]. cbn [map list_sum fold_right fst snd].
  change (fold_right Nat.add 0%nat (map ?f l)) with (list_sum (map f l)).
  change (S_Bmp.tlvs_wire ((t, s) :: l)) with (S_Bmp.tlv t s ++ S_Bmp.tlvs_wire l). rewrite app_length. unfold S_Bmp.tlv. rewrite !app_length.
  destruct (N.eqb_spec t 0) as [->|_]; [change (0 =? 1) with false; change (0 =? 2) with false; cbv iota; lia|].
  destruct (N.eqb_spec t 1) as [->|_]; [change (1 =? 2) with false; cbv iota; lia|]. destruct (N.eqb_spec t 2); lia.
Qed.
Lemma term_bound m b m' : term_reads m b m' -> (opt_size (tm_str m') <= Nat.max (opt_size (tm_str m)) (length b))%nat.
Proof.
  induction 1 as [m b _|m s r m' _ _ _ IH|m v r x y z m' _ _ _ IH|m t v r m' _ _ _ IH]; cbn [tm_str opt_size] in *; unfold S_Bmp.tlv in *; rewrite ?app_length in *; lia.
Qed.
Lemma in_len oc t b o rest : message_in oc t b o rest -> (length o + length rest <= length b)%nat.
Proof. intros (len & _ & _ & _ & ->). rewrite !app_length. lia. Qed.
Lemma bmp_reads_bound oc pars b m : bmp_reads oc pars b m -> (bmp_size m <= length b)%nat.
Proof.
  intros (t & r & -> & H). cbn [length]. destruct m; cbn [bmp_size]; try lia.
  - destruct H as (_ & r' & o & rest & (_ & _ & ->) & HM & HU). apply in_len in HM. apply update_reads_size in HU. rewrite app_length.
    unfold update_size. lia.
  - destruct H as (_ & _ & _ & _ & _ & r' & o1 & r1 & o2 & r2 & (_ & _ & ->) & H1 & HO1 & H2 & HO2).
    apply in_len in H1, H2. apply open_reads_bound in HO1, HO2. rewrite !app_length. lia.
  - destruct H as (_ & l & -> & _ & ->). cbn [in_str in_descr in_name]. pose proof (last_bound 0 l). pose proof (last_bound 1 l). pose proof (last_bound 2 l).
    pose proof (types_bound l). lia.
  - destruct H as (_ & H). apply term_bound in H. cbn [tm_str opt_size] in H. lia.
Qed.
Lemma bmp_bound oc b m : bytes_ok b -> bmp_decode oc b = Ok m -> (bmp_size m <= length b)%nat.
Proof. intros B H. apply bmp_exact in H; [|exact B]. now apply bmp_reads_bound in H. Qed.
Lemma session_bound oc t b m : bytes_ok b -> fst (session_decode oc t b) = Ok m -> (bmp_size m <= length b)%nat.
Proof. intros B H. apply session_exact in H; [|exact B]. now apply bmp_reads_bound in H. Qed.
