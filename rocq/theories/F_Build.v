(** Constructors. *)
From Coq Require Import Ascii String.
From Verif Require Import Base BaseFacts M_Util S_Wire F_Util M_Prefix S_Prefix M_Nlri S_Nlri M_Vpls M_Cap S_Cap M_Open M_Session M_Mvpn S_Mvpn M_Evpn M_Flowspec M_Addrs S_Addrs
  M_Attr S_Attr F_Nlri F_Attr F_Attr2 S_Exact F_Exact4 M_Text S_Text F_Text M_Build S_Build.
Ltac Zify.zify_post_hook ::= idtac.
Close Scope string_scope. Open Scope list_scope. Open Scope N_scope.

(** ** Entries of capabilities *)
Lemma codes_of c : match c with CapMP s => plain_family s /\ afisafi_from_cap c = Ok (mp_code s) \/ ~ plain_family s /\ afisafi_from_cap c = Err EOther
  | _ => afisafi_from_cap c = Err EOther end.
Proof.
  destruct c as [s| | | | | | | |]; try reflexivity.
  destruct s; first [left; split; [repeat split; discriminate|reflexivity]|right; split; [intros (H1 & H2 & H3); congruence|reflexivity]].
Qed.
Lemma entries s fwd flags stale send receive : plain_family s ->
  gr_new_from_cap (CapMP s) fwd = Ok (mkGR (fst (mp_code s)) (snd (mp_code s)) fwd) /\
  ap_new_from_cap (CapMP s) send receive = Ok (mkAP (fst (mp_code s)) (snd (mp_code s)) send receive) /\
  llgr_new_from_cap (CapMP s) flags stale = (if stale <? 2 ^ 24 then Ok (mkLLGR (fst (mp_code s)) (snd (mp_code s)) flags stale) else Err EOther).
Proof.
  intros H. destruct (codes_of (CapMP s)) as [[_ E]|[F _]]; [|contradiction].
  unfold gr_new_from_cap, ap_new_from_cap, llgr_new_from_cap. rewrite E. destruct (mp_code s) as [afi sf]. cbn [bind fst snd].
  split; [reflexivity|]. split; [reflexivity|]. unfold exceeds24. rewrite N.leb_antisym. now destruct (stale <? 2 ^ 24).
Qed.
Lemma entries_refused c fwd flags stale send receive : (forall s, c = CapMP s -> ~ plain_family s) ->
  gr_new_from_cap c fwd = Err EOther /\ ap_new_from_cap c send receive = Err EOther /\ llgr_new_from_cap c flags stale = Err EOther.
Proof.
  intros H. assert (E : afisafi_from_cap c = Err EOther).
  { pose proof (codes_of c) as G. destruct c; try exact G. destruct G as [[F _]|[_ G]]; [elim (H s eq_refl F)|exact G]. }
  unfold gr_new_from_cap, ap_new_from_cap, llgr_new_from_cap. rewrite E. auto.
Qed.
Lemma code_agrees s : s <> SafiIPv4m -> s <> SafiIPv4lu -> mp_code s = safi_codes s.
Proof. destruct s; try reflexivity; congruence. Qed.
Lemma addpath_swapped p send x : sp_caps p = [CapAddPath [x]] ->
  ap_new_from_cap (CapMP SafiIPv4lu) send true = Ok x -> check_addpath_receive p 1 4 = false /\ check_addpath_receive p 1 2 = true.
Proof. intros H E. injection E as <-. unfold check_addpath_receive, find_addpath. rewrite H. split; reflexivity. Qed.

(** ** Announcements *)
Lemma reach_full p nh a : attr_full p (AMPUpdates nh a) = [144; 14] ++ be_bytes 2 (N.of_nat (length (mp_reach_wire nh a))) ++ mp_reach_wire nh a.
Proof. reflexivity. Qed.
Lemma built_written oc p nh a buf : addrs_wf a -> bgpaddr_wf nh -> N.of_nat (length (mp_reach_wire nh a)) <= 65535 ->
  (4 + length (mp_reach_wire nh a) <= length buf)%nat ->
  exists n b, attr_encode oc p (AMPUpdates nh a) buf = Ok (n, [144; 14] ++ be_bytes 2 (N.of_nat (length (mp_reach_wire nh a))) ++ mp_reach_wire nh a ++ b).
Proof.
  intros H1 H2 H3 H4. pose proof (attr_encode_writes oc p (AMPUpdates nh a) (conj H2 H1) H3) as W. apply writes_spec in W.
  eexists _, _. rewrite W.
  - rewrite reach_full. unfold splice. cbn [firstn]. rewrite app_nil_l, <- !app_assoc. reflexivity.
  - rewrite reach_full, !app_length, length_be_bytes. exact H4.
Qed.
Lemma built_arrives oc p nh a buf : addrs_wf a -> nexthop_ok a nh -> session_form p a -> N.of_nat (length (mp_reach_wire nh a)) <= 65535 ->
  (4 + length (mp_reach_wire nh a) <= length buf)%nat ->
  exists n b, attr_encode oc p (AMPUpdates nh a) buf = Ok (n, [144; 14] ++ be_bytes 2 (N.of_nat (length (mp_reach_wire nh a))) ++ mp_reach_wire nh a ++ b) /\
  attr_decode oc p 14 144 (length (mp_reach_wire nh a)) (mp_reach_wire nh a) = Ok (AMPUpdates nh (addrs_trunc a)).
Proof.
  intros H1 H2 H3 H4 H5. destruct (reach_roundtrip oc p nh a buf H1 H2 H3 H4 H5) as [E D]. eexists _, _. split; [|exact D].
  rewrite E, reach_full. try unfold splice; cbn [firstn]; rewrite ?app_nil_l, <- !app_assoc. reflexivity.
Qed.
Lemma ip6lu_refused oc p f n a v : attr_decode oc p 14 f n (mp_reach_wire (BAV4 a) (IPV6LU v)) = Err EOther.
Proof.
  unfold attr_decode. cbn [attr_decode_n N.eqb Pos.eqb]. rewrite mp_reach_afi. reflexivity.
Qed.
Lemma vpnv6_lost oc p f n rd a x nh r : get_afi_safi x = (2, 128) \/ get_afi_safi x = (2, 129) ->
  attr_decode oc p 14 f n (mp_reach_wire (BAV4RD rd a) x) = Ok (AMPUpdates nh r) -> exists rd' a', nh = BAV6RD rd' a'.
Proof.
  intros H E. unfold attr_decode in E. cbn [attr_decode_n N.eqb Pos.eqb] in E. apply bind_Ok_inv in E as ([nh' r'] & E & F). injection F as -> ->.
  rewrite mp_reach_afi in E. apply bind_Ok_inv in E as ([nh' c] & E1 & E).
  do 3 (apply bind_Ok_inv in E as (? & _ & E)). apply bind_Ok_inv in E as ([? ?] & _ & E). injection E as -> _.
  unfold mp_nexthop in E1. destruct H as [H|H]; rewrite H in E1; cbn [fst snd N.eqb Pos.eqb orb] in E1; apply bind_Ok_inv in E1 as (? & _ & E1); apply bind_Ok_inv in E1 as ([[? ?] ?] & _ & E1); injection E1 as <- _; eauto.
Qed.

(** ** Labels *)
Lemma nl_labels oc p v b r n : addrs_decode oc p 1 4 b = Ok (IPV4LU (v :: r), n) -> bytes_ok b -> nth_error b 0 <> Some 0 -> lab_labels v <> [].
Proof.
  intros D B Z E. apply nlri_exact_l in D; [|exact B]. destruct D as [(_ & w & _ & F)|(_ & w & M & F)]; [discriminate|]. injection F as <-.
  inversion M as [|b' x k w n' _ (bits & s & m & -> & (left & j & HS & _) & _) _]; subst. rewrite E in HS. inversion HS. subst. now apply Z.
Qed.
Lemma on_from_0 {A} (e : Enc A) buf : on_from 0 e buf = e buf.
Proof. unfold on_from. cbn [Nat.leb skipn firstn app]. now destruct (e buf) as [[]| | |]. Qed.
Lemma nl_set oc x buf : v4_len x < 256 -> labeled_set v4_to_bits oc (labeled_new_nl x) buf = v4_to_bits oc x buf.
Proof.
  intros H. unfold labeled_set, labeled_new_nl. cbn [lab_labels lab_prefix labels_set]. unfold ebind at 1, eret at 1. cbv beta iota.
  unfold ebind at 1. rewrite on_from_0.
  assert (G : forall r, v4_to_bits oc x buf = Ok r -> fst (fst r) = v4_len x).
  { intros [[pb pn] b] E. unfold v4_to_bits in E. destruct (N.eqb_spec (v4_len x) 0) as [Z|Z]; [injection E as <- <- <-; now rewrite Z|].
    unfold ebind at 1, elift at 1 in E. destruct (bits_bytes oc (v4_len x)); try discriminate. unfold ebind at 1, elift at 1 in E.
    destruct (rslice _ _ _); try discriminate. unfold ebind at 1 in E. destruct (write_at _ _ _) as [[]| | |]; try discriminate. injection E as <- _ _. reflexivity. }
  destruct (v4_to_bits oc x buf) as [[[pb pn] b]| | |]; try reflexivity. specialize (G _ eq_refl). cbn [fst] in G. subst pb.
  unfold ebind, elift, uadd, eret. cbn [N.add]. apply N.ltb_lt in H. change (2 ^ 8) with 256. now rewrite H.
Qed.
Lemma nl_items oc v : Forall (fun x => v4_len x < 256) v -> forall c buf,
  enc_items oc (labeled_set v4_to_bits) (map labeled_new_nl v) c buf = enc_items oc v4_to_bits v c buf.
Proof.
  induction 1 as [|x v Hx _ IH]; intros c buf; [reflexivity|]. cbn [map enc_items].
  unfold ebind at 1. unfold ebind at 2. unfold on_from. destruct (Nat.leb _ _); [|reflexivity]. rewrite nl_set by exact Hx.
  destruct (v4_to_bits oc x _) as [[[b n] buf']| | |]; try reflexivity. unfold ebind. destruct (set_idx _ _ _) as [[]| | |]; try reflexivity. apply IH.
Qed.
Lemma nl_same oc v buf : Forall (fun x => v4_len x < 256) v -> addrs_encode oc (IPV4LU (map labeled_new_nl v)) buf = addrs_encode oc (IPV4U v) buf.
Proof. intros H. exact (nl_items oc v H 0%nat buf). Qed.
Lemma nl_lost oc oc' p x v buf k b y r n : Forall v4_wf (x :: v) -> v4_len x <> 0 -> bytes_ok buf ->
  (length (items_wire v4_wire (x :: v)) <= length buf)%nat ->
  addrs_encode oc (IPV4LU (map labeled_new_nl (x :: v))) buf = Ok (k, b) ->
  addrs_decode oc' p 1 4 (firstn k b) = Ok (IPV4LU (y :: r), n) -> lab_labels y <> [].
Proof.
  intros W Z B L E D. rewrite nl_same in E.
  2: { apply Forall_forall. intros z I. rewrite Forall_forall in W. destruct (W z I) as [_ Hz]. clear - Hz. lia. }
  destruct (C08_l oc (x :: v) buf W L) as (E2 & _). cbn [addrs_encode] in E. rewrite E2 in E. remember (items_wire v4_wire (x :: v)) as w eqn:Hw. assert (K : k = length w) by congruence. assert (K2 : b = w ++ skipn (length w) buf) by congruence. subst k b. clear E E2 L.
  rewrite firstn_app, Nat.sub_diag, firstn_O, app_nil_r, firstn_all in D.
  apply (nl_labels oc' p y w r n D); rewrite Hw.
  - clear - W. induction W as [|z l [_ Hz] _ IH]; [constructor|]. cbn [items_wire flat_map v4_wire fst snd]. apply Forall_cons; [clear - Hz; unfold is_byte; lia|].
    apply Forall_app. split; [apply Forall_firstn, be_bytes_ok|exact IH].
  - cbn [items_wire flat_map v4_wire fst snd app nth_error]. congruence.
Qed.

(** ** Communities *)
Lemma community_from_val h l : h < 2 ^ 16 -> l < 2 ^ 16 -> community_from h l = h * 2 ^ 16 + l.
Proof.
  intros H1 H2. unfold community_from, cast. rewrite N.shiftl_mul_pow2. rewrite N.mod_small by (clear - H1; change (2 ^ 16) with 65536 in *; change (2 ^ 32) with 4294967296; lia).
  apply lor_cat. exact H2.
Qed.
Lemma community_from_octets h l : h < 2 ^ 16 -> l < 2 ^ 16 -> community_from h l < 2 ^ 32 /\ be_bytes 4 (community_from h l) = be_bytes 2 h ++ be_bytes 2 l /\
  community_from h l / 65536 = h /\ community_from h l mod 65536 = l.
Proof.
  intros H1 H2. rewrite community_from_val by assumption. change (2 ^ 16) with 65536 in *. change (2 ^ 32) with 4294967296.
  split; [clear - H1 H2; lia|]. split; [|split].
  - change 4%nat with (2 + 2)%nat. rewrite be_bytes_split. change (2 ^ (8 * N.of_nat 2)) with 65536. rewrite N.div_add_l, N.div_small, N.add_0_r by (exact H2 || discriminate).
    f_equal. rewrite <- (be_bytes_mod 2 _ 16) by reflexivity. f_equal. change (2 ^ 16) with 65536. change (2 ^ (8 * N.of_nat 2)) with 65536. rewrite N.add_comm, N.mod_add by discriminate. now apply N.mod_small.
  - rewrite N.div_add_l by discriminate. rewrite N.div_small by exact H2. apply N.add_0_r.
  - rewrite N.add_comm, N.mod_add by discriminate. now apply N.mod_small.
Qed.
Lemma asc_same {A} (cmp : A -> A -> comparison) (L : cmp_laws cmp) : forall v w, ascending cmp v -> ascending cmp w -> same_elements v w -> v = w.
Proof.
  assert (IRR : forall x, cmp x x <> Lt) by (intros x E; assert (R : cmp x x = Eq) by (now apply (cl_eq _ L)); congruence).
  induction v as [|x v IH]; intros [|y w] H1 H2 S; [reflexivity|elim (proj2 (S y)); now left|elim (proj1 (S x)); now left|].
  cbn [ascending] in H1, H2. destruct H1 as [F1 H1], H2 as [F2 H2]. rewrite Forall_forall in F1, F2.
  assert (E : x = y).
  { destruct (proj1 (S x) (or_introl eq_refl)) as [E|I]; [now symmetry|]. destruct (proj2 (S y) (or_introl eq_refl)) as [E|J]; [exact E|].
    specialize (F2 x I). specialize (F1 y J). rewrite (cl_opp _ L x y), F1 in F2. discriminate. }
  subst y. f_equal. apply IH; auto. intros z. specialize (S z). cbn [In] in S. split; intros I.
  - destruct (proj1 S (or_intror I)) as [E|J]; [subst z; elim (IRR x); apply F1, I|exact J].
  - destruct (proj2 S (or_intror I)) as [E|J]; [subst z; elim (IRR x); apply F2, I|exact J].
Qed.
Lemma from_vec_same v w : same_elements v w <-> community_from_vec v = community_from_vec w.
Proof.
  destruct (bset_of_spec N.compare N_laws v) as [A1 A2], (bset_of_spec N.compare N_laws w) as [B1 B2]. unfold community_from_vec. split.
  - intros S. f_equal. apply (asc_same N.compare N_laws); auto. intros x. rewrite A2, B2. apply S.
  - intros E. assert (E' : bset_of N.compare v = bset_of N.compare w) by congruence. intros x. now rewrite <- A2, <- B2, E'.
Qed.
Lemma ext_vec_same v w : same_elements v w <-> ext_from_vec v = ext_from_vec w.
Proof.
  destruct (bset_of_spec ecomm_cmp ecomm_laws v) as [A1 A2], (bset_of_spec ecomm_cmp ecomm_laws w) as [B1 B2]. unfold ext_from_vec. split.
  - intros S. f_equal. apply (asc_same ecomm_cmp ecomm_laws); auto. intros x. rewrite A2, B2. apply S.
  - intros E. assert (E' : bset_of ecomm_cmp v = bset_of ecomm_cmp w) by congruence. intros x. now rewrite <- A2, <- B2, E'.
Qed.

Lemma from_display h l : h < 2 ^ 16 -> l < 2 ^ 16 -> ~ In (community_from h l) [0xffffff01; 0xffffff02; 0xffffff03; 0xffffff04] ->
  exists s t, community_fmt (community_from h l) = s ++ 58 :: t /\ canonical 10 s h /\ canonical 10 t l.
Proof.
  intros H1 H2 W. destruct (community_from_octets h l H1 H2) as (B & _ & Eh & El). destruct (community_fmt_ok _ B) as [I|(_ & s & t & E & C1 & C2)].
  - elim W. clear - I. cbn [In] in *. repeat (destruct I as [I|I]; [apply (f_equal snd) in I; cbn [snd] in I; auto|]). destruct I.
  - rewrite Eh in C1. rewrite El in C2. eauto.
Qed.
Lemma from_vec_sent oc p v buf : Forall (fun c => c < 2 ^ 32) v -> N.of_nat (4 * length v) <= 65535 -> (4 + 4 * length v <= length buf)%nat ->
  exists n b w, attr_encode oc p (community_from_vec v) buf = Ok (n, [208; 8] ++ be_bytes 2 (N.of_nat (length w)) ++ w ++ b) /\
  attr_decode oc p 8 208 (length w) w = Ok (community_from_vec v).
Proof.
  intros H L R. set (a := community_from_vec v).
  assert (ND : (length (bset_of N.compare v) <= length v)%nat).
  { apply NoDup_incl_length; [|intros x I; apply (bset_of_spec N.compare N_laws v); exact I]. destruct (bset_of_spec N.compare N_laws v) as [A _].
    clear - A. induction (bset_of N.compare v) as [|x s IH]; [constructor|]. cbn [ascending] in A. destruct A as [F A]. constructor; [|now apply IH].
    intros I. rewrite Forall_forall in F. specialize (F x I). rewrite N.compare_refl in F. discriminate. }
  assert (LW : length (attr_wire p a) = (4 * length (bset_of N.compare v))%nat).
  { unfold a, community_from_vec. cbn [attr_wire]. clear. induction (bset_of N.compare v) as [|x s IH]; [reflexivity|]. cbn [flat_map]. rewrite app_length, IH, length_be_bytes. cbn [length]. lia. }
  assert (WF : attr_wf p a). { unfold a, community_from_vec. cbn [attr_wf]. destruct (bset_of_spec N.compare N_laws v) as [A B]. split; [|exact A].
    apply Forall_forall. intros x I. apply B in I. rewrite Forall_forall in H. auto. }
  assert (C : communities a) by exact I.
  assert (F : attr_full p a = [208; 8] ++ be_bytes 2 (N.of_nat (length (attr_wire p a))) ++ attr_wire p a) by reflexivity.
  destruct (communities_roundtrip oc p a buf C WF) as [E D].
  - rewrite LW. change (len_max (attr_flags a)) with 65535. clear - L ND. lia.
  - rewrite F, !app_length, length_be_bytes, LW. cbn [length]. clear - R ND. lia.
  - exists (length (attr_full p a)), (skipn (length (attr_full p a)) buf), (attr_wire p a). split; [|exact D]. rewrite E, F. now rewrite <- !app_assoc.
Qed.

Lemma arrives oc p nh a buf : addrs_wf a -> nexthop_ok a nh -> session_form p a -> room_for (mp_reach_wire nh a) buf ->
  sent oc p (AMPUpdates nh a) buf (mp_reach_wire nh a) /\ received oc p (mp_reach_wire nh a) (AMPUpdates nh (addrs_trunc a)).
Proof. intros H1 H2 H3 [H4 H5]. destruct (built_arrives oc p nh a buf H1 H2 H3 H4 H5) as (n & b & E & D). split; [now exists n, b|exact D]. Qed.
Lemma written oc p nh a buf : addrs_wf a -> bgpaddr_wf nh -> room_for (mp_reach_wire nh a) buf -> sent oc p (AMPUpdates nh a) buf (mp_reach_wire nh a).
Proof. intros H1 H2 [H4 H5]. exact (built_written oc p nh a buf H1 H2 H4 H5). Qed.
Lemma vpnv4u_arrives oc p rd a v buf : rd_wf rd -> a < 2 ^ 32 -> Forall vpn4_wf v ->
  let w := mp_reach_wire (BAV4RD rd a) (VPNV4U v) in
  use_pathid p 1 128 (items_wire (labeled_wire (withrd_wire v4_wire)) v) = false -> room_for w buf ->
  sent oc p (s4vpnv4u rd a v) buf w /\ received oc p w (s4vpnv4u rd a (map (lab_map (rd_map v4_trunc)) v)).
Proof. intros R A V w U. apply arrives; [exact V|exact (conj (conj R A) I)|intros _; exact U]. Qed.
Lemma vpnv4m_arrives oc p rd a v buf : rd_wf rd -> a < 2 ^ 32 -> Forall vpn4_wf v ->
  let w := mp_reach_wire (BAV4RD rd a) (VPNV4M v) in
  use_pathid p 1 129 (items_wire (labeled_wire (withrd_wire v4_wire)) v) = false -> room_for w buf ->
  sent oc p (s4vpnv4m rd a v) buf w /\ received oc p w (s4vpnv4m rd a (map (lab_map (rd_map v4_trunc)) v)).
Proof. intros R A V w U. apply arrives; [exact V|exact (conj (conj R A) I)|intros _; exact U]. Qed.
Lemma ip4lu_arrives oc p a v buf : a < 2 ^ 32 -> Forall lu4_wf v ->
  let w := mp_reach_wire (BAV4 a) (IPV4LU v) in
  use_pathid p 1 4 (items_wire (labeled_wire v4_wire) v) = false -> room_for w buf ->
  sent oc p (s4ip4lu a v) buf w /\ received oc p w (s4ip4lu a (map (lab_map v4_trunc) v)).
Proof. intros A V w U. apply arrives; [exact V|exact (conj A I)|intros _; exact U]. Qed.
Lemma ip6lu_lost oc p a v buf : a < 2 ^ 32 -> Forall lu6_wf v ->
  let w := mp_reach_wire (BAV4 a) (IPV6LU v) in
  room_for w buf -> sent oc p (s4ip6lu a v) buf w /\ forall oc' p' y, ~ received oc' p' w y.
Proof.
  intros A V w R. split; [now apply written|]. intros oc' p' y E. unfold received, w in E. rewrite ip6lu_refused in E. discriminate.
Qed.
Lemma vpnv6u_lost oc p rd a v buf : rd_wf rd -> a < 2 ^ 32 -> Forall vpn6_wf v ->
  let w := mp_reach_wire (BAV4RD rd a) (VPNV6U v) in
  room_for w buf -> sent oc p (s4vpnv6u rd a v) buf w /\ forall oc' p' nh r, received oc' p' w (AMPUpdates nh r) -> exists rd' a', nh = BAV6RD rd' a'.
Proof.
  intros HR A V w R. split; [apply written; [exact V|exact (conj HR A)|exact R]|]. intros oc' p' nh r E. exact (vpnv6_lost oc' p' _ _ rd a (VPNV6U v) nh r (or_introl eq_refl) E).
Qed.
Lemma vpnv6m_lost oc p rd a v buf : rd_wf rd -> a < 2 ^ 32 -> Forall vpn6_wf v ->
  let w := mp_reach_wire (BAV4RD rd a) (VPNV6M v) in
  room_for w buf -> sent oc p (s4vpnv6m rd a v) buf w /\ forall oc' p' nh r, received oc' p' w (AMPUpdates nh r) -> exists rd' a', nh = BAV6RD rd' a'.
Proof.
  intros HR A V w R. split; [apply written; [exact V|exact (conj HR A)|exact R]|]. intros oc' p' nh r E. exact (vpnv6_lost oc' p' _ _ rd a (VPNV6M v) nh r (or_intror eq_refl) E).
Qed.
