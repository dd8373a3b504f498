(** Proofs about the dispatch of NLRI lists on address families. *)
From Verif Require Import Base BaseFacts M_Util S_Wire F_Util M_Prefix S_Prefix M_Nlri S_Nlri F_Nlri M_Vpls S_Vpls F_Lay F_Vpls
  M_Mvpn S_Mvpn F_Mvpn M_Evpn S_Evpn F_Evpn M_Flowspec S_Flowspec F_Flowspec M_Cap M_Open M_Session M_Addrs S_Addrs F_Fuel.
Ltac Zify.zify_post_hook ::= idtac.

Lemma pid_encode {T} oc (ex : extractor T) st wf W nm v : codec_ok oc ex st wf W nm -> Forall (pid_wf wf) v ->
  writes (encode_pathid_bgpitems_to oc st v) (pid_items_wire W v) (length (pid_items_wire W v)).
Proof.
  intros H Hv. rewrite Forall_forall in Hv.
  apply (writes_enc_pathid_items oc st W v) with (p := 0%nat). intros x Hx. apply H. apply Hv, Hx.
Qed.
Lemma pid_decode {T} oc (ex : extractor T) st wf W nm v : codec_ok oc ex st wf W nm -> Forall (pid_wf wf) v ->
  decode_pathid_bgpitems_from oc ex (pid_items_wire W v) = Ok (map (pid_map nm) v, length (pid_items_wire W v)).
Proof.
  intros H Hv. pose proof (pid_items_decode oc ex st wf W nm v H Hv [] (Nat.le_0_l 4)) as G.
  now rewrite app_nil_r in G.
Qed.
Lemma lu4_codec oc : codec_ok oc (labeled_extract v4_from_bits) (labeled_set v4_to_bits) lu4_wf (labeled_wire v4_wire) (lab_map v4_trunc).
Proof. exact (labeled_codec oc _ _ _ _ _ (v4_codec oc)). Qed.
Lemma lu6_codec oc : codec_ok oc (labeled_extract v6_from_bits) (labeled_set v6_to_bits) lu6_wf (labeled_wire v6_wire) (lab_map v6_trunc).
Proof. exact (labeled_codec oc _ _ _ _ _ (v6_codec oc)). Qed.
Lemma vpn4_codec oc : codec_ok oc (labeled_extract (withrd_extract v4_from_bits)) (labeled_set (withrd_set v4_to_bits)) vpn4_wf
  (labeled_wire (withrd_wire v4_wire)) (lab_map (rd_map v4_trunc)).
Proof. exact (vpn_codec oc _ _ _ _ _ (v4_codec oc)). Qed.
Lemma vpn6_codec oc : codec_ok oc (labeled_extract (withrd_extract v6_from_bits)) (labeled_set (withrd_set v6_to_bits)) vpn6_wf
  (labeled_wire (withrd_wire v6_wire)) (lab_map (rd_map v6_trunc)).
Proof. exact (vpn_codec oc _ _ _ _ _ (v6_codec oc)). Qed.
Lemma m4r_codec oc : codec_ok oc (withrd_extract mdt4_extract) (withrd_set mdt4_set) (withrd_wf mdt4_wf)
  (withrd_wire mdt4_wire) (rd_map mdt4_trunc).
Proof. exact (mdt4_rd_codec oc). Qed.
Lemma m6r_codec oc : codec_ok oc (withrd_extract mdt6_extract) (withrd_set mdt6_set) mdt6r_wf
  (withrd_wire mdt6_wire) (rd_map mdt6_trunc).
Proof. exact (mdt6_rd_codec oc). Qed.

Lemma fs_list {T} (it : fsitem T) wf W v : item_wr it wf W -> Forall (rule_ok W wf) v ->
  writes (encode_bgpaddritems_to (fs_encode it) v) (flat_map (fs_wire W) v) (length (flat_map (fs_wire W) v)) /\
  decode_bgpaddritems_from (fs_decode it) (flat_map (fs_wire W) v) = Ok (v, length (flat_map (fs_wire W) v)).
Proof.
  intros HI H. rewrite Forall_forall in H. split.
  - apply writes_addritems. intros x Hx. destruct (H x Hx) as (H1 & H2 & H3 & H4). now apply (writes_fs it wf W HI).
  - rewrite (decode_addritems _ (fs_wire W) (fun x => x)); [now rewrite map_id|..].
    + intros x rest Hx. destruct (H x Hx) as (H1 & H2 & H3 & H4). apply (fs_decode_oper it wf W); auto; lia.
    + intros x _. unfold fs_wire. rewrite app_length, fs_hdr_len. destruct (Nat.ltb _ _); lia.
Qed.
Lemma mvpn_list v : Forall (fun r => mv_wf ModeV4 r /\ match r with MvT1 _ | MvT2 _ => True | _ => False end) v ->
  writes (encode_bgpaddritems_to mvpn_encode v) (flat_map mv_wire v) (length (flat_map mv_wire v)).
Proof.
  intros H. rewrite Forall_forall in H. apply writes_addritems. intros x Hx. destruct (H x Hx) as (H1 & H2).
  now apply (mvpn12_roundtrip ModeV4).
Qed.
Lemma mvpn_list_decode v : Forall (mv_wf ModeV4) v ->
  decode_bgpaddritems_from (mvpn_decode ModeV4) (flat_map mv_wire v) = Ok (v, length (flat_map mv_wire v)).
Proof.
  intros H. rewrite Forall_forall in H.
  rewrite (decode_addritems _ mv_wire (fun x => x)); [now rewrite map_id|..].
  - intros x rest Hx. now apply mvpn_decode_rfc; auto.
  - intros x _. unfold mv_wire. cbn [length]. lia.
Qed.

Ltac codecs oc := first [exact (v4_codec oc)|exact (v6_codec oc)|exact (lu4_codec oc)|exact (lu6_codec oc)|exact (vpn4_codec oc)|exact (vpn6_codec oc)
  |exact (m4r_codec oc)|exact (m6r_codec oc)].
Lemma addrs_encode_wire oc a : addrs_wf a -> writes (addrs_encode oc a) (addrs_wire a) (length (addrs_wire a)).
Proof.
  destruct a; cbn [addrs_wf addrs_encode addrs_wire]; intros H; try contradiction.
  25: { subst v. apply (writes_at_ret 0 0%nat). }
  25: now apply mvpn_list.
  25: now apply (evpn_list oc).
  25: exact (proj1 (fs_list _ _ _ v (fs4_wr oc) H)).
  25: exact (proj1 (fs_list _ _ _ v (fs6_wr oc) H)).
  25: exact (proj1 (fs_list _ _ _ v (fsv4_wr oc) H)).
  all: first [eapply items_encode; [|exact H]|eapply pid_encode; [|exact H]]; codecs oc.
Qed.

(** the list form announced by the session *)
Definition pathid_form (p : params) (a : addrs) : Prop :=
  let '(afi, sf) := get_afi_safi a in
  addpath_family afi sf = true -> use_pathid p afi sf (addrs_wire a) = with_pathid a.
Lemma addrs_decode_wire oc p a : addrs_wf a -> pathid_form p a ->
  addrs_decode oc p (fst (get_afi_safi a)) (snd (get_afi_safi a)) (addrs_wire a) = Ok (addrs_trunc a, length (addrs_wire a)).
Proof.
  unfold pathid_form.
  destruct a; cbn [addrs_wf addrs_wire get_afi_safi fst snd with_pathid]; intros H G; try contradiction.
  25: { subst v. reflexivity. }
  25: { unfold addrs_decode, dec_wrap. cbn [N.eqb Pos.eqb]. rewrite mvpn_list_decode; [reflexivity|]. eapply Forall_impl; [|exact H]. now intros ? [? _]. }
  25: { unfold addrs_decode, dec_wrap. cbn [N.eqb Pos.eqb]. now rewrite (proj2 (evpn_list oc v H)). }
  25: { unfold addrs_decode, dec_wrap. cbn [N.eqb Pos.eqb]. now rewrite ((proj2 (fs_list _ _ _ v (fs4_wr oc) H))). }
  25: { unfold addrs_decode, dec_wrap. cbn [N.eqb Pos.eqb]. now rewrite ((proj2 (fs_list _ _ _ v (fs6_wr oc) H))). }
  25: { unfold addrs_decode, dec_wrap. cbn [N.eqb Pos.eqb]. change (fsv4_wire) with (fun x => [0; 0] ++ snd (withrd_wire v4_wire x)). now rewrite (proj2 (fs_list _ _ _ v (fsv4_wr oc) H)). }
  all: specialize (G eq_refl); unfold addrs_decode, dec_fam; cbn [N.eqb Pos.eqb]; rewrite G; cbn [addrs_trunc].
  all: first [erewrite items_decode; [reflexivity| |exact H]|erewrite pid_decode; [reflexivity| |exact H]]; codecs oc.
Qed.

(** decoding gives a list of the family asked for *)
Lemma dec_fam_inv {T} oc (ex : extractor T) w wp p afi sf buf a n : dec_fam oc ex w wp p afi sf buf = Ok (a, n) ->
  if use_pathid p afi sf buf then exists v, a = wp v else exists v, a = w v.
Proof.
  unfold dec_fam. destruct (use_pathid p afi sf buf); intros H; apply bind_Ok_inv in H as ([v m] & _ & H); injection H as <- _; now exists v.
Qed.
Lemma addrs_decode_family oc p afi sf buf a n : addrs_decode oc p afi sf buf = Ok (a, n) ->
  get_afi_safi a = (afi, sf) /\ with_pathid a = (addpath_family afi sf && use_pathid p afi sf buf)%bool.
Proof.
  unfold addrs_decode. intros H.
  destruct (N.eqb_spec afi 1) as [->|H1]; [|destruct (N.eqb_spec afi 2) as [->|H2]; [|destruct (N.eqb_spec afi 25) as [->|H3]; [|discriminate]]].
  all: repeat match type of H with
    | (if ?s =? ?k then _ else _) = _ => is_var s; destruct (N.eqb_spec s k) as [->|?]
    end; try discriminate.
  all: first [apply dec_fam_inv in H; cbn [addpath_family andb orb N.eqb Pos.eqb];
     match type of H with (if ?c then _ else _) => destruct c end; destruct H as [v ->]; now split
   | unfold dec_wrap in H; apply bind_Ok_inv in H as ([v m] & _ & H); injection H as <- _; now split ].
Qed.

Lemma dec_fam_nf {T} oc (ex : extractor T) w wp p afi sf buf : fuel_ok oc ex -> nf (dec_fam oc ex w wp p afi sf buf).
Proof.
  intros H. unfold dec_fam. destruct (use_pathid _ _ _ _); (apply nf_bind; [|intros [? ?]; nf1]).
  - now apply decode_pathid_fuel.
  - now apply decode_bgpitems_fuel.
Qed.
Lemma dec_wrap_nf {T} (r : res (list T * nat)) w : nf r -> nf (dec_wrap r w).
Proof. intros H. unfold dec_wrap. apply nf_bind; [exact H|intros [? ?]; nf1]. Qed.
Lemma addrs_decode_nf oc p afi sf buf : addrs_decode oc p afi sf buf <> OutOfFuel.
Proof.
  change (nf (addrs_decode oc p afi sf buf)). unfold addrs_decode.
  repeat match goal with |- nf (if ?c then _ else _) => destruct c end; try nf1.
  all: first [apply dec_fam_nf|apply dec_wrap_nf].
  all: try first [apply v4_fuel|apply v6_fuel|apply labeled_fuel, v4_fuel|apply labeled_fuel, v6_fuel|apply withrd_fuel, nf_mdt4|apply withrd_fuel, nf_mdt6
    |apply labeled_fuel, withrd_fuel, v4_fuel|apply labeled_fuel, withrd_fuel, v6_fuel|apply nf_long; intros; apply nf_l2a].
  - apply nf_items; [apply nf_mvpn|apply mvpn_progress].
  - apply nf_items; [apply nf_fs4|apply fs_progress].
  - apply nf_items; [apply nf_fsv4|apply fs_progress].
  - apply nf_items; [apply nf_fs6|apply fs_progress].
  - apply nf_items; [apply nf_evpn|apply evpn_progress].
Qed.

Lemma cap_codes s a afi sf : cap_carries s a -> get_afi_safi a = (afi, sf) -> safi_codes s = (afi, sf).
Proof. destruct s, a; cbn [cap_carries]; intros H E; try contradiction; rewrite <- E; reflexivity. Qed.
Lemma cap_agree s a : cap_carries s a -> s <> SafiIPv4m -> s <> SafiIPv4lu ->
  fill_buffer (CapMP s) (repeat 0 6) = Ok (tt, mp_wire (fst (get_afi_safi a)) (snd (get_afi_safi a))) /\
  (afisafi_from_cap (CapMP s) = Ok (get_afi_safi a) \/ s = SafiIPv4fu \/ s = SafiIPv6fu \/ s = SafiVPNv4fu).
Proof.
  destruct s, a; cbn [cap_carries]; intros H H1 H2; try contradiction; try congruence.
  all: split; [reflexivity|]; first [left; reflexivity|auto].
Qed.
Lemma cap_swapped s a b : s = SafiIPv4m /\ b = SafiIPv4lu \/ s = SafiIPv4lu /\ b = SafiIPv4m -> cap_carries s a ->
  fill_buffer (CapMP s) (repeat 0 6) <> Ok (tt, mp_wire (fst (get_afi_safi a)) (snd (get_afi_safi a))) /\
  fill_buffer (CapMP b) (repeat 0 6) = Ok (tt, mp_wire (fst (get_afi_safi a)) (snd (get_afi_safi a))) /\
  afisafi_from_cap (CapMP b) = Ok (get_afi_safi a).
Proof.
  intros [[-> ->]|[-> ->]]; destruct a; cbn [cap_carries]; intros H; try contradiction; split; try (split; reflexivity); discriminate.
Qed.
Lemma fill_mp s buf : length buf = 6%nat -> fill_buffer (CapMP s) buf = fill_buffer (CapMP s) (repeat 0 6).
Proof.
  intros H. unfold fill_buffer, ebind, elen. rewrite H. destruct s; cbn [bytes_len repeat length Nat.ltb Nat.leb bind]; unfold clone_from_slice; rewrite H; reflexivity.
Qed.

(** a list that fuzzy detection reads with path identifiers, for each family *)
Definition fuzzy_bytes (afi sf : N) : list N :=
  [0; 0; 0; 0] ++
  (if sf <? 4 then [0] else if sf =? 4 then [24; 0; 0; 1] else
   if sf =? 66 then (if afi =? 1 then 96 :: repeat 0 12 else 192 :: repeat 0 24) else 88 :: [0; 0; 1] ++ repeat 0 8).
Lemma fuzzy_cases afi sf : addpath_family afi sf = true ->
  (afi = 1 \/ afi = 2) /\ (sf = 1 \/ sf = 2 \/ sf = 4 \/ sf = 66 \/ sf = 128 \/ sf = 129).
Proof.
  unfold addpath_family. rewrite Bool.andb_true_iff, !Bool.orb_true_iff, !N.eqb_eq. tauto.
Qed.
Lemma fuzzy_wrong oc p afi sf : sp_fuzzy p = true -> check_addpath_receive p afi sf = false -> addpath_family afi sf = true ->
  exists a b n m, addrs_decode oc p afi sf (fuzzy_bytes afi sf) = Ok (a, n) /\ with_pathid a = true /\ addrs_len a = 1%nat /\
    addrs_decode oc p afi sf [] = Ok (b, m) /\ with_pathid b = false.
Proof.
  intros H1 H2 H3. apply fuzzy_cases in H3 as [Ha Hs].
  assert (U1 : use_pathid p afi sf (fuzzy_bytes afi sf) = true).
  { unfold use_pathid. rewrite H1. destruct Ha as [->| ->], Hs as [->|[->|[->|[->|[->| ->]]]]]; rewrite H2; reflexivity. }
  assert (U2 : use_pathid p afi sf [] = false) by (unfold use_pathid; rewrite H1, H2; reflexivity).
  destruct Ha as [->| ->], Hs as [->|[->|[->|[->|[->| ->]]]]]; unfold addrs_decode, dec_fam; cbn [N.eqb Pos.eqb]; rewrite U1, U2; destruct oc;
    (do 4 eexists; split; [vm_compute; reflexivity|]; split; [reflexivity|]; split; [reflexivity|]; split; [vm_compute; reflexivity|reflexivity]).
Qed.

Lemma addrs_decode_pathid oc p afi sf buf a n : addrs_decode oc p afi sf buf = Ok (a, n) ->
  with_pathid a = (addpath_family afi sf &&
    (check_addpath_receive p afi sf || (sp_fuzzy p && (Nat.leb 5 (length buf) && list_eqb (firstn 2 buf) [0; 0]))))%bool.
Proof.
  intros H. rewrite (proj2 (addrs_decode_family _ _ _ _ _ _ _ H)). unfold use_pathid.
  replace (is_addpath_nlri buf) with (Nat.leb 5 (length buf) && list_eqb (firstn 2 buf) [0; 0])%bool; [reflexivity|].
  unfold is_addpath_nlri. rewrite Nat.ltb_antisym. destruct (Nat.leb 5 (length buf)) eqn:E; [|reflexivity].
  destruct buf as [|b [|c t]]; try discriminate. cbn [negb andb firstn list_eqb]. now rewrite Bool.andb_true_r.
Qed.
Lemma addrs_roundtrip oc p a buf : addrs_wf a -> (length (addrs_wire a) <= length buf)%nat -> pathid_form p a ->
  addrs_encode oc a buf = Ok (length (addrs_wire a), addrs_wire a ++ skipn (length (addrs_wire a)) buf) /\
  addrs_decode oc p (fst (get_afi_safi a)) (snd (get_afi_safi a)) (addrs_wire a) = Ok (addrs_trunc a, length (addrs_wire a)).
Proof.
  intros H L F. split; [|now apply addrs_decode_wire].
  pose proof (addrs_encode_wire oc a H) as W. apply writes_spec in W. now apply W.
Qed.
Lemma nilb_length {A} (l : list A) : nilb l = Nat.eqb (length l) 0.
Proof. now destruct l. Qed.
Lemma addrs_trunc_len a : addrs_len (addrs_trunc a) = addrs_len a /\ addrs_is_empty a = Nat.eqb (addrs_len a) 0.
Proof. destruct a; cbn [addrs_trunc addrs_len addrs_is_empty]; rewrite ?map_length, ?nilb_length; now split. Qed.
