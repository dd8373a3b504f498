(** Proofs that the relations of S_Exact4 are exactly what the message header and
    BMP decoders do. *)
From Verif Require Import Base BaseFacts M_Util S_Wire F_Util M_Nlri S_Nlri M_Cap S_Cap M_Open M_Session S_Open F_Open F_Session M_Addrs
  M_Attr M_Update S_Update M_Order M_Bmp S_Bmp F_Bmp F_Bmp2 F_Attr4 F_Exact F_Exact6 S_Exact2 S_Exact3 F_Utf8 F_Exact7 S_Exact4.
Ltac Zify.zify_post_hook ::= idtac.

(** ** Header *)
Lemma header_exact b t len : bytes_ok b -> is_header b t len <->
  len < 2 ^ 16 /\ exists r, b = repeat 255 16 ++ be_bytes 2 len ++ [msg_code t] ++ r.
Proof.
  intros B. split.
  - intros (L & M & V & C).
    assert (Bs : bytes_ok (sub b 16 18)) by now apply Forall_sub.
    assert (Ls : length (sub b 16 18) = 2%nat) by (rewrite length_sub; lia).
    split; [rewrite <- V; assert (X := be_val_bound _ Bs); rewrite Ls in X; exact X|].
    exists (skipn 19 b). rewrite <- V, <- M. assert (X := be_bytes_be_val _ Bs). rewrite Ls in X. rewrite X.
    assert (N18 : skipn 18 b = msg_code t :: skipn 19 b).
    { destruct (skipn 18 b) as [|x y] eqn:E; [apply (f_equal (@length N)) in E; rewrite skipn_length in E; cbn in E; lia|].
      assert (Z : nth_error (skipn 18 b) 0 = Some x) by (rewrite E; reflexivity). rewrite nth_error_skipn in Z. cbn [Nat.add] in Z.
      rewrite C in Z. injection Z as ->. f_equal. change 19%nat with (18 + 1)%nat. rewrite <- skipn_skipn', E. reflexivity. }
    change ([msg_code t] ++ skipn 19 b) with (msg_code t :: skipn 19 b). rewrite <- N18.
    unfold sub. change (18 - 16)%nat with 2%nat. change 18%nat with (16 + 2)%nat. rewrite <- skipn_skipn', firstn_skipn, firstn_skipn. reflexivity.
  - intros (Hl & r & ->). split; [rewrite !app_length, repeat_length, length_be_bytes; cbn [length]; lia|].
    split; [reflexivity|]. split; [|reflexivity].
    replace (sub (repeat 255 16 ++ be_bytes 2 len ++ [msg_code t] ++ r) 16 18) with (be_bytes 2 len).
    + now apply be_val_be_bytes.
    + reflexivity.
Qed.

Lemma head_exact oc b t n : bytes_ok b -> decode_message_head oc b = Ok (t, n) <->
  exists len r, len < 2 ^ 16 /\ (len < 19 -> oc = false) /\ N.of_nat n + 19 = wrapped len /\
    b = repeat 255 16 ++ be_bytes 2 len ++ [msg_code t] ++ r.
Proof.
  intros B. assert (Sp := head_spec oc b B). split.
  - intros E. rewrite E in Sp. destruct Sp as (len & H & C). apply header_exact in H as (Hl & r & Hb); [|exact B].
    exists len, r. split; [exact Hl|]. unfold wrapped. destruct C as [(C1 & C2)|(C1 & C2 & C3)].
    + split; [lia|]. split; [|exact Hb]. destruct (N.ltb_spec len 19); lia.
    + split; [auto|]. split; [|exact Hb]. destruct (N.ltb_spec len 19); lia.
  - intros (len & r & Hl & Ho & Hn & Hb). assert (H : is_header b t len) by (apply header_exact; eauto).
    destruct (decode_message_head oc b) as [[t' n']|e| |].
    + destruct Sp as (len' & H' & C). destruct (header_unique _ _ _ _ _ H H') as [<- <-].
      assert (n' = n); [|congruence]. unfold wrapped in Hn. destruct (N.ltb_spec len 19); lia.
    + now apply Sp in H.
    + destruct Sp as (-> & t' & len' & H' & C). destruct (header_unique _ _ _ _ _ H H') as [<- <-]. now apply Ho in C.
    + contradiction.
Qed.

Lemma body_exact oc t pre b o q : bytes_ok (pre ++ b) -> bgp_body oc t (pre ++ b) (length pre) = Ok (o, q) <->
  exists rest, message_in oc t b o rest /\ q = (length pre + 19 + length o)%nat.
Proof.
  intros B. rewrite body_ok_iff by (try exact B; rewrite app_length; lia).
  assert (Bb : bytes_ok b) by (apply Forall_app in B; apply B).
  assert (Sk : skipn (length pre) (pre ++ b) = b) by (rewrite skipn_app, skipn_all, Nat.sub_diag; reflexivity).
  unfold body_at, message_in. rewrite Sk. split.
  - intros (len & H & Ho & Hq & Lq & Eo). apply header_exact in H as (Hl & r & Er); [|exact Bb].
    assert (W : 19 <= wrapped len) by (unfold wrapped; destruct (N.ltb_spec len 19); lia).
    assert (Lo : length o = (q - (length pre + 19))%nat) by (subst o; rewrite length_sub by lia; reflexivity).
    exists (skipn q (pre ++ b)). split; [|lia]. exists len. split; [exact Hl|]. split; [exact Ho|]. split; [lia|].
    rewrite Er at 1. do 3 f_equal.
    assert (Ep : pre ++ b = (pre ++ repeat 255 16 ++ be_bytes 2 len ++ [msg_code t]) ++ r) by (rewrite Er, <- !app_assoc; reflexivity).
    assert (Lp : length (pre ++ repeat 255 16 ++ be_bytes 2 len ++ [msg_code t]) = (length pre + 19)%nat) by (rewrite !app_length, repeat_length, length_be_bytes; cbn [length]; lia).
    assert (Er2 : r = skipn (length pre + 19) (pre ++ b)) by (rewrite Ep, <- Lp, skipn_app, skipn_all, Nat.sub_diag; reflexivity).
    assert (Ek : skipn q (pre ++ b) = skipn (length o) r).
    { rewrite Er2, skipn_skipn'. f_equal. lia. }
    assert (Eo' : o = firstn (length o) r).
    { rewrite Eo at 1. unfold sub. rewrite <- Er2, Lo. reflexivity. }
    rewrite Ek. rewrite Eo' at 1. symmetry. apply firstn_skipn.
  - intros (rest & (len & Hl & Ho & Hn & Eb) & ->). exists len. split; [apply header_exact; [exact Bb|]; eauto|].
    split; [exact Ho|]. split; [lia|]. split; [rewrite Eb, !app_length, repeat_length, length_be_bytes; cbn [length]; lia|].
    rewrite Eb. rewrite !app_assoc. rewrite <- !app_assoc.
    replace (pre ++ repeat 255 16 ++ be_bytes 2 len ++ [msg_code t] ++ o ++ rest) with
      ((pre ++ repeat 255 16 ++ be_bytes 2 len ++ [msg_code t]) ++ o ++ rest) by (rewrite <- !app_assoc; reflexivity).
    symmetry. apply sub_app_exact; [rewrite !app_length, repeat_length, length_be_bytes; cbn [length]; lia|lia].
Qed.
Lemma message_bytes oc t b o rest : bytes_ok b -> message_in oc t b o rest -> bytes_ok o /\ bytes_ok rest /\ length b = (19 + length o + length rest)%nat.
Proof.
  intros B (len & _ & _ & _ & ->). do 3 (apply Forall_app in B as [_ B]). apply Forall_app in B as [B1 B2].
  split; [exact B1|]. split; [exact B2|]. rewrite !app_length, repeat_length, length_be_bytes. cbn [length]. lia.
Qed.

(** ** Peer Down *)
Lemma peer_reads_ok b : bytes_ok b -> (42 <= length b)%nat -> exists h r, peer_reads b h r /\ peerhdr_decode b = Ok (h, 42%nat) /\ bytes_ok r /\ length b = (42 + length r)%nat.
Proof.
  intros B L. destruct (peer_ok b B L) as (h & r & E & W & V & D). exists h, r. split; [split; auto|]. split; [exact D|].
  rewrite E in B. apply Forall_app in B as [_ B]. split; [exact B|]. rewrite E, app_length, length_peer. reflexivity.
Qed.
Lemma peer_reads_inj b h r h' r' : peer_reads b h r -> peer_reads b h' r' -> h = h' /\ r = r'.
Proof.
  intros (W & V & E) (W' & V' & E'). assert (X : peer_wire h ++ r = peer_wire h' ++ r') by congruence.
  assert (Y := X). apply peer_wire_inj in X; auto. subst h'. split; [reflexivity|]. now apply app_inv_head in Y.
Qed.
Lemma peer_reads_len b h r : peer_reads b h r -> length b = (42 + length r)%nat.
Proof. intros (_ & _ & ->). now rewrite app_length, length_peer. Qed.

Lemma down_exact oc b m : bytes_ok b -> (exists n, peerdown_decode oc b = Ok (m, n)) <-> down_reads oc b m.
Proof.
  intros B. destruct (Nat.lt_ge_cases (length b) 43) as [L|L].
  { split.
    - intros (n & E). unfold peerdown_decode in E. rewrite (proj2 (Nat.ltb_lt _ _) L) in E. discriminate.
    - intros (c & r & P & _). apply peer_reads_len in P. cbn [length] in P. lia. }
  destruct (peer_reads_ok b B ltac:(lia)) as (h & r & P & D & Br & Lr).
  destruct r as [|c r]; [cbn in Lr; lia|]. cbn [length] in Lr.
  assert (Eb : b = (peer_wire h ++ [c]) ++ r) by (destruct P as (_ & _ & ->); now rewrite <- app_assoc).
  assert (Lp : length (peer_wire h ++ [c]) = 43%nat) by (rewrite app_length, length_peer; reflexivity).
  assert (Bd : forall t o q, bgp_body oc t b 43 = Ok (o, q) <-> exists rest, message_in oc t r o rest /\ q = (43 + 19 + length o)%nat).
  { intros t o q. rewrite Eb at 1. rewrite <- Lp. apply body_exact. now rewrite <- Eb. }
  assert (Ic : idx b 42 = Ok c).
  { destruct P as (_ & _ & ->). rewrite (idx_peel (peer_wire h) _ 42) by (try apply length_peer; lia). reflexivity. }
  assert (Br' : bytes_ok r) by now inversion Br.
  assert (Nt : forall mk, (exists n, ('(b0, pos) <- bgp_body oc MNotification b 43 ;; x <- notif_decode notif_new b0 ;; Ok (mkDown h (mk x), pos)) = Ok (m, n)) <->
    exists x, m = mkDown h (mk x) /\ exists o rest, message_in oc MNotification r o rest /\ notif_reads 0 o x).
  { intros mk. split.
    - intros (n & E). apply bind_Ok_inv in E as ([o q] & E1 & E). apply bind_Ok_inv in E as (x & E2 & E). apply Ok_inj in E.
      apply Bd in E1 as (rest & M & _). exists x. split; [congruence|]. exists o, rest. split; [exact M|].
      destruct (message_bytes _ _ _ _ _ Br' M) as (Bo & _). now apply notif_exact in E2.
    - intros (x & -> & o & rest & M & R). destruct (message_bytes _ _ _ _ _ Br' M) as (Bo & _).
      assert (E1 : bgp_body oc MNotification b 43 = Ok (o, (43 + 19 + length o)%nat)) by (apply Bd; eauto).
      rewrite E1. cbn [bind]. apply (notif_exact notif_new) in R; [|exact Bo]. rewrite R. cbn [bind]. eauto. }
  assert (U : forall c' r', peer_reads b (pd_peer m) (c' :: r') -> c' = c /\ r' = r /\ pd_peer m = h).
  { intros c' r' P'. destruct (peer_reads_inj _ _ _ _ _ P P') as [-> E]. repeat split; congruence. }
  unfold peerdown_decode. replace (Nat.ltb (length b) 43) with false by (symmetry; apply Nat.ltb_ge; lia).
  rewrite D. cbn [bind]. rewrite Ic. cbn [bind]. change (42 + 1)%nat with 43%nat.
  destruct (N.eqb_spec c 1) as [->|N1].
  { rewrite Nt. split.
    - intros (x & -> & X). exists 1, r. cbn [pd_peer pd_reason]. split; [exact P|]. split; [reflexivity|exact X].
    - intros (c' & r' & P' & X). destruct (U _ _ P') as (-> & -> & <-). destruct m as [ph rs]. cbn [pd_peer pd_reason] in *.
      destruct rs as [x|s|x| |]; try discriminate X; try (destruct X as (X1 & X); try discriminate X1). eauto. }
  destruct (N.eqb_spec c 2) as [->|N2].
  { destruct (Nat.ltb_spec (length b - 43) 2) as [L2|L2].
    - split; [intros (n & E); discriminate|]. intros (c' & r' & P' & X). destruct (U _ _ P') as (-> & -> & <-).
      destruct (pd_reason m) as [x|s|x| |]; try discriminate X; try (destruct X as (X1 & X); try discriminate X1).
      destruct X as (_ & rest & ->). rewrite app_length, length_be_bytes in Lr. lia.
    - destruct (take_be 2 r Br') as (s & rest & Es & Hs & _); [lia|].
      replace (rslice b 43 (43 + 2)) with (@Ok (list N) (be_bytes 2 s)).
      2:{ rewrite Eb, Es. rewrite (rslice_peel _ _ 43) by (try exact Lp; lia). cbn [Nat.sub Nat.add].
          rewrite rslice_front by apply length_be_bytes. reflexivity. }
      cbn [bind]. rewrite be_val_be_bytes by exact Hs. split.
      + intros (n & E). apply Ok_inj in E. exists 2, r. assert (m = mkDown h (LocalState s)) by congruence. subst m. cbn [pd_peer pd_reason].
        split; [exact P|]. split; [reflexivity|]. split; [exact Hs|]. eauto.
      + intros (c' & r' & P' & X). destruct (U _ _ P') as (-> & -> & <-). destruct m as [ph rs]. cbn [pd_peer pd_reason] in *.
        destruct rs as [x|s'|x| |]; try discriminate X; try (destruct X as (X1 & X); try discriminate X1).
        destruct X as (Hs' & rest' & Es'). rewrite Es in Es'. apply app_same_len in Es' as [Es' _]; [|now rewrite !length_be_bytes].
        apply be_bytes_inj in Es'; [|exact Hs|exact Hs']. subst s'. eauto. }
  destruct (N.eqb_spec c 3) as [->|N3].
  { rewrite Nt. split.
    - intros (x & -> & X). exists 3, r. cbn [pd_peer pd_reason]. split; [exact P|]. split; [reflexivity|exact X].
    - intros (c' & r' & P' & X). destruct (U _ _ P') as (-> & -> & <-). destruct m as [ph rs]. cbn [pd_peer pd_reason] in *.
      destruct rs as [x|s|x| |]; try discriminate X; try (destruct X as (X1 & X); try discriminate X1). eauto. }
  destruct (N.eqb_spec c 4) as [->|N4].
  { split.
    - intros (n & E). apply Ok_inj in E. assert (m = mkDown h RemoteClosed) by congruence. subst m. exists 4, r. split; [exact P|reflexivity].
    - intros (c' & r' & P' & X). destruct (U _ _ P') as (-> & -> & <-). destruct m as [ph rs]. cbn [pd_peer pd_reason] in *.
      destruct rs as [x|s|x| |]; try discriminate X; try (destruct X as (X1 & X); try discriminate X1). eauto. }
  destruct (N.eqb_spec c 5) as [->|N5].
  { split.
    - intros (n & E). apply Ok_inj in E. assert (m = mkDown h BmpDisabled) by congruence. subst m. exists 5, r. split; [exact P|reflexivity].
    - intros (c' & r' & P' & X). destruct (U _ _ P') as (-> & -> & <-). destruct m as [ph rs]. cbn [pd_peer pd_reason] in *.
      destruct rs as [x|s|x| |]; try discriminate X; try (destruct X as (X1 & X); try discriminate X1). eauto. }
  split; [intros (n & E); discriminate|]. intros (c' & r' & P' & X). destruct (U _ _ P') as (-> & -> & <-).
  destruct (pd_reason m) as [x|s|x| |]; try congruence; destruct X as (X1 & X); congruence.
Qed.

(** ** Peer Up *)
Lemma addr_parse b : bytes_ok b -> (16 <= length b)%nat -> exists a r, ip_wf a /\ ~ v4_like a /\ b = addr_field a ++ r /\ bytes_ok r.
Proof.
  intros B L. assert (T := addr_decode_total b (Forall_firstn _ _ _ B)). destruct (bmp_addr_decode b) as [a|e| |]; [|lia|contradiction..].
  destruct T as (_ & W & V & E). exists a, (skipn 16 b). split; [exact W|]. split; [exact V|]. split; [rewrite <- E; symmetry; apply firstn_skipn|now apply Forall_skipn].
Qed.
Lemma field_inj a a' r r' : ip_wf a -> ip_wf a' -> ~ v4_like a -> ~ v4_like a' -> addr_field a ++ r = addr_field a' ++ r' -> a = a' /\ r = r'.
Proof.
  intros W W' V V' E. assert (D := addr_decode_field a r W V). rewrite E, addr_decode_field in D by assumption.
  split; [congruence|]. apply app_same_len in E as [_ E]; [exact E|now rewrite !length_field].
Qed.

Lemma up_exact oc b m : bytes_ok b -> (exists n, peerup_decode oc b = Ok (m, n)) <-> up_reads oc b m.
Proof.
  intros B. destruct (Nat.lt_ge_cases (length b) 62) as [L|L].
  { split.
    - intros (n & E). unfold peerup_decode in E. rewrite (proj2 (Nat.ltb_lt _ _) L) in E. discriminate.
    - intros (_ & _ & _ & _ & r & o1 & r1 & o2 & r2 & P & _). apply peer_reads_len in P.
      rewrite !app_length, length_field, !length_be_bytes in P. lia. }
  destruct (peer_reads_ok b B ltac:(lia)) as (h & r & P & D & Br & Lr).
  destruct (addr_parse r Br ltac:(lia)) as (la & ra & Wa & Va & Era & Bra).
  assert (Lra : length r = (16 + length ra)%nat) by (rewrite Era, app_length, length_field; reflexivity).
  destruct (take_be 2 ra Bra) as (lp & rl & Erl & Hlp & Brl); [lia|].
  assert (Lrl : length ra = (2 + length rl)%nat) by (rewrite Erl, app_length, length_be_bytes; reflexivity).
  destruct (take_be 2 rl Brl) as (rp & s & Es & Hrp & Bs); [lia|].
  assert (Lrs : length rl = (2 + length s)%nat) by (rewrite Es, app_length, length_be_bytes; reflexivity).
  destruct P as (W & V & Eb). assert (P : peer_reads b h r) by (split; auto).
  assert (Eb0 : b = peer_wire h ++ addr_field la ++ be_bytes 2 lp ++ be_bytes 2 rp ++ s) by (rewrite Eb, Era, Erl, Es; reflexivity).
  assert (R42 : rfrom b 42 = Ok (addr_field la ++ be_bytes 2 lp ++ be_bytes 2 rp ++ s)).
  { rewrite Eb0, (rfrom_peel (peer_wire h) _ 42) by (try apply length_peer; lia). apply rfrom_0. }
  assert (R58 : rfrom b 58 = Ok (be_bytes 2 lp ++ be_bytes 2 rp ++ s)).
  { rewrite Eb0, (rfrom_peel (peer_wire h) _ 42) by (try apply length_peer; lia).
    rewrite (rfrom_peel (addr_field la) _ 16) by (try apply length_field; lia). apply rfrom_0. }
  assert (R60 : rfrom b 60 = Ok (be_bytes 2 rp ++ s)).
  { rewrite Eb0, (rfrom_peel (peer_wire h) _ 42) by (try apply length_peer; lia).
    rewrite (rfrom_peel (addr_field la) _ 16) by (try apply length_field; lia).
    rewrite (rfrom_peel (be_bytes 2 lp) _ 2) by (try apply length_be_bytes; lia). apply rfrom_0. }
  set (pre := peer_wire h ++ addr_field la ++ be_bytes 2 lp ++ be_bytes 2 rp) in *.
  assert (Lpre : length pre = 62%nat) by (unfold pre; rewrite !app_length, length_peer, length_field, !length_be_bytes; reflexivity).
  assert (Ep : b = pre ++ s) by (unfold pre; rewrite <- !app_assoc; exact Eb0).
  assert (Front : peerup_decode oc b = ('(b1, pos) <- bgp_body oc MOpen b 62 ;; m1 <- open_decode open_new b1 ;;
     '(b2, pos) <- bgp_body oc MOpen b pos ;; m2 <- open_decode open_new b2 ;; Ok (mkUp h la lp rp m1 m2, pos))).
  { unfold peerup_decode. replace (Nat.ltb (length b) 62) with false by (symmetry; apply Nat.ltb_ge; lia).
    rewrite D. cbn [bind]. cbn [Nat.add]. rewrite R42. cbn [bind]. rewrite addr_decode_field by assumption. cbn [bind].
    rewrite R58. cbn [bind]. rewrite getn_u16_be by exact Hlp. cbn [bind]. rewrite R60. cbn [bind]. rewrite getn_u16_be by exact Hrp. reflexivity. }
  rewrite Front. clear Front R42 R58 R60 D. split.
  - intros (n & E). apply bind_Ok_inv in E as ([o1 q1] & E1 & E). apply bind_Ok_inv in E as (m1 & E2 & E).
    apply bind_Ok_inv in E as ([o2 q2] & E3 & E). apply bind_Ok_inv in E as (m2 & E4 & E). apply Ok_inj in E.
    assert (m = mkUp h la lp rp m1 m2) by congruence. subst m. clear E.
    rewrite Ep, <- Lpre in E1. apply body_exact in E1 as (r1 & M1 & ->); [|now rewrite <- Ep].
    destruct (message_bytes _ _ _ _ _ Bs M1) as (Bo1 & Br1 & Ls1).
    apply open_exact in E2; [|exact Bo1].
    assert (X : exists pre1, b = pre1 ++ r1 /\ length pre1 = (length pre + 19 + length o1)%nat).
    { exists (firstn (length pre + 19 + length o1) b). destruct M1 as (len & _ & _ & _ & Es1). split; [|rewrite firstn_length, Ep, app_length; lia].
      rewrite <- (firstn_skipn (length pre + 19 + length o1) b) at 1. f_equal. rewrite Ep, Es1.
      replace (pre ++ repeat 255 16 ++ be_bytes 2 len ++ [msg_code MOpen] ++ o1 ++ r1) with
        ((pre ++ repeat 255 16 ++ be_bytes 2 len ++ [msg_code MOpen] ++ o1) ++ r1) by (rewrite <- !app_assoc; reflexivity).
      rewrite skipn_app, skipn_all2 by (rewrite !app_length, repeat_length, length_be_bytes; cbn [length]; lia).
      rewrite !app_length, repeat_length, length_be_bytes. cbn [length app].
      now replace (length pre + 19 + length o1 - (length pre + (16 + (2 + (1 + length o1)))))%nat with 0%nat by lia. }
    destruct X as (pre1 & Ep1 & Lp1). rewrite Ep1, <- Lp1 in E3. apply body_exact in E3 as (r2 & M2 & _); [|now rewrite <- Ep1].
    destruct (message_bytes _ _ _ _ _ Br1 M2) as (Bo2 & _ & _). apply open_exact in E4; [|exact Bo2].
    split; [exact Wa|]. split; [exact Va|]. split; [exact Hlp|]. split; [exact Hrp|]. cbn [pu_peer pu_local pu_lport pu_rport pu_msg1 pu_msg2].
    exists s, o1, r1, o2, r2. split; [|auto]. split; [exact W|]. split; [exact V|exact Eb0].
  - intros (Wa' & Va' & Hl' & Hr' & s' & o1 & r1 & o2 & r2 & P' & M1 & O1 & M2 & O2).
    destruct m as [h' la' lp' rp' m1 m2]. cbn [pu_peer pu_local pu_lport pu_rport pu_msg1 pu_msg2] in *.
    destruct (peer_reads_inj _ _ _ _ _ P P') as [<- Er]. rewrite Era in Er. apply field_inj in Er as [<- Er]; auto.
    rewrite Erl in Er. apply app_same_len in Er as [X1 Er]; [|now rewrite !length_be_bytes]. apply be_bytes_inj in X1; [|exact Hlp|exact Hl']. subst lp'.
    rewrite Es in Er. apply app_same_len in Er as [X2 Er]; [|now rewrite !length_be_bytes]. apply be_bytes_inj in X2; [|exact Hrp|exact Hr']. subst rp' s'.
    destruct (message_bytes _ _ _ _ _ Bs M1) as (Bo1 & Br1 & Ls1). destruct (message_bytes _ _ _ _ _ Br1 M2) as (Bo2 & _ & _).
    assert (E1 : bgp_body oc MOpen b 62 = Ok (o1, (62 + 19 + length o1)%nat)).
    { rewrite Ep, <- Lpre. apply body_exact; [now rewrite <- Ep|]. eauto. }
    rewrite E1. cbn [bind]. apply (open_exact open_new) in O1; [|exact Bo1]. rewrite O1. cbn [bind].
    assert (E2 : exists q, bgp_body oc MOpen b (62 + 19 + length o1) = Ok (o2, q)).
    { destruct M1 as (len & _ & _ & _ & Es1).
      assert (Lp1 : length (pre ++ repeat 255 16 ++ be_bytes 2 len ++ [msg_code MOpen] ++ o1) = (62 + 19 + length o1)%nat).
      { rewrite !app_length, repeat_length, length_be_bytes, Lpre. cbn [length]. lia. }
      assert (Ep1 : b = (pre ++ repeat 255 16 ++ be_bytes 2 len ++ [msg_code MOpen] ++ o1) ++ r1) by (rewrite Ep, Es1, <- !app_assoc; reflexivity).
      rewrite <- Lp1, Ep1. eexists. apply body_exact; [now rewrite <- Ep1|]. eauto. }
    destruct E2 as (q & E2). rewrite E2. cbn [bind]. apply (open_exact open_new) in O2; [|exact Bo2]. rewrite O2. cbn [bind]. eauto.
Qed.

(** ** Route Monitoring *)
Lemma update_reads_len oc p o wd v up : update_reads oc p o wd v up -> (4 <= length o)%nat.
Proof. intros (w & s & nl & -> & _). rewrite !app_length, !length_be_bytes. lia. Qed.
Lemma rmon_exact oc pars b m : bytes_ok b -> (exists n, rmon_decode_with oc pars b = Ok (m, n)) <-> rmon_reads oc pars b m.
Proof.
  intros B. unfold rmon_decode_with. destruct (Nat.ltb_spec (length b) 62) as [L|L].
  { split; [intros (n & E); discriminate|]. intros (r & o & rest & P & M & U).
    assert (Br : bytes_ok r) by (destruct P as (_ & _ & E); rewrite E in B; apply Forall_app in B; apply B).
    apply peer_reads_len in P. apply update_reads_len in U. destruct (message_bytes _ _ _ _ _ Br M) as (_ & _ & Lm). lia. }
  destruct (peer_reads_ok b B ltac:(lia)) as (h & r & P & D & Br & Lr). rewrite D. cbn [bind].
  assert (Bd : forall o q, bgp_body oc MUpdate b 42 = Ok (o, q) <-> exists rest, message_in oc MUpdate r o rest /\ q = (42 + 19 + length o)%nat).
  { intros o q. destruct P as (_ & _ & E). rewrite E at 1. rewrite <- (length_peer h). apply body_exact. now rewrite <- E. }
  split.
  - intros (n & E). apply bind_Ok_inv in E as ([o q] & E1 & E). apply bind_Ok_inv in E as (u & E2 & E). apply Ok_inj in E.
    assert (m = mkRmon h u) by congruence. subst m. apply Bd in E1 as (rest & M & _).
    destruct (message_bytes _ _ _ _ _ Br M) as (Bo & _). exists r, o, rest. cbn [rm_peer rm_update]. split; [exact P|]. split; [exact M|].
    destruct u as [up wd l]. apply update_exact' in E2 as (v & El & R); [|exact Bo]. cbn [update_new u_attrs app] in El. subst v. exact R.
  - intros (r' & o & rest & P' & M & U). destruct m as [h' u]. cbn [rm_peer rm_update] in *.
    destruct (peer_reads_inj _ _ _ _ _ P P') as [<- <-]. destruct (message_bytes _ _ _ _ _ Br M) as (Bo & _).
    assert (E1 : bgp_body oc MUpdate b 42 = Ok (o, (42 + 19 + length o)%nat)) by (apply Bd; eauto). rewrite E1. cbn [bind].
    destruct u as [up wd l]. cbn [u_withdraws u_attrs u_updates] in U.
    assert (E2 : update_decode oc (pars h) update_new o = Ok (mkUpd up wd l)) by (apply update_exact'; [exact Bo|]; exists l; auto).
    rewrite E2. cbn [bind]. eauto.
Qed.

(** ** Termination *)
Lemma tlv_inj t t' v v' r r' : t < 65536 -> t' < 65536 -> N.of_nat (length v) < 65536 -> N.of_nat (length v') < 65536 ->
  tlv t v ++ r = tlv t' v' ++ r' -> t = t' /\ v = v' /\ r = r'.
Proof.
  intros Ht Ht' Hv Hv' E. unfold tlv in E. rewrite <- !app_assoc in E.
  apply app_same_len in E as [E1 E]; [|now rewrite !length_be_bytes]. apply be_bytes_inj in E1; [|exact Ht|exact Ht'].
  apply app_same_len in E as [E2 E]; [|now rewrite !length_be_bytes]. apply be_bytes_inj in E2; [|exact Hv|exact Hv'].
  apply Nat2N.inj in E2. apply app_same_len in E as [E3 E4]; [|exact E2]. auto.
Qed.
Lemma term_cases m b m' : term_reads m b m' -> (length b < 4)%nat /\ m' = m \/
  exists t v r, b = tlv t v ++ r /\ t < 65536 /\ N.of_nat (length v) < 65536 /\
   ((t = 0 /\ utf8 v /\ term_reads (mkTerm (Some v) (tm_reason m)) r m') \/
    (t = 1 /\ exists x y z, v ++ r = x :: y :: z /\ term_reads (mkTerm (tm_str m) (Some (be_val [x; y]))) r m') \/
    (2 <= t /\ term_reads m r m')).
Proof.
  intros [m0 b0 H|m0 s r m1 U L H|m0 v r x y z m1 L E H|m0 t v r m1 T L H]; [now left|right..].
  - exists 0, s, r. split; [reflexivity|]. split; [reflexivity|]. split; [exact L|]. left. auto.
  - exists 1, v, r. split; [reflexivity|]. split; [reflexivity|]. split; [exact L|]. right. left. split; [reflexivity|]. eauto.
  - exists t, v, r. split; [reflexivity|]. split; [apply T|]. split; [exact L|]. right. right. split; [apply T|exact H].
Qed.
Lemma term_loop_exact fuel : forall pre s ret m, bytes_ok s -> (length s < fuel)%nat ->
  (exists n, term_loop fuel (pre ++ s) (length pre) ret = Ok (m, n)) <-> term_reads ret s m.
Proof.
  induction fuel as [|fuel IH]; intros pre s ret m B L; [lia|]. destruct (Nat.lt_ge_cases (length s) 4) as [H|H].
  { rewrite term_short by exact H. split.
    - intros (n & E). apply Ok_inj in E. assert (m = ret) by congruence. subst m. now constructor.
    - intros R. apply term_cases in R as [[_ ->]|(t & v & r & -> & _)]; [eauto|]. rewrite app_length, length_tlv in H. lia. }
  destruct (tlv_parse s B H) as (t & n & rest & Es & Ht & Hn & Br). destruct (Nat.ltb_spec (length rest) (N.to_nat n)) as [C|C].
  { rewrite Es, term_cut by assumption. split; [intros (k & E); discriminate|]. intros R.
    apply term_cases in R as [[X _]|(t' & v & r & E & Ht' & Hv & _)]; [rewrite <- Es in X; lia|].
    unfold tlv in E. rewrite <- !app_assoc in E.
    apply app_same_len in E as [_ E]; [|now rewrite !length_be_bytes].
    apply app_same_len in E as [E2 E]; [|now rewrite !length_be_bytes]. apply be_bytes_inj in E2; [|exact Hn|exact Hv].
    subst n rest. rewrite Nat2N.id, app_length in C. lia. }
  destruct (split_at (N.to_nat n) rest C) as (v & r & Er & Lv). subst rest.
  assert (En : n = N.of_nat (length v)) by lia. subst n. clear Lv C.
  assert (E' : s = tlv t v ++ r) by (rewrite Es; unfold tlv; rewrite <- !app_assoc; reflexivity). clear Es. subst s.
  rewrite app_length, length_tlv in L. apply Forall_app in Br as [Bv Br]. rewrite term_tlv by (split; assumption).
  assert (Go : forall ret', (exists n, term_loop fuel (pre ++ tlv t v ++ r) (length (pre ++ tlv t v)) ret' = Ok (m, n)) <-> term_reads ret' r m).
  { intros ret'. rewrite app_assoc. apply IH; [exact Br|lia]. }
  assert (Inv : term_reads ret (tlv t v ++ r) m ->
    (t = 0 /\ utf8 v /\ term_reads (mkTerm (Some v) (tm_reason ret)) r m) \/
    (t = 1 /\ exists x y z, v ++ r = x :: y :: z /\ term_reads (mkTerm (tm_str ret) (Some (be_val [x; y]))) r m) \/
    (2 <= t /\ term_reads ret r m)).
  { intros R. apply term_cases in R as [[X _]|(t' & v' & r' & E & Ht' & Hv & R)]; [rewrite app_length, length_tlv in X; lia|].
    apply tlv_inj in E as (<- & <- & <-); auto. }
  destruct (N.eqb_spec t 0) as [->|T0].
  { unfold from_utf8. destruct (utf8_ok v) eqn:U; cbn [bind].
    - rewrite Go. split; [intros R; apply term_string; [now apply utf8_exact|exact Hn|exact R]|].
      intros R. destruct (Inv R) as [(_ & _ & X)|[(X & _)|(X & _)]]; [exact X|discriminate|lia].
    - split; [intros (n & E); discriminate|]. intros R. destruct (Inv R) as [(_ & X & _)|[(X & _)|(X & _)]]; [|discriminate|lia].
      apply utf8_exact in X. congruence. }
  destruct (N.eqb_spec t 1) as [->|T1].
  { assert (Bvr : bytes_ok (v ++ r)) by (apply Forall_app; auto). destruct (v ++ r) as [|x [|y z]] eqn:Ev.
    - split; [intros (n & E); discriminate|]. intros R. destruct (Inv R) as [(X & _)|[(_ & x & y & z & X & _)|(X & _)]]; [discriminate|discriminate|lia].
    - split; [intros (n & E); discriminate|]. intros R. destruct (Inv R) as [(X & _)|[(_ & x' & y & z & X & _)|(X & _)]]; [discriminate|discriminate|lia].
    - assert (G : getn_u16 (x :: y :: z) = Ok (be_val [x; y])) by (rewrite getn_u16_ok; [reflexivity|exact Bvr|cbn [length]; lia]).
      rewrite G. cbn [bind]. rewrite Go. split; [intros R; eapply term_reason; eauto|].
      intros R. destruct (Inv R) as [(X & _)|[(_ & x' & y' & z' & X & R')|(X & _)]]; [discriminate| |lia].
      injection X as <- <- <-. exact R'. }
  cbn [bind]. rewrite Go. split; [intros R; apply term_other; [split; [lia|exact Ht]|exact Hn|exact R]|].
  intros R. destruct (Inv R) as [(X & _)|[(X & _)|(_ & X)]]; [congruence|congruence|exact X].
Qed.
Lemma term_exact b m : bytes_ok b -> (exists n, term_decode b = Ok (m, n)) <-> term_reads (mkTerm None None) b m.
Proof. intros B. apply (term_loop_exact (S (length b)) [] b _ m B). lia. Qed.
Lemma init_exact b m : bytes_ok b -> (exists n, init_decode b = Ok (m, n)) <->
  exists l, b = tlvs_wire l /\ Forall (fun x => tlv_fits x /\ utf8 (snd x)) l /\ m = mkInit (last_of 0 l) (last_of 1 l) (last_of 2 l).
Proof.
  intros B. assert (F : forall l, Forall info_ok l <-> Forall (fun x => tlv_fits x /\ utf8 (snd x)) l).
  { intros l. split; apply Forall_impl; intros x (X & U); split; auto; now apply utf8_exact. }
  split.
  - intros (n & E). assert (T := init_total b B). rewrite E in T. destruct T as (_ & l & Eb & H & Em). exists l. rewrite <- F. auto.
  - intros (l & -> & H & ->). apply F in H. rewrite init_decode_tlvs by exact H. eauto.
Qed.

(** ** All messages *)
Lemma lift_exact {A} (x : res (A * nat)) (mk : A -> bmpmsg) m :
  ('(y, _) <- x ;; Ok (mk y)) = Ok m <-> exists y, m = mk y /\ exists n, x = Ok (y, n).
Proof.
  split.
  - intros E. apply bind_Ok_inv in E as ([y n] & -> & E). apply Ok_inj in E. eauto.
  - intros (y & -> & n & ->). reflexivity.
Qed.
Definition kind_decode (oc : bool) (pars : peerhdr -> params) (t : N) (r : list N) : res bmpmsg :=
  if t =? 0 then '(m, _) <- rmon_decode_with oc pars r ;; Ok (RouteMonitoring m) else
  if t =? 1 then Ok StatisticsReport else
  if t =? 2 then '(m, _) <- peerdown_decode oc r ;; Ok (PeerDown m) else
  if t =? 3 then '(m, _) <- peerup_decode oc r ;; Ok (PeerUp m) else
  if t =? 4 then '(m, _) <- init_decode r ;; Ok (Initiation m) else
  if t =? 5 then '(m, _) <- term_decode r ;; Ok (Termination m) else
  if t =? 6 then Ok RouteMirroring else Err EOther.
Lemma kind_exact oc pars t r m : bytes_ok (t :: r) -> kind_decode oc pars t r = Ok m <-> bmp_reads oc pars (t :: r) m.
Proof.
  intros B. assert (Br : bytes_ok r) by now inversion B. unfold kind_decode, bmp_reads.
  assert (U : forall (Q : N -> list N -> Prop), (exists t' r', t :: r = t' :: r' /\ Q t' r') <-> Q t r).
  { intros Q. split; [intros (t' & r' & E & H); injection E as <- <-; exact H|eauto]. }
  rewrite U. clear U.
  destruct (N.eqb_spec t 0) as [->|T0].
  { rewrite lift_exact. setoid_rewrite rmon_exact; [|exact Br]. split; [intros (y & -> & H); auto|]. destruct m; intros H; try discriminate H; try (destruct H; discriminate). destruct H. eauto. }
  destruct (N.eqb_spec t 1) as [->|T1].
  { split; [intros E; apply Ok_inj in E; now subst m|]. destruct m; intros H; try discriminate H; try (destruct H; discriminate). reflexivity. }
  destruct (N.eqb_spec t 2) as [->|T2].
  { rewrite lift_exact. setoid_rewrite down_exact; [|exact Br]. split; [intros (y & -> & H); auto|]. destruct m; intros H; try discriminate H; try (destruct H; discriminate). destruct H. eauto. }
  destruct (N.eqb_spec t 3) as [->|T3].
  { rewrite lift_exact. setoid_rewrite up_exact; [|exact Br]. split; [intros (y & -> & H); auto|]. destruct m; intros H; try discriminate H; try (destruct H; discriminate). destruct H. eauto. }
  destruct (N.eqb_spec t 4) as [->|T4].
  { rewrite lift_exact. setoid_rewrite init_exact; [|exact Br]. split; [intros (y & -> & H); auto|]. destruct m; intros H; try discriminate H; try (destruct H; discriminate). destruct H. eauto. }
  destruct (N.eqb_spec t 5) as [->|T5].
  { rewrite lift_exact. setoid_rewrite term_exact; [|exact Br]. split; [intros (y & -> & H); auto|]. destruct m; intros H; try discriminate H; try (destruct H; discriminate). destruct H. eauto. }
  destruct (N.eqb_spec t 6) as [->|T6].
  { split; [intros E; apply Ok_inj in E; now subst m|]. destruct m; intros H; try discriminate H; try (destruct H; discriminate). reflexivity. }
  split; [discriminate|]. destruct m; intros H; try destruct H; congruence.
Qed.
Lemma bmp_exact oc b m : bytes_ok b -> bmp_decode oc b = Ok m <-> bmp_reads oc params_of_peer b m.
Proof.
  intros B. destruct b as [|t r]; [split; [discriminate|intros (? & ? & E & _); discriminate]|].
  rewrite <- kind_exact by exact B. reflexivity.
Qed.
Lemma session_exact oc tb b m : bytes_ok b -> fst (session_decode oc tb b) = Ok m <-> bmp_reads oc (session_params tb) b m.
Proof.
  intros B. destruct b as [|t r]; [split; [discriminate|intros (? & ? & E & _); discriminate]|].
  rewrite <- kind_exact by exact B. unfold session_decode, kind_decode.
  change (idx (t :: r) 0) with (@Ok N t). cbv iota. change (rfrom (t :: r) 1) with (@Ok (list N) r). cbn [bind].
  destruct (t =? 0); [reflexivity|]. destruct (t =? 1); [reflexivity|].
  destruct (t =? 2); [destruct (peerdown_decode oc r) as [[? ?]|?| |]; reflexivity|].
  destruct (t =? 3); [destruct (peerup_decode oc r) as [[? ?]|?| |]; reflexivity|].
  destruct (t =? 4); [reflexivity|]. destruct (t =? 5); [reflexivity|]. destruct (t =? 6); reflexivity.
Qed.
