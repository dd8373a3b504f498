(** Proofs that [Debug] texts stay on one line. *)
From Coq Require Import Ascii String.
From Verif Require Import Base BaseFacts S_Text S_Text2 F_Text F_Text2 M_Util M_Nlri M_Cap M_Open M_Session M_Addrs M_Attr M_Update M_Bmp M_Text M_Text2
  F_Text3 F_Text4 M_Serde S_Serde S_Serde2 F_Serde F_Serde3 F_Serde4 M_Debug F_Debug F_Debug2 F_Debug3 S_Debug S_Exact3 F_Utf8 M_Debug2 S_Debug2 F_Debug4.
Ltac Zify.zify_post_hook ::= idtac.

Definition lineb (c : N) : bool := (32 <=? c) && negb (c =? 127).
Lemma line_all l : forallb lineb l = true -> one_line l.
Proof.
  intros H. rewrite forallb_forall in H. apply Forall_forall. intros c I. apply H in I. unfold lineb in I. apply andb_prop in I as [I1 I2].
  apply N.leb_le in I1. apply negb_true_iff, N.eqb_neq in I2. now split.
Qed.
Lemma line_app a b : one_line a -> one_line b -> one_line (a ++ b). Proof. intros A B. apply Forall_app. now split. Qed.
Lemma line_nil : one_line []. Proof. constructor. Qed.
Ltac lit := apply line_all; reflexivity.
Lemma addr_line (s : text) : Forall addr_char s -> one_line s.
Proof. apply Forall_impl. intros c H. unfold addr_char, hexc in H. clear - H. lia. Qed.
Lemma dec_line n : one_line (fmt_dec n).
Proof. apply addr_line. apply Forall_forall. intros c I. assert (H : ~ (c < 48 \/ 57 < c)) by (intros H; exact (dec_not c n H I)). unfold addr_char, hexc. clear - H. lia. Qed.
Lemma hex_line n : one_line (fmt_hex n).
Proof.
  destruct (fmt_hex_ok n) as ((ds & F & _) & _). induction F as [|c d s ds [L Hd] F IH]; [constructor|]. constructor; [clear - L Hd; lia|exact IH].
Qed.
Lemma hex2_line n : one_line (fmt_hex2 n).
Proof. unfold fmt_hex2. apply line_app; [|apply hex_line]. apply Forall_forall. intros c I. apply repeat_spec in I. subst c. split; discriminate. Qed.
Lemma ip4_line a : one_line (fmt_ipv4 a). Proof. apply addr_line, ipv4_chars. Qed.
Lemma ip_line a : one_line (ip_fmt a). Proof. apply addr_line, ip_chars. Qed.
Lemma bool_line b : one_line (d_bool b). Proof. destruct b; lit. Qed.
Lemma commas_line l : Forall one_line l -> one_line (commas l).
Proof.
  induction l as [|s l IH]; intros F; [constructor|]. destruct l as [|s' l]; [exact (Forall_inv F)|]. rewrite commas_cons.
  apply line_app; [exact (Forall_inv F)|]. apply line_app; [lit|]. apply IH. exact (Forall_inv_tail F).
Qed.
Lemma struct_line nm fs : one_line nm -> Forall (fun f => one_line (fst f) /\ one_line (snd f)) fs -> one_line (d_struct nm fs).
Proof.
  intros Hn F. destruct fs as [|f fs]; [exact Hn|]. unfold d_struct. repeat apply line_app; try lit; [exact Hn|]. apply commas_line. apply Forall_map. revert F. apply Forall_impl.
  intros [a b] [Ha Hb]. cbn [fst snd] in *. repeat apply line_app; try assumption. lit.
Qed.
Lemma list_line {A} (f : A -> text) l : (forall x, In x l -> one_line (f x)) -> one_line (d_list (map f l)).
Proof. intros H. unfold d_list. repeat apply line_app; try lit. apply commas_line, Forall_map, Forall_forall. exact H. Qed.
Lemma set_line {A} (f : A -> text) l : (forall x, In x l -> one_line (f x)) -> one_line (d_set (map f l)).
Proof. intros H. unfold d_set. repeat apply line_app; try lit. apply commas_line, Forall_map, Forall_forall. exact H. Qed.
Lemma variant_line nm p : one_line nm -> match p with None => True | Some s => one_line s end -> one_line (d_variant nm p).
Proof. intros H P. destruct p; [|exact H]. cbn [d_variant]. repeat apply line_app; try lit; assumption. Qed.
Lemma mac_line m : one_line (mac_debug m).
Proof. unfold mac_debug. repeat first [apply hex2_line|lit|apply line_app]. Qed.

(** ** Attributes and routes *)
Fixpoint yline (y : dty) : bool :=
  match y with
  | YVec y | YSet y | YOpt y | YRd y | YLab y | YPid y => yline y
  | YNew nm f y => forallb lineb nm && forallb lineb f && yline y
  | YStruct nm fs => forallb lineb nm &&
      (fix go fs := match fs with [] => true | (f, y) :: fs' => forallb lineb f && yline y && go fs' end) fs
  | YEnum vs =>
      (fix go vs := match vs with [] => true | (f, Some y) :: vs' => forallb lineb f && yline y && go vs' | (f, None) :: vs' => forallb lineb f && go vs' end) vs
  | _ => true
  end.
Ltac fields := apply struct_line; [lit|repeat (apply Forall_cons; [split; cbn [fst snd]; [lit|]|]); try apply Forall_nil].
Lemma rd_line v : one_line (rd_debug v).
Proof.
  destruct v as [| | | | |l| | | | |]; try apply line_nil. cbn [rd_debug]. destruct l as [|a [|b [|? ?]]]; try apply line_nil. fields; apply dec_line.
Qed.
Lemma labels_line v : one_line (labels_debug v).
Proof.
  destruct v as [| | | | |l| | | | |]; try apply line_nil. cbn [labels_debug]. fields. apply list_line. intros x _. apply dec_line.
Qed.
Lemma dbg_line y : yline y = true -> forall v, one_line (dbg y v).
Proof.
  induction y using dty_rect'; intros Y v; cbn [yline] in Y.
  - destruct v; try apply line_nil. apply dec_line.
  - destruct v; try apply line_nil. apply bool_line.
  - destruct v; try apply line_nil. apply ip4_line.
  - destruct v; try apply line_nil. cbn [dbg]. apply (ip_line (IPv6 _)).
  - destruct v; try apply line_nil. apply ip_line.
  - destruct v; try apply line_nil. apply mac_line.
  - destruct v; try apply line_nil. apply list_line. intros x _. now apply IHy.
  - destruct v; try apply line_nil. apply set_line. intros x _. now apply IHy.
  - destruct v; try apply line_nil; apply variant_line; try lit; try exact I. now apply IHy.
  - apply andb_prop in Y as [Y Y3]. apply andb_prop in Y as [Y1 Y2].
    assert (K : one_line (d_struct nm [(f, dbg y v)])). { apply struct_line; [now apply line_all|]. apply Forall_cons; [|apply Forall_nil]. cbn [fst snd]. split; [now apply line_all|now apply IHy]. }
    destruct v; exact K.
  - destruct v as [| | | | |l| | | | |]; try apply line_nil. rewrite dbg_struct. apply andb_prop in Y as [Y1 Y2]. apply struct_line; [now apply line_all|]. clear Y1.
    revert l. induction fs as [|[f y] fs IHf]; intros l; [constructor|]. destruct l as [|v l]; [constructor|]. cbn [dbg_fs].
    apply andb_prop in Y2 as [Y2 Y3]. apply andb_prop in Y2 as [Y1 Y2]. constructor.
    + cbn [fst snd]. split; [now apply line_all|]. apply (Forall_inv H). exact Y2.
    + apply IHf; [exact (Forall_inv_tail H)|exact Y3].
  - destruct v as [| | | | | | | | |i p|]; try apply line_nil. cbn [dbg]. revert i. induction vs as [|[f [y|]] vs IHf]; intros i; [apply line_nil| |].
    + apply andb_prop in Y as [Y Y3]. apply andb_prop in Y as [Y1 Y2]. destruct i as [|i]; [|apply IHf; [exact (Forall_inv_tail H)|exact Y3]].
      apply variant_line; [now apply line_all|]. destruct p; [|exact I]. apply (Forall_inv H). exact Y2.
    + apply andb_prop in Y as [Y1 Y3]. destruct i as [|i]; [|apply IHf; [exact (Forall_inv_tail H)|exact Y3]]. apply variant_line; [now apply line_all|exact I].
  - destruct v; try apply line_nil. cbn [dbg]. fields; [apply rd_line|now apply IHy].
  - destruct v; try apply line_nil. cbn [dbg]. fields; [now apply IHy|apply labels_line].
  - destruct v; try apply line_nil. cbn [dbg]. fields; [apply dec_line|now apply IHy].
  - destruct v; apply line_nil.
Qed.
Definition line_vs := fix go (vs : list (text * option dty)) := match vs with [] => true | (f, Some y) :: vs' => forallb lineb f && yline y && go vs' | (f, None) :: vs' => forallb lineb f && go vs' end.
Lemma yline_enum vs : yline (YEnum vs) = line_vs vs. Proof. reflexivity. Qed.
Lemma line_vs_cons nm y vs : line_vs ((nm, Some y) :: vs) = forallb lineb nm && yline y && line_vs vs. Proof. reflexivity. Qed.
Lemma line_yattr n : yline (Y_Attr n) = true.
Proof.
  assert (Step : forall y, yline y = true -> yline (YA y) = true).
  { intros y H. unfold YA, yenum. cbn [map fst snd]. rewrite yline_enum, !line_vs_cons.
    repeat (match goal with |- _ && _ = true => apply andb_true_intro; split end); try (vm_compute; reflexivity). unfold ystruct. cbn [map fst snd]. cbn [yline]. now rewrite H. }
  induction n as [|n IH]; rewrite Y_Attr_eq; apply Step; [reflexivity|exact IH].
Qed.
Lemma attr_line a : one_line (attr_debug a). Proof. apply dbg_line, line_yattr. Qed.
Lemma addrs_line a : one_line (addrs_debug a). Proof. apply dbg_line. vm_compute. reflexivity. Qed.
Lemma update_line u : one_line (update_debug u).
Proof. fields; try apply addrs_line. apply list_line. intros x _. apply attr_line. Qed.
Lemma notif_line m : one_line (notif_debug m). Proof. fields; apply dec_line. Qed.

(** ** Strings *)
Lemma utf8_of_line c : 128 <= c -> one_line (utf8_of c).
Proof.
  intros H. unfold utf8_of. replace (c <? 128) with false by (symmetry; now apply N.ltb_ge).
  destruct (c <? 2048); [|destruct (c <? 65536)]; repeat (apply Forall_cons; [split; lia|]); apply Forall_nil.
Qed.
Lemma char_line pr c : one_line (char_debug pr c).
Proof.
  unfold char_debug. repeat (match goal with |- context [if ?c =? ?k then _ else _] => destruct (N.eqb_spec c k); [lit|] end).
  destruct (if c <? 128 then (32 <=? c) && (c <? 127) else pr c) eqn:P; [|repeat apply line_app; try lit; apply hex_line].
  rewrite char_utf8_of. destruct (N.ltb_spec c 128) as [L|L]; [|now apply utf8_of_line].
  apply andb_prop in P as [P1 P2]. apply N.leb_le in P1. apply N.ltb_lt in P2. unfold utf8_of. replace (c <? 128) with true by (symmetry; now apply N.ltb_lt).
  apply Forall_cons; [|apply Forall_nil]. split; [exact P1|clear - P2; lia].
Qed.
Lemma str_line pr s : one_line (str_debug pr s).
Proof.
  unfold str_debug. repeat apply line_app; try lit. induction (chars s) as [|c cs IH]; [constructor|]. cbn [map concat]. apply line_app; [apply char_line|exact IH].
Qed.
Lemma opt_line {A} (f : A -> text) o : (forall x, one_line (f x)) -> one_line (opt_debug f o).
Proof. intros H. destruct o; apply variant_line; try lit; [apply H|exact I]. Qed.
Lemma gr_line g : one_line (gr_debug g). Proof. fields; try apply dec_line. apply bool_line. Qed.
Lemma ll_line g : one_line (ll_debug g). Proof. fields; apply dec_line. Qed.
Lemma ap_line g : one_line (ap_debug g). Proof. fields; try apply dec_line; apply bool_line. Qed.
Lemma cap_line pr c : one_line (cap_debug pr c).
Proof.
  destruct c as [s|st t l|n| |l| |l|h d|]; cbn [cap_debug].
  - destruct s; lit.
  - fields; [apply dec_line|apply bool_line|]. apply list_line. intros x _. apply gr_line.
  - apply variant_line; [lit|apply dec_line].
  - lit.
  - apply variant_line; [lit|]. apply list_line. intros x _. apply ap_line.
  - lit.
  - apply variant_line; [lit|]. apply list_line. intros x _. apply ll_line.
  - unfold d_tuple. apply line_app; [lit|]. apply line_app; [lit|]. apply line_app; [|lit]. apply commas_line. repeat (apply Forall_cons; [apply str_line|]). apply Forall_nil.
  - lit.
Qed.
Lemma open_line pr m : one_line (open_debug pr m).
Proof. fields; try apply dec_line; [apply ip4_line|]. apply list_line. intros x _. apply cap_line. Qed.
Lemma params_line pr p : one_line (params_debug pr p).
Proof. fields; try apply dec_line; try apply bool_line; [destruct (sp_mode p); lit|apply ip4_line|]. apply list_line. intros x _. apply cap_line. Qed.
Lemma brd_line d : one_line (brd_debug d). Proof. fields; apply dec_line. Qed.
Lemma peer_line h : one_line (peer_debug h).
Proof. fields; try apply dec_line; [apply brd_line|apply ip_line|apply ip4_line]. Qed.
Lemma bmp_line pr m : one_line (bmp_debug pr m).
Proof.
  destruct m as [m| |m|m|m|m|]; cbn [bmp_debug]; try lit; apply variant_line; try lit.
  - fields; [apply peer_line|apply update_line].
  - fields; [apply peer_line|]. destruct (pd_reason m); cbn [reason_debug]; try lit; apply variant_line; try lit; try apply notif_line. apply dec_line.
  - fields; try apply dec_line; try apply open_line; [apply peer_line|apply ip_line].
  - fields; apply opt_line; apply str_line.
  - fields; apply opt_line; [apply str_line|apply dec_line].
Qed.
