(** Proofs about [Debug] texts: a text is printed for one value only. *)
From Coq Require Import Ascii String.
From Verif Require Import Base BaseFacts S_Attr S_Nlri S_Prefix S_Text S_Text2 F_Attr F_Text F_Text2 M_Util M_Prefix M_Nlri M_Vpls M_Mvpn M_Evpn M_Flowspec M_Addrs M_Attr M_Update M_Text M_Text2
  F_Text3 M_Serde S_Serde S_Serde2 F_Serde F_Serde3 F_Serde4 M_Debug.
Ltac Zify.zify_post_hook ::= idtac.

(** ** Delimiters *)
Definition delim (c : N) : bool := (c =? 32) || (c =? 41) || (c =? 44) || (c =? 93) || (c =? 125).
Definition ends (r : text) : Prop := match r with [] => True | c :: _ => delim c = true end.
(** what a name or number is followed by *)
Definition stops (r : text) : Prop := match r with [] => True | c :: _ => delim c || (c =? 40) = true end.
Definition word_char (c : N) : bool := negb (delim c || (c =? 40)).
Definition word (s : text) : Prop := Forall (fun c => word_char c = true) s.
Lemma ends_stops r : ends r -> stops r.
Proof. destruct r as [|c r]; [trivial|]. cbn. intros ->. reflexivity. Qed.
Lemma tok : forall s s' r r' : text, word s -> word s' -> stops r -> stops r' -> s ++ r = s' ++ r' -> s = s' /\ r = r'.
Proof.
  assert (No : forall c s (r : text), word (c :: s) -> stops r -> r = c :: s ++ r -> False -> False) by tauto. clear No.
  induction s as [|c s IH]; intros [|c' s'] r r' W W' Q Q' E; cbn [app] in E.
  - now split.
  - exfalso. subst r. cbn [stops] in Q. apply Forall_inv in W'. cbv beta in W'. unfold word_char in W'. rewrite Q in W'. discriminate.
  - exfalso. subst r'. cbn [stops] in Q'. apply Forall_inv in W. cbv beta in W. unfold word_char in W. rewrite Q' in W. discriminate.
  - assert (c = c') as <- by congruence. assert (E' : s ++ r = s' ++ r') by congruence.
    apply IH in E' as [-> ->]; [now split|eapply Forall_inv_tail; eassumption|eapply Forall_inv_tail; eassumption|assumption|assumption].
Qed.
Lemma addr_char_word c : addr_char c -> word_char c = true.
Proof.
  intros H. unfold addr_char, hexc in H. unfold word_char, delim.
  replace (c =? 32) with false by (symmetry; apply N.eqb_neq; clear - H; lia). replace (c =? 41) with false by (symmetry; apply N.eqb_neq; clear - H; lia).
  replace (c =? 44) with false by (symmetry; apply N.eqb_neq; clear - H; lia). replace (c =? 93) with false by (symmetry; apply N.eqb_neq; clear - H; lia).
  replace (c =? 125) with false by (symmetry; apply N.eqb_neq; clear - H; lia). replace (c =? 40) with false by (symmetry; apply N.eqb_neq; clear - H; lia). reflexivity.
Qed.
Lemma addr_word (s : text) : Forall addr_char s -> word s.
Proof. apply Forall_impl. intros c. apply addr_char_word. Qed.
Lemma dec_word n : word (fmt_dec n).
Proof.
  apply addr_word. rewrite Forall_forall. intros c I.
  assert (H : ~ (c < 48 \/ 57 < c)) by (intros H; exact (dec_not c n H I)). unfold addr_char, hexc. clear - H. lia.
Qed.
Lemma dec_nonempty n : fmt_dec n <> [].
Proof. intros E. pose proof (proj1 (fmt_dec_ok n)) as P. rewrite E in P. destruct P as (ds & F & Ne & _). inversion F. congruence. Qed.

(** ** Lists *)
Definition head_ok (s : text) : Prop := match s with [] => False | c :: _ => delim c = false end.
Definition told {A} (f : A -> text) (P : A -> Prop) : Prop :=
  forall v v' r r', P v -> P v' -> ends r -> ends r' -> f v ++ r = f v' ++ r' -> v = v' /\ r = r'.
Definition begins {A} (f : A -> text) (P : A -> Prop) : Prop := forall v, P v -> head_ok (f v).
Lemma head_no (s : text) c r : head_ok s -> delim c = true -> forall t, s ++ t <> c :: r.
Proof. destruct s as [|d s]; [contradiction|]. cbn. intros H D t E. congruence. Qed.
Lemma commas_cons a b l : commas (a :: b :: l) = a ++ txt ", " ++ commas (b :: l). Proof. reflexivity. Qed.
Lemma list_told {A} (f : A -> text) (P : A -> Prop) c : told f P -> begins f P -> delim c = true -> c <> 44 ->
  forall l l' r r', Forall P l -> Forall P l' -> commas (map f l) ++ c :: r = commas (map f l') ++ c :: r' -> l = l' /\ r = r'.
Proof.
  intros T B D C. induction l as [|v l IH]; intros [|v' l'] r r' F F' E.
  - cbn in E. split; [reflexivity|congruence].
  - exfalso. pose proof (B v' (Forall_inv F')) as Hb. destruct l' as [|w l'].
    + cbn [map commas] in E. cbn [app] in E. symmetry in E. exact (head_no _ _ _ Hb D _ E).
    + cbn [map] in E. rewrite commas_cons, <- app_assoc in E. cbn [commas app] in E. symmetry in E. exact (head_no _ _ _ Hb D _ E).
  - exfalso. pose proof (B v (Forall_inv F)) as Hb. destruct l as [|w l].
    + cbn [map commas] in E. cbn [app] in E. exact (head_no _ _ _ Hb D _ E).
    + cbn [map] in E. rewrite commas_cons, <- app_assoc in E. cbn [commas app] in E. exact (head_no _ _ _ Hb D _ E).
  - pose proof (Forall_inv F) as Pv. pose proof (Forall_inv F') as Pv'. apply Forall_inv_tail in F. apply Forall_inv_tail in F'.
    destruct l as [|w l], l' as [|w' l'].
    + cbn [map commas] in E. apply T in E as [-> E]; try assumption. split; [reflexivity|congruence].
    + exfalso. cbn [map] in E. rewrite commas_cons, <- app_assoc in E. cbn [commas] in E. apply T in E as [-> E]; try assumption; [|reflexivity]. cbn in E. congruence.
    + exfalso. cbn [map] in E. rewrite commas_cons, <- app_assoc in E. cbn [commas] in E. apply T in E as [-> E]; try assumption; [|reflexivity]. cbn in E. congruence.
    + cbn [map] in E. rewrite !commas_cons, <- !app_assoc in E. apply T in E as [-> E]; try assumption; try reflexivity.
      apply app_inv_head in E. specialize (IH (w' :: l') r r' F F'). cbn [map] in IH. apply IH in E as [-> ->]. now split.
Qed.
Lemma vec_told {A} (f : A -> text) (P : A -> Prop) : told f P -> begins f P -> told (fun l => d_list (map f l)) (Forall P).
Proof.
  intros T B l l' r r' F F' _ _ E. unfold d_list in E. rewrite <- !app_assoc in E. apply app_inv_head in E.
  exact (list_told f P 93 T B eq_refl ltac:(discriminate) l l' r r' F F' E).
Qed.
Lemma set_told {A} (f : A -> text) (P : A -> Prop) : told f P -> begins f P -> told (fun l => d_set (map f l)) (Forall P).
Proof.
  intros T B l l' r r' F F' _ _ E. unfold d_set in E. rewrite <- !app_assoc in E. apply app_inv_head in E.
  exact (list_told f P 125 T B eq_refl ltac:(discriminate) l l' r r' F F' E).
Qed.

(** ** Numbers and addresses *)
Lemma dec_told : told fmt_dec (fun _ => True).
Proof.
  intros v v' r r' _ _ Er Er' E. apply tok in E as [E ->]; try apply dec_word; try (now apply ends_stops). split; [now apply dec_inj|reflexivity].
Qed.
Lemma ip4_told : told fmt_ipv4 (fun a => a < 2 ^ 32).
Proof.
  intros v v' r r' H H' Er Er' E. apply tok in E as [E ->]; try (apply addr_word, ipv4_chars); try (now apply ends_stops). split; [now apply ipv4_inj|reflexivity].
Qed.
Lemma ip6_told : told fmt_ipv6 (fun a => a < 2 ^ 128).
Proof.
  intros v v' r r' H H' Er Er' E. apply tok in E as [E ->]; try (apply addr_word, (ip_chars (IPv6 _))); try (now apply ends_stops). split; [now apply ipv6_inj|reflexivity].
Qed.
Lemma ip_told : told ip_fmt ip_any.
Proof.
  intros v v' r r' H H' Er Er' E. apply tok in E as [E ->]; try (apply addr_word, ip_chars); try (now apply ends_stops). split; [|reflexivity].
  apply ip_inj; [now destruct v|now destruct v'|exact E].
Qed.
Lemma bool_told : told d_bool (fun _ => True).
Proof. intros [|] [|] r r' _ _ _ _ E; cbn in E; try discriminate; (split; [reflexivity|congruence]). Qed.
Lemma words_begin (s : text) : word s -> s <> [] -> head_ok s.
Proof.
  destruct s as [|c s]; [congruence|]. intros W _. apply Forall_inv in W. cbv beta in W. unfold word_char in W. cbn.
  destruct (delim c); [discriminate|reflexivity].
Qed.
Lemma dec_begins : begins fmt_dec (fun _ => True).
Proof. intros v _. apply words_begin; [apply dec_word|apply dec_nonempty]. Qed.
Lemma ip4_begins : begins fmt_ipv4 (fun _ => True).
Proof.
  intros v _. apply words_begin; [apply addr_word, ipv4_chars|]. intros E. pose proof (dec_nonempty (N.shiftr v 24 mod 256)) as H. clear H.
  unfold fmt_ipv4 in E. destruct (octets4 v) as [|a l] eqn:Q; [discriminate Q|]. cbn [map] in E. destruct l as [|b l]; [discriminate Q|].
  cbn [map joined] in E. apply app_eq_nil in E as [E _]. now apply dec_nonempty in E.
Qed.
Lemma ip6_begins : begins fmt_ipv6 (fun a => a < 2 ^ 128).
Proof.
  intros v H. apply words_begin; [apply addr_word, (ip_chars (IPv6 v))|]. intros E. apply ipv6_rt in H. rewrite E in H. discriminate H.
Qed.
Lemma ip_begins : begins ip_fmt ip_any.
Proof. intros [a|a] H; [now apply ip4_begins|now apply ip6_begins]. Qed.

(** ** The values [Debug] is asked to print *)
Lemma dty_rect' (P : dty -> Prop) :
  P YNum -> P YBool -> P YIp4 -> P YIp6 -> P YIp -> P YMac -> (forall y, P y -> P (YVec y)) -> (forall y, P y -> P (YSet y)) ->
  (forall y, P y -> P (YOpt y)) -> (forall nm f y, P y -> P (YNew nm f y)) -> (forall nm fs, Forall (fun f => P (snd f)) fs -> P (YStruct nm fs)) ->
  (forall vs, Forall (fun f => match snd f with Some y => P y | None => True end) vs -> P (YEnum vs)) ->
  (forall y, P y -> P (YRd y)) -> (forall y, P y -> P (YLab y)) -> (forall y, P y -> P (YPid y)) -> P YFuel -> forall y, P y.
Proof.
  intros Hn Hb H4 H6 Hi Hm Hv Hs Ho Hw Hst He Hr Hl Hp Hx.
  fix IH 1. intros [| | | | | |y|y|y|nm f y|nm fs|vs|y|y|y|];
    [exact Hn|exact Hb|exact H4|exact H6|exact Hi|exact Hm|apply Hv, IH|apply Hs, IH|apply Ho, IH|apply Hw, IH| | |apply Hr, IH|apply Hl, IH|apply Hp, IH|exact Hx].
  - apply Hst. induction fs as [|[f y] fs IHf]; constructor; [apply IH|exact IHf].
  - apply He. induction vs as [|[nm [y|]] vs IHf]; constructor; try exact IHf; [apply IH|exact I].
Qed.
Inductive fits : dty -> gval -> Prop :=
| FNum n : fits YNum (GNum n)
| FBool b : fits YBool (GBool b)
| FIp4 a : a < 2 ^ 32 -> fits YIp4 (GIp4 a)
| FIp6 a : a < 2 ^ 128 -> fits YIp6 (GIp6 a)
| FIp a : ip_any a -> fits YIp (GIp a)
| FMac m : mac_wf m -> fits YMac (g_nums m)
| FVec y l : Forall (fits y) l -> fits (YVec y) (GList l)
| FSet y l : Forall (fits y) l -> fits (YSet y) (GList l)
| FNone y : fits (YOpt y) GNone
| FSome y v : fits y v -> fits (YOpt y) (GSome v)
| FNew nm f y v : fits y v -> fits (YNew nm f y) v
| FStruct nm fs l : Forall2 (fun f v => fits (snd f) v) fs l -> fits (YStruct nm fs) (GList l)
| FUnit vs i nm : nth_error vs i = Some (nm, None) -> fits (YEnum vs) (GVariant i None)
| FVar vs i nm y v : nth_error vs i = Some (nm, Some y) -> fits y v -> fits (YEnum vs) (GVariant i (Some v))
| FRd y h l b : fits y b -> fits (YRd y) (GPair (GList [GNum h; GNum l]) b)
| FLab y ls b : fits y b -> fits (YLab y) (GPair (g_nums ls) b)
| FPid y n b : fits y b -> fits (YPid y) (GPair (GNum n) b).

Fixpoint nodupb (l : list text) : bool := match l with [] => true | x :: l' => negb (existsb (text_eqb x) l') && nodupb l' end.
Definition name_ok (s : text) : bool := match s with [] => false | _ => forallb word_char s end.
(** structs have fields; names are words; those of the variants of an enum are distinct *)
Fixpoint ysound (y : dty) : bool :=
  match y with
  | YVec y | YSet y | YOpt y | YRd y | YLab y | YPid y => ysound y
  | YNew nm _ y => name_ok nm && ysound y
  | YStruct nm fs => name_ok nm && match fs with [] => false | _ => true end &&
      (fix go fs := match fs with [] => true | (_, y) :: fs' => ysound y && go fs' end) fs
  | YEnum vs => forallb (fun v => name_ok (fst v)) vs && nodupb (map fst vs) &&
      (fix go vs := match vs with [] => true | (_, Some y) :: vs' => ysound y && go vs' | (_, None) :: vs' => go vs' end) vs
  | _ => true
  end.
Lemma name_word s : name_ok s = true -> word s /\ s <> [].
Proof.
  destruct s as [|c s]; [discriminate|]. intros H. split; [|discriminate]. unfold name_ok in H. apply Forall_forall. intros x I. rewrite forallb_forall in H. now apply H.
Qed.
Lemma name_begins s t : name_ok s = true -> head_ok (s ++ t).
Proof. intros H. apply name_word in H as [W Ne]. destruct s as [|c s]; [congruence|]. apply words_begin in W; [|discriminate]. exact W. Qed.
Lemma nodupb_NoDup l : nodupb l = true -> NoDup l.
Proof.
  induction l as [|x l IH]; [constructor|]. cbn [nodupb]. intros H. apply andb_true_iff in H as [H1 H2]. constructor; [|now apply IH].
  intros I. apply negb_true_iff in H1. assert (existsb (text_eqb x) l = true); [|congruence]. apply existsb_exists. exists x. split; [exact I|apply text_eqb_refl].
Qed.
Lemma enum_sound vs i nm oy : ysound (YEnum vs) = true -> nth_error vs i = Some (nm, oy) ->
  name_ok nm = true /\ match oy with Some y => ysound y = true | None => True end.
Proof.
  cbn [ysound]. intros H E. apply andb_true_iff in H as [H Hs]. apply andb_true_iff in H as [Hn _]. split.
  - apply nth_error_In in E. rewrite forallb_forall in Hn. exact (Hn _ E).
  - clear Hn. revert i E. induction vs as [|[n [y|]] vs IH]; intros [|i] E; cbn in E; try discriminate.
    + apply andb_true_iff in Hs as [Hs _]. now injection E as <- <-.
    + apply andb_true_iff in Hs as [_ Hs]. now apply (IH Hs i).
    + injection E as <- <-. exact I.
    + now apply (IH Hs i).
Qed.
Lemma enum_names vs i j nm oy oy' : ysound (YEnum vs) = true -> nth_error vs i = Some (nm, oy) -> nth_error vs j = Some (nm, oy') -> i = j.
Proof.
  cbn [ysound]. intros H E E'. apply andb_true_iff in H as [H _]. apply andb_true_iff in H as [_ H]. apply nodupb_NoDup in H.
  apply (proj1 (NoDup_nth_error (map fst vs)) H).
  - apply nth_error_Some. rewrite nth_error_map, E. discriminate.
  - rewrite !nth_error_map, E, E'. reflexivity.
Qed.
Lemma dbg_enum vs i p nm oy : nth_error vs i = Some (nm, oy) ->
  dbg (YEnum vs) (GVariant i p) = d_variant nm (match oy, p with Some y, Some v => Some (dbg y v) | _, _ => None end).
Proof.
  intros E. cbn [dbg]. enough (H : forall k, nth_error vs k = Some (nm, oy) -> (fix go (vs : list (text * option dty)) (k : nat) {struct vs} : text :=
         match vs, k with
         | (nm, Some y) :: _, O => d_variant nm (match p with Some v => Some (dbg y v) | None => None end)
         | (nm, None) :: _, O => d_variant nm None
         | _ :: vs', S k' => go vs' k'
         | [], _ => []
         end) vs k = d_variant nm (match oy, p with Some y, Some v => Some (dbg y v) | _, _ => None end)) by exact (H i E).
  clear E. induction vs as [|[n [y|]] vs IH]; intros [|k] E; cbn in E; try discriminate; try (now apply IH); now injection E as -> <-.
Qed.
Definition dbg_fs := fix go (fs : list (text * dty)) (l : list gval) {struct fs} : list (text * text) :=
  match fs, l with
  | (f, y) :: fs', v :: l' => (f, dbg y v) :: go fs' l'
  | _, _ => []
  end.
Lemma dbg_struct nm fs l : dbg (YStruct nm fs) (GList l) = d_struct nm (dbg_fs fs l). Proof. reflexivity. Qed.
Lemma struct_sound nm fs : ysound (YStruct nm fs) = true -> name_ok nm = true /\ fs <> [] /\ Forall (fun f => ysound (snd f) = true) fs.
Proof.
  cbn [ysound]. intros H. apply andb_true_iff in H as [H Hs]. apply andb_true_iff in H as [Hn He]. split; [exact Hn|]. split; [now destruct fs|]. clear Hn He.
  induction fs as [|[f y] fs IH]; [constructor|]. apply andb_true_iff in Hs as [H1 H2]. constructor; [exact H1|now apply IH].
Qed.
Lemma struct_begins nm fs : name_ok nm = true -> head_ok (d_struct nm fs).
Proof. intros H. destruct fs; [rewrite <- (app_nil_r nm)|]; now apply name_begins. Qed.

Lemma dbg_begins y : forall v, ysound y = true -> fits y v -> head_ok (dbg y v).
Proof.
  intros v Sd F. destruct F as [n|b|a H|a H|a H|m H|y l H|y l H|y|y v F|nm f y v F|nm fs l H|vs i nm H|vs i nm y v H F|y h l b F|y ls b F|y n b F].
  - now apply dec_begins.
  - now destruct b.
  - now apply ip4_begins.
  - now apply ip6_begins.
  - now apply ip_begins.
  - cbn [dbg g_nums]. rewrite map_map. cbn [gnum]. rewrite map_id. change (mac_debug m) with (mac_fmt m). apply words_begin.
    + now apply addr_word, mac_chars.
    + intros E. apply mac_length in H. rewrite E in H. discriminate.
  - reflexivity.
  - reflexivity.
  - reflexivity.
  - reflexivity.
  - apply struct_begins. cbn [ysound] in Sd. now apply andb_true_iff in Sd.
  - apply struct_sound in Sd as (Hn & _). rewrite dbg_struct. now apply struct_begins.
  - rewrite (dbg_enum _ _ _ _ _ H). cbn [d_variant]. rewrite <- (app_nil_r nm). apply name_begins. now apply (enum_sound vs i nm None).
  - rewrite (dbg_enum _ _ _ _ _ H). cbn [d_variant]. apply name_begins. now apply (enum_sound vs i nm (Some y)).
  - apply struct_begins. reflexivity.
  - apply struct_begins. reflexivity.
  - apply struct_begins. reflexivity.
Qed.

(** ** One text, one value *)
Lemma struct1 nm f s : d_struct nm [(f, s)] = nm ++ txt " { " ++ f ++ txt ": " ++ s ++ txt " }".
Proof. unfold d_struct. cbn [map commas fst snd]. now rewrite <- !app_assoc. Qed.
Lemma struct2 nm f s g t : d_struct nm [(f, s); (g, t)] = nm ++ txt " { " ++ f ++ txt ": " ++ s ++ txt ", " ++ g ++ txt ": " ++ t ++ txt " }".
Proof. unfold d_struct. cbn [map commas fst snd]. now rewrite <- !app_assoc. Qed.
Ltac strip E := rewrite <- ?app_assoc in E; repeat apply app_inv_head in E.
Lemma fields_told fs : Forall (fun f => told (dbg (snd f)) (fits (snd f))) fs ->
  forall l l' r r', Forall2 (fun f v => fits (snd f) v) fs l -> Forall2 (fun f v => fits (snd f) v) fs l' ->
  commas (map (fun f => fst f ++ txt ": " ++ snd f) (dbg_fs fs l)) ++ txt " }" ++ r = commas (map (fun f => fst f ++ txt ": " ++ snd f) (dbg_fs fs l')) ++ txt " }" ++ r' ->
  l = l' /\ r = r'.
Proof.
  induction fs as [|[f y] fs IH]; intros T l l' r r' F F' E.
  - inversion F; inversion F'; subst. cbn [dbg_fs map commas app] in E. split; [reflexivity|]. now apply app_inv_head in E.
  - pose proof (Forall_inv T) as T1. cbn [snd] in T1. apply Forall_inv_tail in T. inversion F as [|? v ? l1 Fv Fl]; subst. inversion F' as [|? v' ? l1' Fv' Fl']; subst. cbn [snd] in Fv, Fv'.
    cbn [dbg_fs map fst snd] in E. destruct fs as [|[g z] fs].
    + inversion Fl; inversion Fl'; subst. cbn [dbg_fs map commas] in E. strip E. apply T1 in E as [-> E]; try assumption; try reflexivity. apply app_inv_head in E. now split.
    + inversion Fl as [|? w ? l2 Fw Fl2]; subst. inversion Fl' as [|? w' ? l2' Fw' Fl2']; subst. cbn [dbg_fs map fst snd] in E. rewrite !commas_cons in E. strip E.
      apply T1 in E as [-> E]; try assumption; try reflexivity. apply app_inv_head in E.
      specialize (IH T (w :: l2) (w' :: l2') r r' Fl Fl'). cbn [dbg_fs map fst snd] in IH. apply IH in E as [-> ->]. now split.
Qed.
Lemma dbg_told y : ysound y = true -> told (dbg y) (fits y).
Proof.
  induction y as [| | | | | |y IH|y IH|y IH|nm f y IH|nm fs IH|vs IH|y IH|y IH|y IH|] using dty_rect'; intros Sd v v' r r' F F' Er Er' E.
  - inversion F; inversion F'; subst. apply dec_told in E as [-> ->]; auto.
  - inversion F; inversion F'; subst. apply bool_told in E as [-> ->]; auto.
  - inversion F; inversion F'; subst. apply ip4_told in E as [-> ->]; auto.
  - inversion F; inversion F'; subst. apply ip6_told in E as [-> ->]; auto.
  - inversion F; inversion F'; subst. apply ip_told in E as [-> ->]; auto.
  - inversion F as [| | | | |m H| | | | | | | | | | |]; inversion F' as [| | | | |m' H'| | | | | | | | | | |]; subst. cbn [dbg g_nums] in E. rewrite !map_map in E. cbn [gnum] in E. rewrite !map_id in E.
    change (mac_fmt m ++ r = mac_fmt m' ++ r') in E. apply mac_cut in E as [-> ->]; auto.
  - inversion F; inversion F'; subst. cbn [ysound] in Sd. cbn [dbg] in E. apply (vec_told (dbg y) (fits y)) in E as [-> ->]; auto. intros w. now apply dbg_begins.
  - inversion F; inversion F'; subst. cbn [ysound] in Sd. cbn [dbg] in E. apply (set_told (dbg y) (fits y)) in E as [-> ->]; auto. intros w. now apply dbg_begins.
  - cbn [ysound] in Sd. inversion F; inversion F'; subst; cbn [dbg d_variant] in E; try discriminate E.
    + apply app_inv_head in E. now split.
    + strip E. apply IH in E as [-> E]; auto; try reflexivity. apply app_inv_head in E. now split.
  - inversion F; inversion F'; subst. cbn [ysound] in Sd. apply andb_true_iff in Sd as [_ Sd].
    assert (E' : d_struct nm [(f, dbg y v)] ++ r = d_struct nm [(f, dbg y v')] ++ r') by (destruct v, v'; exact E). clear E. rewrite !struct1 in E'.
    strip E'. apply IH in E' as [-> E]; auto; try reflexivity. apply app_inv_head in E. now split.
  - apply struct_sound in Sd as (Hn & Ne & Sd). inversion F as [| | | | | | | | | | |? ? l Fl| | | | |]; inversion F' as [| | | | | | | | | | |? ? l' Fl'| | | | |]; subst. rewrite !dbg_struct in E.
    assert (T : Forall (fun f => told (dbg (snd f)) (fits (snd f))) fs).
    { clear - IH Sd. induction IH as [|f fs H _ IHf]; constructor; [apply H; now apply Forall_inv in Sd|apply IHf; now apply Forall_inv_tail in Sd]. }
    destruct fs as [|[f y] fs]; [congruence|]. pose proof Fl as Fl0. pose proof Fl' as Fl0'. inversion Fl0 as [|? v ? l1]; subst. inversion Fl0' as [|? v' ? l1']; subst.
    assert (E' : commas (map (fun f => fst f ++ txt ": " ++ snd f) (dbg_fs ((f, y) :: fs) (v :: l1))) ++ txt " }" ++ r
               = commas (map (fun f => fst f ++ txt ": " ++ snd f) (dbg_fs ((f, y) :: fs) (v' :: l1'))) ++ txt " }" ++ r').
    { unfold d_struct in E. cbn [dbg_fs] in E. strip E. exact E. }
    apply fields_told in E' as [E1 E2]; auto. split; [now rewrite E1|exact E2].
  - assert (V : forall i p i' p' nm oy nm' oy', nth_error vs i = Some (nm, oy) -> nth_error vs i' = Some (nm', oy') ->
      d_variant nm p ++ r = d_variant nm' p' ++ r' -> i = i' /\ match p, p' with Some s, Some s' => s ++ 41 :: r = s' ++ 41 :: r' | None, None => r = r' | _, _ => False end).
    { intros i p i' p' nm oy nm' oy' H H' EE. pose proof (name_word _ (proj1 (enum_sound _ _ _ _ Sd H))) as [W _]. pose proof (name_word _ (proj1 (enum_sound _ _ _ _ Sd H'))) as [W' _].
      destruct p as [s|], p' as [s'|]; cbn [d_variant] in EE; rewrite <- ?app_assoc in EE.
      - apply tok in EE as [-> EE]; try assumption; try reflexivity. apply app_inv_head in EE. split; [exact (enum_names _ _ _ _ _ _ Sd H H')|exact EE].
      - apply tok in EE as [-> EE]; try assumption; try reflexivity; [|now apply ends_stops]. exfalso. rewrite <- EE in Er'. discriminate Er'.
      - apply tok in EE as [-> EE]; try assumption; try reflexivity; [|now apply ends_stops]. exfalso. rewrite EE in Er. discriminate Er.
      - apply tok in EE as [-> EE]; try assumption; try (now apply ends_stops). split; [exact (enum_names _ _ _ _ _ _ Sd H H')|exact EE]. }
    inversion F as [| | | | | | | | | | | |? i nm H|? i nm y w H Fw| | |]; inversion F' as [| | | | | | | | | | | |? i' nm' H'|? i' nm' y' w' H' Fw'| | |]; subst;
      rewrite (dbg_enum _ _ _ _ _ H), (dbg_enum _ _ _ _ _ H') in E; apply (V _ _ _ _ _ _ _ _ H H') in E as [-> E]; try contradiction.
    + now split.
    + assert (nm' = nm /\ y' = y) as [-> ->] by (split; congruence). rewrite Forall_forall in IH. pose proof (IH _ (nth_error_In _ _ H)) as IHy. cbn [snd] in IHy.
      apply IHy in E as [-> E]; auto; try reflexivity; [split; [reflexivity|congruence]|]. exact (proj2 (enum_sound _ _ _ _ Sd H)).
  - cbn [ysound] in Sd. inversion F; inversion F'; subst. cbn [dbg rd_debug gnum] in E. rewrite !struct2 in E. strip E. apply dec_told in E as [-> E]; auto; try reflexivity.
    strip E. apply dec_told in E as [-> E]; auto; try reflexivity. strip E. apply IH in E as [-> E]; auto; try reflexivity. apply app_inv_head in E. now split.
  - cbn [ysound] in Sd. inversion F as [| | | | | | | | | | | | | | |? ls|]; inversion F' as [| | | | | | | | | | | | | | |? ls'|]; subst. cbn [dbg labels_debug g_nums] in E. rewrite !map_map in E. cbn [gnum] in E. rewrite !struct2, !struct1 in E. strip E.
    apply IH in E as [-> E]; auto; try reflexivity. strip E. apply (vec_told fmt_dec (fun _ => True) dec_told dec_begins) in E as [-> E]; try (now apply Forall_forall); try reflexivity.
    strip E. now split.
  - cbn [ysound] in Sd. inversion F; inversion F'; subst. cbn [dbg gnum] in E. rewrite !struct2 in E. strip E. apply dec_told in E as [-> E]; auto; try reflexivity.
    strip E. apply IH in E as [-> E]; auto; try reflexivity. apply app_inv_head in E. now split.
  - inversion F.
Qed.
