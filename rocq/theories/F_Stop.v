(** What an encoder does in a large buffer: rules. *)
From Verif Require Import Base BaseFacts M_Util S_Wire F_Util M_Nlri S_Stop.
Ltac Zify.zify_post_hook ::= idtac.

(** the outcome [r] of [e] on a buffer of [n] octets, whatever they are *)
Definition shape {A} (o : res (A * list N)) (n : nat) (r : res A) : Prop :=
  match r with
  | Ok x => exists b, length b = n /\ o = Ok (x, b)
  | Err er => o = Err er
  | Panic => o = Panic
  | OutOfFuel => o = OutOfFuel
  end.
Definition at_len {A} (n : nat) (e : Enc A) (r : res A) : Prop := forall buf, length buf = n -> shape (e buf) n r.
Definition room {A} (e : Enc A) (r : res A) : Prop := exists k, forall n, (k <= n)%nat -> at_len n e r.

Lemma at_ext {A} n (e e' : Enc A) r : (forall buf, length buf = n -> e buf = e' buf) -> at_len n e' r -> at_len n e r.
Proof. intros H F buf Hb. rewrite H by exact Hb. now apply F. Qed.
Lemma at_ret {A} n (x : A) : at_len n (eret x) (Ok x).
Proof. intros buf H. exists buf. now split. Qed.
Lemma at_err {A} n er : at_len n (@eerr A er) (Err er).
Proof. intros buf H. reflexivity. Qed.
Lemma at_panic {A} n : at_len n (@epanic A) Panic.
Proof. intros buf H. reflexivity. Qed.
Lemma at_lift {A} n (r : res A) : at_len n (elift r) r.
Proof. intros buf H. destruct r; cbn; try reflexivity. exists buf. now split. Qed.
Lemma at_bind {A B} n (m : Enc A) (f : A -> Enc B) r g : at_len n m r -> (forall x, r = Ok x -> at_len n (f x) (g x)) -> at_len n (ebind m f) (bind r g).
Proof.
  intros H1 H2 buf Hb. specialize (H1 buf Hb). unfold ebind. destruct r as [x|er| |]; cbn [shape bind] in *.
  - destruct H1 as (b & L & ->). apply (H2 x eq_refl). exact L.
  - now rewrite H1.
  - now rewrite H1.
  - now rewrite H1.
Qed.
Lemma length_splice p bs (buf : list N) : (p + length bs <= length buf)%nat -> length (splice p bs buf) = length buf.
Proof. intros H. unfold splice. rewrite !app_length, firstn_length, skipn_length. lia. Qed.
Lemma at_set n i v : (i < n)%nat -> at_len n (set_idx i v) (Ok tt).
Proof.
  intros H buf Hb. unfold set_idx. destruct (Nat.ltb_spec i (length buf)) as [Hl|Hl]; [|lia]. eexists. split; [|reflexivity].
  rewrite length_splice by (cbn; lia). exact Hb.
Qed.
Lemma at_write n a bs : (a + length bs <= n)%nat -> at_len n (write_at a bs) (Ok tt).
Proof.
  intros H buf Hb. unfold write_at. destruct (Nat.leb_spec (a + length bs) (length buf)) as [Hl|Hl]; [|lia]. eexists. split; [|reflexivity].
  rewrite length_splice by lia. exact Hb.
Qed.
Lemma at_upd n i f : (i < n)%nat -> at_len n (upd_idx i f) (Ok tt).
Proof.
  intros H buf Hb. unfold upd_idx. destruct (nth_error buf i) as [b|] eqn:E.
  - eexists. split; [|reflexivity]. rewrite length_splice by (cbn; lia). exact Hb.
  - apply nth_error_None in E. lia.
Qed.
Lemma at_from {A} n a (e : Enc A) r : (a <= n)%nat -> at_len (n - a) e r -> at_len n (on_from a e) r.
Proof.
  intros Ha H buf Hb. unfold on_from. destruct (Nat.leb_spec a (length buf)) as [Hl|Hl]; [|lia].
  specialize (H (skipn a buf)). rewrite skipn_length, Hb in H. specialize (H eq_refl). destruct r; cbn [shape] in *.
  - destruct H as (b & L & ->). eexists. split; [|reflexivity]. rewrite app_length, firstn_length. lia.
  - now rewrite H.
  - now rewrite H.
  - now rewrite H.
Qed.
Lemma at_slice {A} n a b (e : Enc A) r : (a <= b <= n)%nat -> at_len (b - a) e r -> at_len n (on_slice a b e) r.
Proof.
  intros Ha H buf Hb. unfold on_slice. replace (Nat.leb a b && Nat.leb b (length buf))%bool with true
    by (symmetry; apply andb_true_intro; split; apply Nat.leb_le; lia).
  specialize (H (sub buf a b)). unfold sub in *. rewrite firstn_length, skipn_length in H. specialize (H ltac:(lia)). destruct r; cbn [shape] in *.
  - destruct H as (c & L & ->). eexists. split; [|reflexivity]. rewrite !app_length, firstn_length, skipn_length. lia.
  - now rewrite H.
  - now rewrite H.
  - now rewrite H.
Qed.
Lemma at_eslice {A} n a b (e : Enc A) r : (a <= b <= n)%nat -> at_len (b - a) e r -> at_len n (on_eslice a b e) r.
Proof.
  intros Ha H. apply at_ext with (e' := on_slice a b e); [|now apply at_slice]. intros buf Hb. unfold on_eslice, on_slice.
  replace (Nat.leb a b && Nat.leb b (length buf))%bool with true by (symmetry; apply andb_true_intro; split; apply Nat.leb_le; lia). reflexivity.
Qed.
Lemma at_elen {A} n (f : nat -> Enc A) r : at_len n (f n) r -> at_len n (ebind elen f) r.
Proof. intros H buf Hb. unfold ebind, elen. rewrite Hb. now apply H. Qed.

(** ** Large buffers *)
Lemma room_at {A} (e : Enc A) r k : (forall n, (k <= n)%nat -> at_len n e r) -> room e r.
Proof. intros H. now exists k. Qed.
Lemma room_ext {A} (e e' : Enc A) r : (forall buf, e buf = e' buf) -> room e' r -> room e r.
Proof. intros H (k & F). exists k. intros n Hn. apply at_ext with (e' := e'); [intros; apply H|now apply F]. Qed.
Lemma room_ret {A} (x : A) : room (eret x) (Ok x).
Proof. exists 0%nat. intros. apply at_ret. Qed.
Lemma room_err {A} er : room (@eerr A er) (Err er).
Proof. exists 0%nat. intros. apply at_err. Qed.
Lemma room_panic {A} : room (@epanic A) Panic.
Proof. exists 0%nat. intros. apply at_panic. Qed.
Lemma room_lift {A} (r : res A) : room (elift r) r.
Proof. exists 0%nat. intros. apply at_lift. Qed.
Lemma room_bind {A B} (m : Enc A) (f : A -> Enc B) r g : room m r -> (forall x, r = Ok x -> room (f x) (g x)) -> room (ebind m f) (bind r g).
Proof.
  intros (k1 & H1) H2. destruct r as [x|er| |].
  - destruct (H2 x eq_refl) as (k2 & H). exists (Nat.max k1 k2). intros n Hn. apply at_bind; [apply H1; lia|]. intros y E. assert (y = x) as -> by congruence. apply H. lia.
  - exists k1. intros n Hn. apply at_bind; [now apply H1|discriminate].
  - exists k1. intros n Hn. apply at_bind; [now apply H1|discriminate].
  - exists k1. intros n Hn. apply at_bind; [now apply H1|discriminate].
Qed.
(** the usual ways to use it *)
Lemma room_seq {A B} (m : Enc A) (f : A -> Enc B) x r : room m (Ok x) -> room (f x) r -> room (ebind m f) r.
Proof.
  intros H1 H2. apply (room_bind m f (Ok x) (fun _ => r)); [exact H1|]. intros y E. assert (y = x) as -> by congruence. exact H2.
Qed.
Lemma room_bind_err {A B} (m : Enc A) (f : A -> Enc B) er : room m (Err er) -> room (ebind m f) (Err er).
Proof. intros H. apply (room_bind m f (Err er) (fun _ => Err er) H). discriminate. Qed.
Lemma room_bind_panic {A B} (m : Enc A) (f : A -> Enc B) : room m Panic -> room (ebind m f) Panic.
Proof. intros H. apply (room_bind m f Panic (fun _ => Panic) H). discriminate. Qed.
Lemma room_set i v : room (set_idx i v) (Ok tt).
Proof. exists (S i). intros n H. apply at_set. lia. Qed.
Lemma room_write a bs : room (write_at a bs) (Ok tt).
Proof. exists (a + length bs)%nat. intros n H. now apply at_write. Qed.
Lemma room_upd i f : room (upd_idx i f) (Ok tt).
Proof. exists (S i). intros n H. apply at_upd. lia. Qed.
Lemma room_from {A} a (e : Enc A) r : room e r -> room (on_from a e) r.
Proof. intros (k & H). exists (a + k)%nat. intros n Hn. apply at_from; [lia|]. apply H. lia. Qed.
Lemma room_slice {A} a b (e : Enc A) r : (a <= b)%nat -> at_len (b - a) e r -> room (on_slice a b e) r.
Proof. intros Ha H. exists b. intros n Hn. apply at_slice; [lia|exact H]. Qed.
Lemma room_eslice {A} a b (e : Enc A) r : (a <= b)%nat -> at_len (b - a) e r -> room (on_eslice a b e) r.
Proof. intros Ha H. exists b. intros n Hn. apply at_eslice; [lia|exact H]. Qed.
(** [f] is [e] once the buffer is large *)
Lemma room_elen {A} (f : nat -> Enc A) (e : Enc A) r k : (forall n, (k <= n)%nat -> forall buf, f n buf = e buf) -> room e r -> room (ebind elen f) r.
Proof.
  intros H (k2 & F). exists (Nat.max k k2). intros n Hn. apply at_elen. apply at_ext with (e' := e); [intros; apply H; lia|]. apply F. lia.
Qed.
Lemma room_guard {A} k er (e : Enc A) r : room e r -> room (len <~ elen ;; if Nat.ltb len k then eerr er else e) r.
Proof. apply room_elen with (k := k). intros n Hn buf. destruct (Nat.ltb_spec n k); [lia|reflexivity]. Qed.
Lemma room_guard' {A} k er (e : Enc A) r : room e r -> room (len <~ elen ;; if Nat.leb k len then e else eerr er) r.
Proof. apply room_elen with (k := k). intros n Hn buf. destruct (Nat.leb_spec k n); [reflexivity|lia]. Qed.
Lemma room_guard_sub {A} p k er (e : Enc A) r : room e r -> room (len <~ elen ;; if Nat.ltb (len - p) k then eerr er else e) r.
Proof. apply room_elen with (k := (p + k)%nat). intros n Hn buf. destruct (Nat.ltb_spec (n - p) k); [lia|reflexivity]. Qed.
Lemma room_guard0 {A} er (e : Enc A) r : room e r -> room (len <~ elen ;; if Nat.eqb len 0 then eerr er else e) r.
Proof. apply room_elen with (k := 1%nat). intros n Hn buf. destruct (Nat.eqb_spec n 0); [lia|reflexivity]. Qed.

(** ** Conclusions *)
Lemma room_det {A} (e : Enc A) r1 r2 : room e r1 -> room e r2 -> r1 = r2.
Proof.
  intros (k1 & H1) (k2 & H2). set (n := Nat.max k1 k2).
  specialize (H1 n ltac:(lia) (repeat 0 n) (repeat_length _ _)). specialize (H2 n ltac:(lia) (repeat 0 n) (repeat_length _ _)).
  destruct r1, r2; cbn [shape] in *; try (destruct H1 as (? & _ & H1)); try (destruct H2 as (? & _ & H2)); congruence.
Qed.
Lemma room_stops {A} (e : Enc A) : stops e <-> room e Panic.
Proof.
  split; intros (k & H); exists k.
  - intros n Hn buf Hb. apply H. lia.
  - intros buf Hb. now apply (H (length buf) Hb buf).
Qed.
Lemma room_yields {A} (e : Enc A) x : yields e x <-> room e (Ok x).
Proof.
  split; intros (k & H); exists k.
  - intros n Hn buf Hb. destruct (H buf ltac:(lia)) as (b & L & E). exists b. split; [lia|exact E].
  - intros buf Hb. now apply (H (length buf) Hb buf).
Qed.
Lemma room_never {A} (e : Enc A) r : room e r -> r <> Panic -> never_stops e.
Proof.
  intros (k & H) Hr. exists k. intros buf Hb E. specialize (H _ Hb buf eq_refl). rewrite E in H. destruct r; cbn [shape] in H; [destruct H as (b & _ & H)|..]; congruence.
Qed.
Lemma never_not_stops {A} (e : Enc A) : never_stops e -> ~ stops e.
Proof.
  intros (k1 & H1) (k2 & H2). set (n := Nat.max k1 k2). apply (H1 (repeat 0 n)); [rewrite repeat_length; lia|]. apply H2. rewrite repeat_length. lia.
Qed.
(** calm: a result or an error *)
Definition goes {A} (e : Enc A) : Prop := exists x, room e (Ok x).
Definition calm {A} (e : Enc A) : Prop := (exists x, room e (Ok x)) \/ exists er, room e (Err er).
Lemma goes_calm {A} (e : Enc A) : goes e -> calm e.
Proof. intros H. now left. Qed.
Lemma goes_bind {A B} (m : Enc A) (f : A -> Enc B) : goes m -> (forall x, goes (f x)) -> goes (ebind m f).
Proof. intros (x & H1) H2. destruct (H2 x) as (y & H3). exists y. now apply room_seq with (x := x). Qed.
Lemma calm_bind {A B} (m : Enc A) (f : A -> Enc B) : calm m -> (forall x, calm (f x)) -> calm (ebind m f).
Proof.
  intros [(x & H1)|(er & H1)] H2.
  - destruct (H2 x) as [(y & H3)|(er & H3)]; [left; exists y|right; exists er]; now apply room_seq with (x := x).
  - right. exists er. now apply room_bind_err.
Qed.
Lemma calm_never {A} (e : Enc A) : calm e -> never_stops e.
Proof. intros [(x & H)|(er & H)]; eapply room_never; eauto; discriminate. Qed.
(** one item of a list after another *)
Lemma exact_iff {A} (e : Enc A) (P : Prop) : (P -> room e Panic) -> (~ P -> calm e) -> (P \/ ~ P) -> (stops e <-> P) /\ (never_stops e <-> ~ P).
Proof.
  intros H1 H2 D. split; split.
  - intros Hs. destruct D as [D|D]; [exact D|]. exfalso. now apply (never_not_stops e (calm_never _ (H2 D))).
  - intros Hp. now apply room_stops, H1.
  - intros Hn Hp. apply (never_not_stops _ Hn). now apply room_stops, H1.
  - intros Hp. now apply calm_never, H2.
Qed.
