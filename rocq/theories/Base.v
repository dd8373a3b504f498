(** Base vocabulary of the model: results, byte buffers, encoders.

    Rust side: [Result<T, BgpError>] (/repo/src/error.rs:18-25), slices
    [&[u8]] and [&mut [u8]], machine integer arithmetic. *)
From Coq Require Export NArith List Lia Bool Arith.
Export ListNotations.
Open Scope N_scope.

(** /repo/src/error.rs:18-25.  Simplified: [Static], [DynStr] and [Other]
    (message strings) are collapsed into [EOther]. *)
Inductive err := EInsufficient | EProtocol | ETooMany | EOther.

(** Outcome of a Rust call: value, [Err], panic; [OutOfFuel] is an artefact of
    the fuelled loops of the model (proved unreachable). (/repo/src/error.rs:18-25) *)
Inductive res (A : Type) :=
| Ok (a : A)
| Err (e : err)
| Panic
| OutOfFuel.
Arguments Ok {A} a.
Arguments Err {A} e.
Arguments Panic {A}.
Arguments OutOfFuel {A}.

(** The [?] operator / sequencing. (e.g. /repo/src/afi/mod.rs:205) *)
Definition bind {A B} (x : res A) (f : A -> res B) : res B :=
  match x with
  | Ok a => f a
  | Err e => Err e
  | Panic => Panic
  | OutOfFuel => OutOfFuel
  end.
Notation "x <- e ;; f" := (bind e (fun x => f))
  (at level 61, e at next level, right associativity).
Notation "' p <- e ;; f" := (bind e (fun p => f))
  (at level 61, p pattern, e at next level, right associativity).

(** recognises a panic (vocabulary of the specifications; no counterpart in /repo/src/*.rs) *)
Definition is_panic {A} (x : res A) : bool :=
  match x with Panic => true | _ => false end.
(** recognises success (vocabulary of the specifications; no counterpart in /repo/src/*.rs) *)
Definition is_ok {A} (x : res A) : bool :=
  match x with Ok _ => true | _ => false end.

(** Bytes and byte strings. ([u8] throughout /repo/src/*.rs) *)
Definition is_byte (b : N) : Prop := b < 256.
(** [&[u8]] throughout /repo/src/*.rs *)
Definition bytes_ok (l : list N) : Prop := Forall is_byte l.

(** Decidable version used in computed examples. (no counterpart in /repo/src/*.rs) *)
Definition bytes_okb (l : list N) : bool := forallb (fun b => b <? 256) l.

(** ** Machine integers. [oc] = overflow checks on (debug build). *)

(** [x as uW]: truncation. (e.g. /repo/src/util.rs:71) *)
Definition cast (w : N) (x : N) : N := x mod 2 ^ w.

(** [a + b] in [uW]. (e.g. /repo/src/afi/ipv4.rs:132) *)
Definition uadd (oc : bool) (w a b : N) : res N :=
  if a + b <? 2 ^ w then Ok (a + b)
  else if oc then Panic else Ok ((a + b) mod 2 ^ w).

(** [a - b] in [uW] (for [a, b < 2^w]). (e.g. /repo/src/lib.rs:847-863) *)
Definition usub (oc : bool) (w a b : N) : res N :=
  if b <=? a then Ok (a - b)
  else if oc then Panic else Ok ((a + 2 ^ w - b) mod 2 ^ w).

(** [a << n] in [uW], [w] a power of two: the shift amount must be below [w];
    without checks it is masked. Bits shifted out are lost in both modes. (e.g. /repo/src/afi/ipv4.rs:50) *)
Definition ushl (oc : bool) (w a n : N) : res N :=
  if n <? w then Ok (N.shiftl a n mod 2 ^ w)
  else if oc then Panic else Ok (N.shiftl a (n mod w) mod 2 ^ w).

(** ** Reading slices. *)

(** [buf[i]] (e.g. /repo/src/util.rs:18) *)
Definition idx {A} (buf : list A) (i : nat) : res A :=
  match nth_error buf i with Some b => Ok b | None => Panic end.

(** the octets [a..b], in range (used by the next definitions; /repo/src/util.rs:110-116) *)
Definition sub {A} (buf : list A) (a b : nat) : list A := firstn (b - a) (skipn a buf).

(** [&buf[a..b]] (e.g. /repo/src/lib.rs:618) *)
Definition rslice {A} (buf : list A) (a b : nat) : res (list A) :=
  if (Nat.leb a b && Nat.leb b (length buf))%bool then Ok (sub buf a b) else Panic.

(** [&buf[a..]] (e.g. /repo/src/afi/mod.rs:205) *)
Definition rfrom {A} (buf : list A) (a : nat) : res (list A) :=
  if Nat.leb a (length buf) then Ok (skipn a buf) else Panic.

(** [slice(buf, a, b)] : /repo/src/util.rs:110-116 *)
Definition eslice {A} (buf : list A) (a b : nat) : res (list A) :=
  if (Nat.leb a b && Nat.leb b (length buf))%bool then Ok (sub buf a b) else Err EInsufficient.

(** ** Encoders: code that mutates a buffer [&mut [u8]]. (e.g. /repo/src/util.rs:21) *)
Definition Enc (A : Type) := list N -> res (A * list N).

(** [Ok(a)] at the end of an encoder, e.g. /repo/src/util.rs:26 *)
Definition eret {A} (a : A) : Enc A := fun buf => Ok (a, buf).
(** [return Err(e)] in an encoder, e.g. /repo/src/util.rs:23 *)
Definition eerr {A} (e : err) : Enc A := fun _ => Err e.
(** a panic in an encoder, e.g. [unimplemented!()] /repo/src/message/attributes/pmsitunnelattr.rs:214-216 *)
Definition epanic {A} : Enc A := fun _ => Panic.
(** sequencing with [?] in an encoder, e.g. /repo/src/afi/mod.rs:211-219 *)
Definition ebind {A B} (m : Enc A) (f : A -> Enc B) : Enc B :=
  fun buf => match m buf with
             | Ok (a, buf') => f a buf'
             | Err e => Err e
             | Panic => Panic
             | OutOfFuel => OutOfFuel
             end.
(** a computation in an encoder that does not touch the buffer, e.g. /repo/src/lib.rs:393-518 *)
Definition elift {A} (r : res A) : Enc A :=
  fun buf => match r with
             | Ok a => Ok (a, buf)
             | Err e => Err e
             | Panic => Panic
             | OutOfFuel => OutOfFuel
             end.
(** [buf.len()] (e.g. /repo/src/util.rs:22) *)
Definition elen : Enc nat := fun buf => Ok (length buf, buf).

Notation "x <~ e ;; f" := (ebind e (fun x => f))
  (at level 61, e at next level, right associativity).
Notation "' p <~ e ;; f" := (ebind e (fun p => f))
  (at level 61, p pattern, e at next level, right associativity).
Notation "e ;;; f" := (ebind e (fun _ => f)) (at level 61, right associativity).

(** Replace the bytes at positions [p .. p + length bs]. (used by the next definitions; /repo/src/util.rs:25) *)
Definition splice (p : nat) (bs buf : list N) : list N :=
  firstn p buf ++ bs ++ skipn (p + length bs) buf.

(** [buf[i] = b] (e.g. /repo/src/util.rs:71-72) *)
Definition set_idx (i : nat) (b : N) : Enc unit :=
  fun buf => if Nat.ltb i (length buf) then Ok (tt, splice i [b] buf) else Panic.

(** [buf[a..a+bs.len()].clone_from_slice(bs)] (e.g. /repo/src/util.rs:25) *)
Definition write_at (a : nat) (bs : list N) : Enc unit :=
  fun buf => if Nat.leb (a + length bs) (length buf) then Ok (tt, splice a bs buf) else Panic.

(** [buf[i] = f(buf[i])] (compound assignment) (e.g. /repo/src/afi/mod.rs:486-491) *)
Definition upd_idx (i : nat) (f : N -> N) : Enc unit :=
  fun buf => match nth_error buf i with Some b => Ok (tt, splice i [f b] buf) | None => Panic end.

(** run [e] on [&mut buf[a..]] (e.g. /repo/src/afi/mod.rs:213-217) *)
Definition on_from {A} (a : nat) (e : Enc A) : Enc A :=
  fun buf => if Nat.leb a (length buf) then
               match e (skipn a buf) with
               | Ok (x, b') => Ok (x, firstn a buf ++ b')
               | Err e => Err e
               | Panic => Panic
               | OutOfFuel => OutOfFuel
               end
             else Panic.

(** run [e] on [&mut buf[a..b]] (e.g. /repo/src/bmp/bmputl.rs:184-195) *)
Definition on_slice {A} (a b : nat) (e : Enc A) : Enc A :=
  fun buf => if (Nat.leb a b && Nat.leb b (length buf))%bool then
               match e (sub buf a b) with
               | Ok (x, b') => Ok (x, firstn a buf ++ b' ++ skipn b buf)
               | Err e => Err e
               | Panic => Panic
               | OutOfFuel => OutOfFuel
               end
             else Panic.

(** run [e] on [slice_mut(buf, a, b)?] : /repo/src/util.rs:118-124 *)
Definition on_eslice {A} (a b : nat) (e : Enc A) : Enc A :=
  fun buf => if (Nat.leb a b && Nat.leb b (length buf))%bool then
               match e (sub buf a b) with
               | Ok (x, b') => Ok (x, firstn a buf ++ b' ++ skipn b buf)
               | Err e => Err e
               | Panic => Panic
               | OutOfFuel => OutOfFuel
               end
             else Err EInsufficient.

(** ** Big-endian digits. Octets of std's [Ipv4Addr]/[Ipv6Addr] (represented
    here by their numeric value) and the vocabulary of the specifications. (/repo/src/util.rs:25, 49) *)
Fixpoint be_bytes (k : nat) (n : N) : list N :=
  match k with
  | O => []
  | S k' => (n / 2 ^ (8 * N.of_nat k')) mod 256 :: be_bytes k' n
  end.

(** the value of big-endian digits (vocabulary of the specifications, and [Ipv4Addr::new], /repo/src/util.rs:18) *)
Definition be_val (l : list N) : N := fold_left (fun acc b => acc * 256 + b) l 0.
Arguments be_val : simpl never.

(** Exact behaviour of an encoder that succeeds: on every buffer that can hold
    them at offset [p], it writes the bytes [bs] there, changes nothing else,
    and returns [a]. (no counterpart in /repo/src/*.rs) *)
Definition writes_at {A} (p : nat) (e : Enc A) (bs : list N) (a : A) : Prop :=
  forall buf, (p + length bs <= length buf)%nat -> e buf = Ok (a, splice p bs buf).
(** the same at the start of the buffer; no counterpart in /repo/src/*.rs *)
Definition writes {A} (e : Enc A) (bs : list N) (a : A) : Prop := writes_at 0 e bs a.
