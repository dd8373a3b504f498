(** Specification of serialization: which values a type has, what a faithful format hands back, and where flow specifications occur. *)
From Coq Require Import Permutation.
From Verif Require Import Base S_Attr S_Text M_Util M_Prefix M_Text M_Serde.

(** the values of a Rust type: integers in range, arrays of their length, sets in strictly ascending order *)
Definition num_below (b : N) (v : gval) : Prop := exists n, v = GNum n /\ n < b.
Definition ip_any (a : ipaddr) : Prop := match a with IPv4 x => x < 2 ^ 32 | IPv6 x => x < 2 ^ 128 end.

Fixpoint typed (t : ty) (v : gval) {struct t} : Prop :=
  match t, v with
  | TBool, GBool _ => True
  | TUint w, GNum n => n < 2 ^ w
  | TIp4, GIp4 a => a < 2 ^ 32
  | TIp6, GIp6 a => a < 2 ^ 128
  | TIp, GIp a => ip_any a
  | TArr n, GList l => length l = n /\ Forall (num_below 256) l
  | TVec t, GList l => Forall (typed t) l
  | TSet t, GList l => Forall (typed t) l /\ ascending gcmp l
  | TOpt _, GNone => True
  | TOpt t, GSome v => typed t v
  | TStruct fs, GList l =>
      (fix go (fs : list (text * ty)) (l : list gval) {struct fs} : Prop :=
         match fs, l with
         | [], [] => True
         | (_, t) :: fs', v :: l' => typed t v /\ go fs' l'
         | _, _ => False
         end) fs l
  | TEnum vs, GVariant i p =>
      (fix go (vs : list (text * option ty)) (k : nat) {struct vs} : Prop :=
         match vs, k with
         | (_, Some t) :: _, O => match p with Some v => typed t v | None => False end
         | (_, None) :: _, O => p = None
         | _ :: vs', S k' => go vs' k'
         | [], _ => False
         end) vs i
  | TRd t, GPair a b => (exists h l, a = GList [GNum h; GNum l] /\ h < 2 ^ 32 /\ l < 2 ^ 32) /\ typed t b
  | TLab t, GPair a b => (exists l, a = GList l /\ Forall (num_below (2 ^ 32)) l) /\ typed t b
  | TPid t, GPair a b => num_below (2 ^ 32) a /\ typed t b
  | TFlow ps, GVariant i (Some v) =>
      (fix go (ps : list ty) (k : nat) {struct ps} : Prop :=
         match ps, k with
         | t :: _, O => typed t v
         | _ :: ps', S k' => go ps' k'
         | [], _ => False
         end) ps i
  | TNet, GNet n => net_any n
  | _, _ => False
  end.

(** whether a flow specification occurs in a value *)
Fixpoint flow_in (t : ty) (v : gval) {struct t} : bool :=
  match t, v with
  | TVec t, GList l => existsb (flow_in t) l
  | TSet t, GList l => existsb (flow_in t) l
  | TOpt t, GSome v => flow_in t v
  | TStruct fs, GList l =>
      (fix go (fs : list (text * ty)) (l : list gval) {struct fs} : bool :=
         match fs, l with
         | (_, t) :: fs', v :: l' => flow_in t v || go fs' l'
         | _, _ => false
         end) fs l
  | TEnum vs, GVariant i (Some v) =>
      (fix go (vs : list (text * option ty)) (k : nat) {struct vs} : bool :=
         match vs, k with
         | (_, Some t) :: _, O => flow_in t v
         | _ :: vs', S k' => go vs' k'
         | _, _ => false
         end) vs i
  | TRd t, GPair _ b => flow_in t b
  | TLab t, GPair _ b => flow_in t b
  | TPid t, GPair _ b => flow_in t b
  | TFlow _, _ => true
  | _, _ => false
  end.

(** whether a [WithRd], [Labeled] or [WithPathId] occurs in a value, other than inside a flow specification *)
Fixpoint wrapped_in (t : ty) (v : gval) {struct t} : bool :=
  match t, v with
  | TVec t, GList l => existsb (wrapped_in t) l
  | TSet t, GList l => existsb (wrapped_in t) l
  | TOpt t, GSome v => wrapped_in t v
  | TStruct fs, GList l =>
      (fix go (fs : list (text * ty)) (l : list gval) {struct fs} : bool :=
         match fs, l with
         | (_, t) :: fs', v :: l' => wrapped_in t v || go fs' l'
         | _, _ => false
         end) fs l
  | TEnum vs, GVariant i (Some v) =>
      (fix go (vs : list (text * option ty)) (k : nat) {struct vs} : bool :=
         match vs, k with
         | (_, Some t) :: _, O => wrapped_in t v
         | _ :: vs', S k' => go vs' k'
         | _, _ => false
         end) vs i
  | TRd _, _ | TLab _, _ | TPid _, _ => true
  | _, _ => false
  end.

(** A faithful format: it hands back what it was given. A struct may come back as a sequence or as a map, with the fields in
    any order; fields are identified by name or, if [ix], by number; variants by name or by number. *)
Inductive field_keys (ix : bool) (names : list text) : list key -> Prop :=
| by_name : field_keys ix names (map KName names)
| by_number : ix = true -> field_keys ix names (map KIndex (seq 0 (length names))).

Inductive presents (ix : bool) : sval -> doc -> Prop :=
| PrBool b : presents ix (VBool b) (DBool b)
| PrNum n : presents ix (VNum n) (DNum n)
| PrStr s : presents ix (VStr s) (DStr s)
| PrNone : presents ix VNone DNone
| PrSome v d : presents ix v d -> presents ix (VSome v) (DSome d)
| PrSeq l ds : Forall2 (presents ix) l ds -> presents ix (VSeq l) (DSeq ds)
| PrTuple l ds : Forall2 (presents ix) l ds -> presents ix (VTuple l) (DSeq ds)
| PrStructSeq fs ds : Forall2 (presents ix) (map snd fs) ds -> presents ix (VStruct fs) (DSeq ds)
| PrStructMap fs ks ds es : field_keys ix (map fst fs) ks -> Forall2 (presents ix) (map snd fs) ds ->
    Permutation es (combine ks ds) -> presents ix (VStruct fs) (DMap es)
| PrUnit i nm k : k = KName nm \/ k = KIndex i -> presents ix (VVariant i nm None) (DEnum k None)
| PrNewtype i nm k v d : k = KName nm \/ k = KIndex i -> presents ix v d -> presents ix (VVariant i nm (Some v)) (DEnum k (Some d)).

(** field names and variant names are distinct, a flow specification has its thirteen variants, sets are of integers or of structs of
    integers; true of every type of /repo *)
Fixpoint sound_ty (t : ty) : Prop :=
  match t with
  | TVec t | TOpt t | TRd t | TLab t | TPid t => sound_ty t
  | TSet t => (exists w, t = TUint w) \/ (exists fs, t = TStruct fs /\ NoDup (map fst fs) /\ Forall (fun f => exists w, snd f = TUint w) fs)
  | TStruct fs => NoDup (map fst fs) /\ (fix go fs := match fs with [] => True | (_, t) :: fs' => sound_ty t /\ go fs' end) fs
  | TEnum vs => NoDup (map fst vs) /\
      (fix go vs := match vs with [] => True | (_, Some t) :: vs' => sound_ty t /\ go vs' | (_, None) :: vs' => go vs' end) vs
  | TFlow ps => length ps = 13%nat /\ (fix go ps := match ps with [] => True | t :: ps' => sound_ty t /\ go ps' end) ps
  | _ => True
  end.
