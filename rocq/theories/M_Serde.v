(** Model of serialization with serde (feature [serialization], on by default): the hand-written implementations in
    /repo/src/afi/mod.rs:124-157 and 1087-1393, /repo/src/afi/flowspec.rs:277-297 and 595-753, and the derived ones of every type
    reachable from [BgpAttrItem].

    A format (JSON, bincode, ...) is not part of /repo. What a [Serialize] implementation tells the serializer is an [sval];
    what a format answers to a [Deserialize] implementation is a [doc]. The code that serde_derive generates and the
    implementations that serde has for the standard library's types are not part of /repo either; they are modelled after serde 1.0
    ([derive] without attributes, [#[serde(transparent)]], [Vec], [BTreeSet], [Option], [[u8; n]], [Ipv4Addr], [Ipv6Addr], [IpAddr]).
    Simplification: a format refuses a sequence or map that is longer than what was read of it. *)
From Coq Require Import Ascii String.
From Verif Require Import Base M_Util M_Prefix M_Nlri M_Vpls M_Mvpn M_Evpn M_Flowspec M_Addrs M_Attr M_Text M_Text2.

(** ** serde's data model *)

(** what is passed to a [Serializer] (afi/mod.rs:124-131, 1089-1099, flowspec.rs:605-652) *)
Inductive sval :=
| VBool (b : bool)
| VNum (n : N)
| VStr (s : text)
| VNone
| VSome (v : sval)
| VSeq (l : list sval)
| VTuple (l : list sval)
| VStruct (fs : list (text * sval))
| VVariant (i : nat) (nm : text) (p : option sval).

(** a field or variant identifier, as the format gives it (afi/mod.rs:1105-1126, flowspec.rs:668-707) *)
Inductive key := KName (s : text) | KIndex (i : nat).

(** what a [Deserializer] answers: which [visit_*] it calls, and with what (afi/mod.rs:1130-1174, flowspec.rs:711-739) *)
Inductive doc :=
| DBool (b : bool)
| DNum (n : N)
| DStr (s : text)
| DNone
| DSome (d : doc)
| DSeq (l : list doc)
| DMap (l : list (key * doc))
| DEnum (k : key) (p : option doc).

(** [serde::de::Error]: [missing_field], [unknown_field], [duplicate_field], [invalid_length], [invalid_type] (also [invalid_value] and
    [unknown_variant]), [custom] (afi/mod.rs:146, 1119, 1143-1147, 1161-1171) *)
Inductive serr :=
| MissingField (s : text)
| UnknownField (s : text)
| DuplicateField (s : text)
| InvalidLength (n : nat)
| InvalidType
| Custom.

(** [Result<_, D::Error>] (afi/mod.rs:150-152); [SFuel]: see [TFuel] *)
Inductive sres (A : Type) := SOk (a : A) | SErr (e : serr) | SFuel.
Arguments SOk {A}. Arguments SErr {A}. Arguments SFuel {A}.
(** [?] (afi/mod.rs:1142-1147) *)
Definition sbind {A B} (x : sres A) (f : A -> sres B) : sres B :=
  match x with SOk a => f a | SErr e => SErr e | SFuel => SFuel end.

(** ** Types and values *)

(** The types, as far as serialization distinguishes them. A struct marked [#[serde(transparent)]] (mac.rs:19, afi/mod.rs:400, evpn.rs:21,
    flowspec.rs:84, extcommunity.rs:173, origin.rs:38, ...) is its only field; [FSOperVec] is its vector (flowspec.rs:277-297). *)
Inductive ty :=
| TBool
| TUint (w : N)
| TIp4
| TIp6
| TIp
| TArr (n : nat)                           (* [u8; n] *)
| TVec (t : ty)
| TSet (t : ty)                            (* BTreeSet *)
| TOpt (t : ty)
| TStruct (fs : list (text * ty))          (* derived *)
| TEnum (vs : list (text * option ty))     (* derived *)
| TRd (t : ty)                             (* WithRd<t>, afi/mod.rs:1089-1188 *)
| TLab (t : ty)                            (* Labeled<t>, afi/mod.rs:1189-1288 *)
| TPid (t : ty)                            (* WithPathId<t>, afi/mod.rs:1289-1393 *)
| TFlow (ps : list ty)                     (* BgpFlowSpec, with the types of its variants, flowspec.rs:605-753 *)
| TNet                                     (* BgpNet, afi/mod.rs:124-157 *)
| TFuel.                                   (* attribute sets nested deeper than the model looks *)

(** values: a struct is the list of its fields in declaration order, [WithRd] the pair of [rd] and [prefix] (afi/mod.rs:1094-1096),
    [Labeled] of [labels] and [prefix] (1194-1196), [WithPathId] of [pathid] and [nlri] (1296-1298) *)
Inductive gval :=
| GBool (b : bool)
| GNum (n : N)
| GIp4 (a : N)
| GIp6 (a : N)
| GIp (a : ipaddr)
| GList (l : list gval)
| GPair (a b : gval)
| GNone
| GSome (v : gval)
| GVariant (i : nat) (p : option gval)
| GNet (n : bgpnet).

(** derived [Ord] of the elements of the sets (community.rs:26, 43, extcommunity.rs:16) *)
Fixpoint gcmp (a b : gval) {struct a} : comparison :=
  match a, b with
  | GNum x, GNum y => x ?= y
  | GList l, GList m =>
      (fix go (l m : list gval) {struct l} : comparison :=
         match l, m with
         | [], [] => Eq
         | [], _ => Lt
         | _, [] => Gt
         | x :: l', y :: m' => cmp_then (gcmp x y) (go l' m')
         end) l m
  | _, _ => Eq
  end.

(** ** Serialization *)

(** flowspec.rs:590-604 *)
Definition BFS_VARS : list text :=
  map txt ["PrefixDst"; "PrefixSrc"; "Proto"; "PortAny"; "PortDst"; "PortSrc"; "IcmpType"; "IcmpCode"; "TcpFlags"; "PacketLength"; "DSCP";
           "Fragment"; "FlowLabel"]%string.
(** afi/mod.rs:1104 *)
Definition WITHRD_FIELDS : text * text := (txt "rd", txt "prefix").
(** afi/mod.rs:1204 *)
Definition LABELED_FIELDS : text * text := (txt "labels", txt "prefix").
(** afi/mod.rs:1306 *)
Definition WITHPATHID_FIELDS : text * text := (txt "pathid", txt "nlri").
(** afi/mod.rs:302-308, derived *)
Definition T_RD : ty := TStruct [(txt "rdh", TUint 32); (txt "rdl", TUint 32)].
(** afi/mod.rs:399-403, derived, transparent *)
Definition T_Labels : ty := TVec (TUint 32).

(** a tuple of octets, as [[u8; n]] is serialized (mac.rs:18-22, evpn.rs:20-24) *)
Definition ser_octets (l : list N) : sval := VTuple (map VNum l).
(** serde's [Ipv4Addr] (ipv4.rs:20-26): text in a human-readable format ([hr]), octets otherwise *)
Definition ser_ip4 (hr : bool) (a : N) : sval := if hr then VStr (fmt_ipv4 a) else ser_octets (octets4 a).
(** serde's [Ipv6Addr] (ipv6.rs:19-25), likewise *)
Definition ser_ip6 (hr : bool) (a : N) : sval := if hr then VStr (fmt_ipv6 a) else ser_octets (octets16 a).
(** serde's [IpAddr] (nexthop.rs:18-23) *)
Definition ser_ip (hr : bool) (a : ipaddr) : sval :=
  if hr then VStr (ip_fmt a)
  else match a with
       | IPv4 x => VVariant 0 (txt "V4") (Some (ser_ip4 hr x))
       | IPv6 x => VVariant 1 (txt "V6") (Some (ser_ip6 hr x))
       end.
(** the value of a [GNum]: the field itself (e.g. afi/mod.rs:304) *)
Definition gnum (v : gval) : N := match v with GNum n => n | _ => 0 end.
(** the fields of [BgpRD] (afi/mod.rs:302-308) as values *)
Definition ser_rd (v : gval) : sval :=
  match v with
  | GList [a; b] => VStruct [(txt "rdh", VNum (gnum a)); (txt "rdl", VNum (gnum b))]
  | _ => VNone
  end.
(** [Vec<u32>] (afi/mod.rs:399-403) as a value *)
Definition ser_labels (v : gval) : sval :=
  match v with GList l => VSeq (map (fun x => VNum (gnum x)) l) | _ => VNone end.

(** [Serialize]: derived, or afi/mod.rs:125-130, 1090-1098, 1190-1198, 1292-1300, flowspec.rs:278-285, 606-651. [hr] is
    [serializer.is_human_readable()]. (Values that do not belong to the type are given as [VNone].) *)
Fixpoint ser (hr : bool) (t : ty) (v : gval) {struct t} : sval :=
  match t, v with
  | TBool, GBool b => VBool b
  | TUint _, GNum n => VNum n
  | TIp4, GIp4 a => ser_ip4 hr a
  | TIp6, GIp6 a => ser_ip6 hr a
  | TIp, GIp a => ser_ip hr a
  | TArr _, GList l => VTuple (map (fun x => VNum (gnum x)) l)
  | TVec t, GList l => VSeq (map (ser hr t) l)
  | TSet t, GList l => VSeq (map (ser hr t) l)
  | TOpt _, GNone => VNone
  | TOpt t, GSome v => VSome (ser hr t v)
  | TStruct fs, GList l =>
      VStruct ((fix go (fs : list (text * ty)) (l : list gval) {struct fs} : list (text * sval) :=
                  match fs, l with
                  | (nm, t) :: fs', v :: l' => (nm, ser hr t v) :: go fs' l'
                  | _, _ => []
                  end) fs l)
  | TEnum vs, GVariant i p =>
      (fix go (vs : list (text * option ty)) (k : nat) {struct vs} : sval :=
         match vs, k with
         | (nm, Some t) :: _, O => match p with Some v => VVariant i nm (Some (ser hr t v)) | None => VNone end
         | (nm, None) :: _, O => VVariant i nm None
         | _ :: vs', S k' => go vs' k'
         | [], _ => VNone
         end) vs i
  | TRd t, GPair a b => VStruct [(fst WITHRD_FIELDS, ser_rd a); (snd WITHRD_FIELDS, ser hr t b)]
  | TLab t, GPair a b => VStruct [(fst LABELED_FIELDS, ser_labels a); (snd LABELED_FIELDS, ser hr t b)]
  | TPid t, GPair a b => VStruct [(fst WITHPATHID_FIELDS, VNum (gnum a)); (snd WITHPATHID_FIELDS, ser hr t b)]
  | TFlow ps, GVariant i (Some v) =>
      (fix go (ps : list ty) (k : nat) {struct ps} : sval :=
         match ps, k with
         | t :: _, O => VVariant i (nth i BFS_VARS []) (Some (ser hr t v))
         | _ :: ps', S k' => go ps' k'
         | [], _ => VNone
         end) ps i
  | TNet, GNet n => VStr (net_fmt n)
  | _, _ => VNone
  end.

(** ** Deserialization *)

(** the [match] on the names of the fields in derived code (e.g. ipv4.rs:20, [derive(Deserialize)]) *)
Fixpoint index_of (s : text) (names : list text) : option nat :=
  match names with
  | [] => None
  | n :: names' => if text_eqb s n then Some O else option_map S (index_of s names')
  end.
(** the identifier of a field, in derived code: an unknown one is ignored (e.g. ipv4.rs:20, [derive(Deserialize)]) *)
Definition field_key (names : list text) (k : key) : option nat :=
  match k with
  | KName s => index_of s names
  | KIndex i => if Nat.ltb i (length names) then Some i else None
  end.
(** the identifier of a variant, in derived code: an unknown one is an error (e.g. afi/mod.rs:52, [derive(Deserialize)]) *)
Definition variant_key (names : list text) (k : key) : sres nat :=
  match field_key names k with Some i => SOk i | None => SErr InvalidType end.

(** one field in derived code: its name, how it is read, and the value when it is missing, if any ([Option]; evpn.rs:117) *)
Definition fld : Type := text * (doc -> sres gval) * option gval.
(** its name (e.g. ipv4.rs:22) *)
Definition fld_name (f : fld) : text := fst (fst f).
(** how it is read (e.g. ipv4.rs:22) *)
Definition fld_de (f : fld) : doc -> sres gval := snd (fst f).

(** the fields read so far, in declaration order; setting one (derived [visit_map], e.g. ipv4.rs:20) *)
Fixpoint put (l : list (option gval)) (i : nat) (v : gval) : list (option gval) :=
  match l, i with
  | [], _ => []
  | _ :: l', O => Some v :: l'
  | x :: l', S i' => x :: put l' i' v
  end.
(** the loop of a derived [visit_map] (e.g. ipv4.rs:20) *)
Fixpoint map_loop (fs : list fld) (acc : list (option gval)) (es : list (key * doc)) {struct es} : sres (list (option gval)) :=
  match es with
  | [] => SOk acc
  | (k, d) :: es' =>
      match field_key (map fld_name fs) k with
      | None => map_loop fs acc es'
      | Some i =>
          match nth_error fs i with
          | None => SErr InvalidType
          | Some f =>
              match nth i acc None with
              | Some _ => SErr (DuplicateField (fld_name f))
              | None => sbind (fld_de f d) (fun v => map_loop fs (put acc i v) es')
              end
          end
      end
  end.
(** after that loop: missing fields (e.g. ipv4.rs:20) *)
Fixpoint finish (fs : list fld) (acc : list (option gval)) : sres (list gval) :=
  match fs, acc with
  | [], _ => SOk []
  | f :: fs', a :: acc' =>
      sbind (match a with
             | Some v => SOk v
             | None => match snd f with Some v => SOk v | None => SErr (MissingField (fld_name f)) end
             end) (fun v => sbind (finish fs' acc') (fun l => SOk (v :: l)))
  | f :: _, [] => SErr (MissingField (fld_name f))
  end.
(** a derived [visit_seq] (e.g. ipv4.rs:20) *)
Fixpoint seq_loop (i : nat) (fs : list (doc -> sres gval)) (ds : list doc) : sres (list gval) :=
  match fs, ds with
  | [], [] => SOk []
  | [], _ :: _ => SErr (InvalidLength i)
  | _ :: _, [] => SErr (InvalidLength i)
  | f :: fs', d :: ds' => sbind (f d) (fun v => sbind (seq_loop (S i) fs' ds') (fun l => SOk (v :: l)))
  end.
(** derived [Deserialize] of a struct (e.g. ipv4.rs:20) *)
Definition de_struct (fs : list fld) (d : doc) : sres gval :=
  match d with
  | DSeq ds => sbind (seq_loop 0 (map fld_de fs) ds) (fun l => SOk (GList l))
  | DMap es => sbind (map_loop fs (map (fun _ => None) fs) es) (fun acc => sbind (finish fs acc) (fun l => SOk (GList l)))
  | _ => SErr InvalidType
  end.
(** derived [Deserialize] of an enum (e.g. afi/mod.rs:52) *)
Definition de_enum (vs : list (text * option (doc -> sres gval))) (d : doc) : sres gval :=
  match d with
  | DEnum k p =>
      sbind (variant_key (map fst vs) k) (fun i =>
        match nth_error vs i with
        | Some (_, None) => match p with None => SOk (GVariant i None) | Some _ => SErr InvalidType end
        | Some (_, Some f) => match p with Some d' => sbind (f d') (fun v => SOk (GVariant i (Some v))) | None => SErr InvalidType end
        | None => SErr InvalidType
        end)
  | _ => SErr InvalidType
  end.

(** the [FieldVisitor]s: only [visit_str] is defined, other keys are refused. false: the first field. afi/mod.rs:1105-1126, 1205-1226, 1307-1328 *)
Definition pair_key (names : text * text) (k : key) : sres bool :=
  match k with
  | KName s => if text_eqb s (fst names) then SOk false else if text_eqb s (snd names) then SOk true else SErr (UnknownField s)
  | KIndex _ => SErr InvalidType
  end.
(** the loops of afi/mod.rs:1156-1170, 1256-1270, 1360-1374 *)
Fixpoint pair_loop (names : text * text) (fa fb : doc -> sres gval) (a b : option gval) (es : list (key * doc)) {struct es} :
  sres (option gval * option gval) :=
  match es with
  | [] => SOk (a, b)
  | (k, d) :: es' =>
      sbind (pair_key names k) (fun second =>
        if second then
          match b with
          | Some _ => SErr (DuplicateField (snd names))
          | None => sbind (fb d) (fun v => pair_loop names fa fb a (Some v) es')
          end
        else
          match a with
          | Some _ => SErr (DuplicateField (fst names))
          | None => sbind (fa d) (fun v => pair_loop names fa fb (Some v) b es')
          end)
  end.
(** [ok_or_else(|| missing_field(..))] (afi/mod.rs:1171-1172, 1271-1272, 1375-1376) *)
Definition need (nm : text) (x : option gval) : sres gval := match x with Some v => SOk v | None => SErr (MissingField nm) end.
(** the three visitors (afi/mod.rs:1130-1174, 1230-1274, 1332-1378); [miss] are the names in [missing_field] *)
Definition de_pair (names miss : text * text) (fa fb : doc -> sres gval) (d : doc) : sres gval :=
  match d with
  | DSeq ds =>
      match ds with
      | [] => SErr (InvalidLength 0)
      | x :: ds' =>
          sbind (fa x) (fun a =>
            match ds' with
            | [] => SErr (InvalidLength 1)
            | y :: rest => sbind (fb y) (fun b => match rest with [] => SOk (GPair a b) | _ => SErr (InvalidLength 2) end)
            end)
      end
  | DMap es =>
      sbind (pair_loop names fa fb None None es) (fun ab =>
        sbind (need (fst miss) (fst ab)) (fun a => sbind (need (snd miss) (snd ab)) (fun b => SOk (GPair a b))))
  | _ => SErr InvalidType
  end.

(** flowspec.rs:668-707 *)
Definition flow_key (k : key) : sres nat :=
  match k with
  | KName s => match index_of s BFS_VARS with Some i => SOk i | None => SErr (UnknownField s) end
  | KIndex _ => SErr InvalidType
  end.
(** flowspec.rs:711-752: the visitor defines [visit_map] only, so that [visit_enum] is the default one, which refuses *)
Definition de_flow (ps : list (doc -> sres gval)) (d : doc) : sres gval :=
  match d with
  | DMap [] => SErr (MissingField (nth 0 BFS_VARS []))
  | DMap ((k, d') :: rest) =>
      sbind (flow_key k) (fun i =>
        match nth_error ps i with
        | Some f => sbind (f d') (fun v => match rest with [] => SOk (GVariant i (Some v)) | _ => SErr (InvalidLength 1) end)
        | None => SErr InvalidType
        end)
  | _ => SErr InvalidType
  end.

(** integers are checked against the range of the type ([derive], fields of type u8, u16, u32; e.g. vpls.rs:21-23) *)
Definition de_uint (w : N) (d : doc) : sres gval :=
  match d with DNum n => if n <? 2 ^ w then SOk (GNum n) else SErr InvalidType | _ => SErr InvalidType end.
(** the elements of a [Vec] (e.g. afi/mod.rs:402) *)
Fixpoint de_list (f : doc -> sres gval) (ds : list doc) : sres (list gval) :=
  match ds with
  | [] => SOk []
  | d :: ds' => sbind (f d) (fun v => sbind (de_list f ds') (fun l => SOk (v :: l)))
  end.
(** [Vec] (e.g. afi/mod.rs:399-403), or a [BTreeSet] through [g] (e.g. extcommunity.rs:173) *)
Definition de_seq {A} (g : list gval -> A) (f : doc -> sres gval) (d : doc) : sres A :=
  match d with DSeq ds => sbind (de_list f ds) (fun l => SOk (g l)) | _ => SErr InvalidType end.
(** [[u8; n]] (mac.rs:18-22, evpn.rs:20-24) *)
Definition de_octets (n : nat) (d : doc) : sres (list gval) :=
  match d with DSeq ds => seq_loop 0 (repeat (de_uint 8) n) ds | _ => SErr InvalidType end.
(** octets to an address (serde's [Ipv4Addr], [Ipv6Addr]; ipv4.rs:20-26, ipv6.rs:19-25) *)
Definition octets_val (l : list gval) : N := be_val (map gnum l).
(** serde's [Ipv4Addr] (ipv4.rs:20-26) *)
Definition de_ip4 (hr : bool) (d : doc) : sres N :=
  if hr then match d with DStr s => match parse_ipv4 s with Ok a => SOk a | _ => SErr Custom end | _ => SErr InvalidType end
  else sbind (de_octets 4 d) (fun l => SOk (octets_val l)).
(** serde's [Ipv6Addr] (ipv6.rs:19-25) *)
Definition de_ip6 (hr : bool) (d : doc) : sres N :=
  if hr then match d with DStr s => match parse_ipv6 s with Ok a => SOk a | _ => SErr Custom end | _ => SErr InvalidType end
  else sbind (de_octets 16 d) (fun l => SOk (octets_val l)).
(** serde's [IpAddr] (nexthop.rs:18-23); the library parses an IPv4 address first *)
Definition de_ip (hr : bool) (d : doc) : sres gval :=
  if hr then
    match d with
    | DStr s =>
        match parse_ipv4 s with
        | Ok a => SOk (GIp (IPv4 a))
        | _ => match parse_ipv6 s with Ok a => SOk (GIp (IPv6 a)) | _ => SErr Custom end
        end
    | _ => SErr InvalidType
    end
  else
    match d with
    | DEnum k (Some d') =>
        sbind (variant_key [txt "V4"; txt "V6"] k) (fun i =>
          match i with
          | O => sbind (de_ip4 hr d') (fun a => SOk (GIp (IPv4 a)))
          | _ => sbind (de_ip6 hr d') (fun a => SOk (GIp (IPv6 a)))
          end)
    | _ => SErr InvalidType
    end.
(** afi/mod.rs:132-157 *)
Definition de_net (d : doc) : sres gval :=
  match d with
  | DStr s => match net_parse s with Ok n => SOk (GNet n) | _ => SErr Custom end
  | _ => SErr InvalidType
  end.
(** afi/mod.rs:302-308, derived *)
Definition de_rd (d : doc) : sres gval :=
  de_struct [(txt "rdh", de_uint 32, None); (txt "rdl", de_uint 32, None)] d.

(** what a missing field of that type is ([Option] only; evpn.rs:117) *)
Definition dflt (t : ty) : option gval := match t with TOpt _ => Some GNone | _ => None end.

(** [Deserialize]: derived, or afi/mod.rs:149-157, 1175-1188, 1275-1288, 1379-1393, flowspec.rs:287-297, 740-752 *)
Fixpoint de (hr : bool) (t : ty) (d : doc) {struct t} : sres gval :=
  match t with
  | TBool => match d with DBool b => SOk (GBool b) | _ => SErr InvalidType end
  | TUint w => de_uint w d
  | TIp4 => sbind (de_ip4 hr d) (fun a => SOk (GIp4 a))
  | TIp6 => sbind (de_ip6 hr d) (fun a => SOk (GIp6 a))
  | TIp => de_ip hr d
  | TArr n => sbind (de_octets n d) (fun l => SOk (GList l))
  | TVec t => de_seq GList (de hr t) d
  | TSet t => de_seq (fun l => GList (bset_of gcmp l)) (de hr t) d
  | TOpt t => match d with DNone => SOk GNone | DSome d' => sbind (de hr t d') (fun v => SOk (GSome v)) | _ => SErr InvalidType end
  | TStruct fs => de_struct (map (fun f => match f with (nm, t) => (nm, de hr t, dflt t) end) fs) d
  | TEnum vs => de_enum (map (fun v => match v with (nm, Some t) => (nm, Some (de hr t)) | (nm, None) => (nm, None) end) vs) d
  | TRd t => de_pair WITHRD_FIELDS WITHRD_FIELDS de_rd (de hr t) d
  | TLab t => de_pair LABELED_FIELDS LABELED_FIELDS (de_seq GList (de_uint 32)) (de hr t) d
  | TPid t => de_pair WITHPATHID_FIELDS WITHRD_FIELDS (de_uint 32) (de hr t) d
  | TFlow ps => de_flow (map (de hr) ps) d
  | TNet => de_net d
  | TFuel => SFuel
  end.

(** ** The types of /repo *)

(** a struct: named fields, in the order of declaration (e.g. ipv4.rs:20-26) *)
Definition struct (l : list (string * ty)) : ty := TStruct (map (fun f => (txt (fst f), snd f)) l).
(** an enum: named variants, in the order of declaration (e.g. afi/mod.rs:52-61) *)
Definition enum (l : list (string * option ty)) : ty := TEnum (map (fun f => (txt (fst f), snd f)) l).

(** ipv4.rs:20-26 *)
Definition T_V4 : ty := struct [("addr", TIp4); ("prefixlen", TUint 8)]%string.
(** ipv6.rs:19-25 *)
Definition T_V6 : ty := struct [("addr", TIp6); ("prefixlen", TUint 8)]%string.
(** ipv4.rs:205-209 *)
Definition T_IPv4RD : ty := struct [("rd", T_RD); ("addr", TIp4)]%string.
(** ipv6.rs:215-219 *)
Definition T_IPv6RD : ty := struct [("rd", T_RD); ("addr", TIp6)]%string.
(** mdt.rs:20-26 *)
Definition T_Mdt4 : ty := struct [("addr", T_V4); ("group", TIp4)]%string.
(** mdt.rs:121-127 *)
Definition T_Mdt6 : ty := struct [("addr", T_V6); ("group", TIp6)]%string.
(** vpls.rs:18-25 *)
Definition T_AddrL2 : ty :=
  struct [("rd", T_RD); ("site", TUint 16); ("offset", TUint 16); ("range", TUint 16); ("labels", T_Labels)]%string.
(** vpls.rs:67-73 *)
Definition T_L2 : ty := struct [("rd", T_RD); ("site", TUint 16); ("offset", TUint 16); ("range", TUint 16)]%string.
(** mvpn.rs:19-23 *)
Definition T_Mvpn1 : ty := struct [("rd", T_RD); ("originator", TIp)]%string.
(** mvpn.rs:62-66 *)
Definition T_Mvpn2 : ty := struct [("rd", T_RD); ("asn", TUint 32)]%string.
(** mvpn.rs:96-102 *)
Definition T_Mvpn3 : ty := struct [("rd", T_RD); ("source", TIp); ("group", TIp); ("originator", TIp)]%string.
(** mvpn.rs:160-164 *)
Definition T_Mvpn4 : ty := struct [("spmsi", T_Mvpn3); ("originator", TIp)]%string.
(** mvpn.rs:202-207 *)
Definition T_Mvpn5 : ty := struct [("rd", T_RD); ("source", TIp); ("group", TIp)]%string.
(** mvpn.rs:256-262 *)
Definition T_Mvpn67 : ty := struct [("rd", T_RD); ("asn", TUint 32); ("rp", TIp); ("group", TIp)]%string.
(** mvpn.rs:313-322 *)
Definition T_Mvpn : ty :=
  enum [("T1", Some T_Mvpn1); ("T2", Some T_Mvpn2); ("T3", Some T_Mvpn3); ("T4", Some T_Mvpn4); ("T5", Some T_Mvpn5);
        ("T6", Some T_Mvpn67); ("T7", Some T_Mvpn67)]%string.
(** evpn.rs:20-24 *)
Definition T_Esi : ty := TArr 9.
(** mac.rs:18-22 *)
Definition T_Mac : ty := TArr 6.
(** evpn.rs:54-61 *)
Definition T_Evpn1 : ty :=
  struct [("rd", T_RD); ("esi_type", TUint 8); ("esi", T_Esi); ("ether_tag", TUint 32); ("labels", T_Labels)]%string.
(** evpn.rs:110-119 *)
Definition T_Evpn2 : ty :=
  struct [("rd", T_RD); ("esi_type", TUint 8); ("esi", T_Esi); ("ether_tag", TUint 32); ("mac", T_Mac); ("ip", TOpt TIp);
          ("labels", T_Labels)]%string.
(** evpn.rs:227-232 *)
Definition T_Evpn3 : ty := struct [("rd", T_RD); ("ether_tag", TUint 32); ("ip", TIp)]%string.
(** evpn.rs:293-299 *)
Definition T_Evpn4 : ty := struct [("rd", T_RD); ("esi_type", TUint 8); ("esi", T_Esi); ("ip", TIp)]%string.
(** evpn.rs:368-378 *)
Definition T_Evpn5 : ty :=
  struct [("rd", T_RD); ("esi_type", TUint 8); ("esi", T_Esi); ("ether_tag", TUint 32); ("len", TUint 8); ("prefix", TIp); ("gw_ip", TIp);
          ("labels", T_Labels)]%string.
(** evpn.rs:470-477 *)
Definition T_Evpn : ty :=
  enum [("EVPN1", Some T_Evpn1); ("EVPN2", Some T_Evpn2); ("EVPN3", Some T_Evpn3); ("EVPN4", Some T_Evpn4); ("EVPN5", Some T_Evpn5)]%string.
(** flowspec.rs:125-132 *)
Definition T_FsVal : ty :=
  struct [("and_bit", TBool); ("lt_cmp", TBool); ("gt_cmp", TBool); ("eq_cmp", TBool); ("value", TUint 32)]%string.
(** flowspec.rs:300-306 *)
Definition T_FsMask : ty := struct [("and_bit", TBool); ("bit_not", TBool); ("bit_match", TBool); ("value", TUint 32)]%string.
(** flowspec.rs:42-46 *)
Definition T_Fs6 : ty := struct [("ipv6", T_V6); ("offset", TUint 8)]%string.
(** flowspec.rs:406-420 *)
Definition T_Flow (t : ty) : ty :=
  let v := TVec T_FsVal in
  let m := TVec T_FsMask in
  TFlow [t; t; v; v; v; v; v; v; m; v; v; m; v].
(** afi/mod.rs:52-61 *)
Definition T_Addr : ty :=
  enum [("None", None); ("V4", Some TIp4); ("V6", Some TIp6); ("V4RD", Some T_IPv4RD); ("V6RD", Some T_IPv6RD); ("L2", Some T_L2);
        ("MVPN", Some T_Mvpn)]%string.
(** afi/mod.rs:161-194 *)
Definition T_Addrs : ty :=
  enum [("None", None);
        ("IPV4U", Some (TVec T_V4));
        ("IPV4M", Some (TVec T_V4));
        ("IPV4LU", Some (TVec (TLab T_V4)));
        ("VPNV4U", Some (TVec (TLab (TRd T_V4))));
        ("VPNV4M", Some (TVec (TLab (TRd T_V4))));
        ("IPV4MDT", Some (TVec (TRd T_Mdt4)));
        ("IPV4MDTP", Some (TVec (TPid (TRd T_Mdt4))));
        ("IPV6U", Some (TVec T_V6));
        ("IPV6M", Some (TVec T_V6));
        ("IPV6LU", Some (TVec (TLab T_V6)));
        ("VPNV6U", Some (TVec (TLab (TRd T_V6))));
        ("VPNV6M", Some (TVec (TLab (TRd T_V6))));
        ("IPV6MDT", Some (TVec (TRd T_Mdt6)));
        ("IPV6MDTP", Some (TVec (TPid (TRd T_Mdt6))));
        ("L2VPLS", Some (TVec T_AddrL2));
        ("MVPN", Some (TVec T_Mvpn));
        ("EVPN", Some (TVec T_Evpn));
        ("FS4U", Some (TVec (T_Flow T_V4)));
        ("FS6U", Some (TVec (T_Flow T_Fs6)));
        ("FSV4U", Some (TVec (T_Flow (TRd T_V4))));
        ("IPV4UP", Some (TVec (TPid T_V4)));
        ("IPV4MP", Some (TVec (TPid T_V4)));
        ("IPV4LUP", Some (TVec (TPid (TLab T_V4))));
        ("VPNV4UP", Some (TVec (TPid (TLab (TRd T_V4)))));
        ("VPNV4MP", Some (TVec (TPid (TLab (TRd T_V4)))));
        ("IPV6UP", Some (TVec (TPid T_V6)));
        ("IPV6MP", Some (TVec (TPid T_V6)));
        ("IPV6LUP", Some (TVec (TPid (TLab T_V6))));
        ("VPNV6UP", Some (TVec (TPid (TLab (TRd T_V6)))));
        ("VPNV6MP", Some (TVec (TPid (TLab (TRd T_V6)))))]%string.
(** origin.rs:18-23, 36-41 *)
Definition T_Origin : ty := enum [("Igp", None); ("Egp", None); ("Incomplete", None)]%string.
(** aggregatoras.rs:18-24 *)
Definition T_Aggregator : ty := struct [("asn", TUint 32); ("addr", TIp4)]%string.
(** community.rs:45-50 *)
Definition T_Large : ty := struct [("ga", TUint 32); ("ldp1", TUint 32); ("ldp2", TUint 32)]%string.
(** extcommunity.rs:18-24 *)
Definition T_Ext : ty := struct [("ctype", TUint 8); ("subtype", TUint 8); ("a", TUint 16); ("b", TUint 32)]%string.
(** connector.rs:19-24 *)
Definition T_Connector : ty := struct [("asn", TUint 32); ("addr", TIp4); ("orig", TIp4)]%string.
(** unknown.rs:18-24, attributes/mod.rs:50-54 *)
Definition T_Unknown : ty := struct [("params", struct [("typecode", TUint 8); ("flags", TUint 8)]); ("value", TVec (TUint 8))]%string.
(** pmsitunnelattr.rs:18-24, 36-40, 48-52, 61-67, 82-88 *)
Definition T_Pmsi : ty :=
  struct [("flags", TUint 8); ("tunnel_type", TUint 8); ("label", T_Labels);
          ("tunnel_attribute",
            enum [("None", None);
                  ("RSVPTe", Some (struct [("ext_tunnel_id", TIp4); ("reserved", TUint 16); ("tunnel_id", TUint 16); ("p2mp_id", TIp4)]));
                  ("IngressRepl", Some TIp4);
                  ("MLDP", Some (struct [("rootnode", TIp); ("opaque", TVec (TUint 8))]))])]%string.
(** multiproto.rs:17-23 *)
Definition T_MPUpdates : ty := struct [("nexthop", T_Addr); ("addrs", T_Addrs)]%string.
(** multiproto.rs:197-201 *)
Definition T_MPWithdraws : ty := struct [("addrs", T_Addrs)]%string.
(** attributes/mod.rs:64-84; attrset.rs:18-24: [deep] attribute sets inside one another *)
Fixpoint T_Attr (deep : nat) : ty :=
  enum [("Origin", Some T_Origin);
        ("ASPath", Some (TVec (TUint 32)));
        ("NextHop", Some TIp);
        ("MED", Some (TUint 32));
        ("LocalPref", Some (TUint 32));
        ("AtomicAggregate", Some TIp);
        ("AggregatorAS", Some T_Aggregator);
        ("CommunityList", Some (TSet (TUint 32)));
        ("OriginatorID", Some TIp);
        ("ClusterList", Some (TVec TIp));
        ("MPUpdates", Some T_MPUpdates);
        ("MPWithdraws", Some T_MPWithdraws);
        ("ExtCommunityList", Some (TSet T_Ext));
        ("LargeCommunityList", Some (TSet T_Large));
        ("PMSITunnel", Some T_Pmsi);
        ("AttrSet", Some (struct [("asn", TUint 32); ("attrs", TVec (match deep with O => TFuel | S deep' => T_Attr deep' end))]));
        ("Connector", Some T_Connector);
        ("Unknown", Some T_Unknown)]%string.

(** ** The model's values as serde sees them: the fields in the order of declaration (lines as above) *)

(** afi/mod.rs:302-308 *)
Definition g_rd (r : bgpRD) : gval := GList [GNum (rdh r); GNum (rdl r)].
(** afi/mod.rs:399-403 *)
Definition g_nums (l : list N) : gval := GList (map GNum l).
(** ipv4.rs:20-26 *)
Definition g_v4 (p : addrV4) : gval := GList [GIp4 (v4_addr p); GNum (v4_len p)].
(** ipv6.rs:19-25 *)
Definition g_v6 (p : addrV6) : gval := GList [GIp6 (v6_addr p); GNum (v6_len p)].
(** afi/mod.rs:1094-1096 *)
Definition g_wrd {T} (g : T -> gval) (x : withRd T) : gval := GPair (g_rd (wrd_rd x)) (g (wrd_prefix x)).
(** afi/mod.rs:1194-1196 *)
Definition g_lab {T} (g : T -> gval) (x : labeled T) : gval := GPair (g_nums (lab_labels x)) (g (lab_prefix x)).
(** afi/mod.rs:1296-1298 *)
Definition g_pid {T} (g : T -> gval) (x : withPathId T) : gval := GPair (GNum (pid x)) (g (pid_nlri x)).
(** [Vec] (afi/mod.rs:162-194) *)
Definition g_vec {T} (g : T -> gval) (l : list T) : gval := GList (map g l).
(** mdt.rs:20-26 *)
Definition g_mdt4 (m : mdtV4) : gval := GList [g_v4 (mdt4_addr m); GIp4 (mdt4_group m)].
(** mdt.rs:121-127 *)
Definition g_mdt6 (m : mdtV6) : gval := GList [g_v6 (mdt6_addr m); GIp6 (mdt6_group m)].
(** vpls.rs:18-25 *)
Definition g_l2a (x : addrL2) : gval :=
  GList [g_rd (l2a_rd x); GNum (l2a_site x); GNum (l2a_offset x); GNum (l2a_range x); g_nums (l2a_labels x)].
(** vpls.rs:67-73 *)
Definition g_l2 (x : bgpL2) : gval := GList [g_rd (l2_rd x); GNum (l2_site x); GNum (l2_offset x); GNum (l2_range x)].
(** mvpn.rs:96-102 *)
Definition g_mvpn3 (r : mvpn3) : gval := GList [g_rd (mv3_rd r); GIp (mv3_source r); GIp (mv3_group r); GIp (mv3_orig r)].
(** mvpn.rs:256-262 *)
Definition g_mvpn67 (r : mvpn67) : gval := GList [g_rd (mv67_rd r); GNum (mv67_asn r); GIp (mv67_rp r); GIp (mv67_group r)].
(** mvpn.rs:19-23, 62-66, 160-164, 202-207, 313-322 *)
Definition g_mvpn (r : mvpn) : gval :=
  match r with
  | MvT1 r => GVariant 0 (Some (GList [g_rd (mv1_rd r); GIp (mv1_orig r)]))
  | MvT2 r => GVariant 1 (Some (GList [g_rd (mv2_rd r); GNum (mv2_asn r)]))
  | MvT3 r => GVariant 2 (Some (g_mvpn3 r))
  | MvT4 r => GVariant 3 (Some (GList [g_mvpn3 (mv4_spmsi r); GIp (mv4_orig r)]))
  | MvT5 r => GVariant 4 (Some (GList [g_rd (mv5_rd r); GIp (mv5_source r); GIp (mv5_group r)]))
  | MvT6 r => GVariant 5 (Some (g_mvpn67 r))
  | MvT7 r => GVariant 6 (Some (g_mvpn67 r))
  end.
(** [Option] (evpn.rs:117) *)
Definition g_opt (o : option ipaddr) : gval := match o with None => GNone | Some a => GSome (GIp a) end.
(** evpn.rs:54-61, 110-119, 227-232, 293-299, 368-378, 470-477 *)
Definition g_evpn (r : evpn) : gval :=
  match r with
  | Ev1 r => GVariant 0 (Some (GList [g_rd (ev1_rd r); GNum (ev1_esi_type r); g_nums (ev1_esi r); GNum (ev1_tag r); g_nums (ev1_labels r)]))
  | Ev2 r => GVariant 1 (Some (GList [g_rd (ev2_rd r); GNum (ev2_esi_type r); g_nums (ev2_esi r); GNum (ev2_tag r); g_nums (ev2_mac r);
                                      g_opt (ev2_ip r); g_nums (ev2_labels r)]))
  | Ev3 r => GVariant 2 (Some (GList [g_rd (ev3_rd r); GNum (ev3_tag r); GIp (ev3_ip r)]))
  | Ev4 r => GVariant 3 (Some (GList [g_rd (ev4_rd r); GNum (ev4_esi_type r); g_nums (ev4_esi r); GIp (ev4_ip r)]))
  | Ev5 r => GVariant 4 (Some (GList [g_rd (ev5_rd r); GNum (ev5_esi_type r); g_nums (ev5_esi r); GNum (ev5_tag r); GNum (ev5_len r);
                                      GIp (ev5_prefix r); GIp (ev5_gw r); g_nums (ev5_labels r)]))
  end.
(** flowspec.rs:125-132 *)
Definition g_fsval (x : fsval) : gval := GList [GBool (fv_and x); GBool (fv_lt x); GBool (fv_gt x); GBool (fv_eq x); GNum (fv_value x)].
(** flowspec.rs:300-306 *)
Definition g_fsmask (x : fsmask) : gval := GList [GBool (fm_and x); GBool (fm_not x); GBool (fm_match x); GNum (fm_value x)].
(** flowspec.rs:42-46 *)
Definition g_fs6 (x : fs6) : gval := GList [g_v6 (fs6_ip x); GNum (fs6_offset x)].
(** flowspec.rs:406-420 *)
Definition g_flow {T} (g : T -> gval) (f : flowspec T) : gval :=
  match f with
  | FsDst a => GVariant 0 (Some (g a))
  | FsSrc a => GVariant 1 (Some (g a))
  | FsProto v => GVariant 2 (Some (g_vec g_fsval v))
  | FsPortAny v => GVariant 3 (Some (g_vec g_fsval v))
  | FsPortDst v => GVariant 4 (Some (g_vec g_fsval v))
  | FsPortSrc v => GVariant 5 (Some (g_vec g_fsval v))
  | FsIcmpType v => GVariant 6 (Some (g_vec g_fsval v))
  | FsIcmpCode v => GVariant 7 (Some (g_vec g_fsval v))
  | FsTcpFlags v => GVariant 8 (Some (g_vec g_fsmask v))
  | FsPacketLength v => GVariant 9 (Some (g_vec g_fsval v))
  | FsDscp v => GVariant 10 (Some (g_vec g_fsval v))
  | FsFragment v => GVariant 11 (Some (g_vec g_fsmask v))
  | FsFlowLabel v => GVariant 12 (Some (g_vec g_fsval v))
  end.
(** afi/mod.rs:52-61 *)
Definition g_addr (a : bgpaddr) : gval :=
  match a with
  | BANone => GVariant 0 None
  | BAV4 a => GVariant 1 (Some (GIp4 a))
  | BAV6 a => GVariant 2 (Some (GIp6 a))
  | BAV4RD rd a => GVariant 3 (Some (GList [g_rd rd; GIp4 a]))
  | BAV6RD rd a => GVariant 4 (Some (GList [g_rd rd; GIp6 a]))
  | BAL2 x => GVariant 5 (Some (g_l2 x))
  | BAMVPN r => GVariant 6 (Some (g_mvpn r))
  end.
(** afi/mod.rs:161-194 *)
Definition g_addrs (a : addrs) : gval :=
  match a with
  | ANone => GVariant 0 None
  | IPV4U v => GVariant 1 (Some (g_vec g_v4 v))
  | IPV4M v => GVariant 2 (Some (g_vec g_v4 v))
  | IPV4LU v => GVariant 3 (Some (g_vec (g_lab g_v4) v))
  | VPNV4U v => GVariant 4 (Some (g_vec (g_lab (g_wrd g_v4)) v))
  | VPNV4M v => GVariant 5 (Some (g_vec (g_lab (g_wrd g_v4)) v))
  | IPV4MDT v => GVariant 6 (Some (g_vec (g_wrd g_mdt4) v))
  | IPV4MDTP v => GVariant 7 (Some (g_vec (g_pid (g_wrd g_mdt4)) v))
  | IPV6U v => GVariant 8 (Some (g_vec g_v6 v))
  | IPV6M v => GVariant 9 (Some (g_vec g_v6 v))
  | IPV6LU v => GVariant 10 (Some (g_vec (g_lab g_v6) v))
  | VPNV6U v => GVariant 11 (Some (g_vec (g_lab (g_wrd g_v6)) v))
  | VPNV6M v => GVariant 12 (Some (g_vec (g_lab (g_wrd g_v6)) v))
  | IPV6MDT v => GVariant 13 (Some (g_vec (g_wrd g_mdt6) v))
  | IPV6MDTP v => GVariant 14 (Some (g_vec (g_pid (g_wrd g_mdt6)) v))
  | L2VPLS v => GVariant 15 (Some (g_vec g_l2a v))
  | MVPN v => GVariant 16 (Some (g_vec g_mvpn v))
  | EVPN v => GVariant 17 (Some (g_vec g_evpn v))
  | FS4U v => GVariant 18 (Some (g_vec (g_flow g_v4) v))
  | FS6U v => GVariant 19 (Some (g_vec (g_flow g_fs6) v))
  | FSV4U v => GVariant 20 (Some (g_vec (g_flow (g_wrd g_v4)) v))
  | IPV4UP v => GVariant 21 (Some (g_vec (g_pid g_v4) v))
  | IPV4MP v => GVariant 22 (Some (g_vec (g_pid g_v4) v))
  | IPV4LUP v => GVariant 23 (Some (g_vec (g_pid (g_lab g_v4)) v))
  | VPNV4UP v => GVariant 24 (Some (g_vec (g_pid (g_lab (g_wrd g_v4))) v))
  | VPNV4MP v => GVariant 25 (Some (g_vec (g_pid (g_lab (g_wrd g_v4))) v))
  | IPV6UP v => GVariant 26 (Some (g_vec (g_pid g_v6) v))
  | IPV6MP v => GVariant 27 (Some (g_vec (g_pid g_v6) v))
  | IPV6LUP v => GVariant 28 (Some (g_vec (g_pid (g_lab g_v6)) v))
  | VPNV6UP v => GVariant 29 (Some (g_vec (g_pid (g_lab (g_wrd g_v6))) v))
  | VPNV6MP v => GVariant 30 (Some (g_vec (g_pid (g_lab (g_wrd g_v6))) v))
  end.
(** pmsitunnelattr.rs:82-88, 61-67 *)
Definition g_pmsi (t : pmsi) : gval :=
  GList [GNum (pm_flags t); GNum (pm_type t); g_nums (pm_label t);
         match pm_tun t with
         | PtNone => GVariant 0 None
         | PtRSVP e r i p => GVariant 1 (Some (GList [GIp4 e; GNum r; GNum i; GIp4 p]))
         | PtIngress e => GVariant 2 (Some (GIp4 e))
         | PtMLDP a o => GVariant 3 (Some (GList [GIp a; g_nums o]))
         end].
(** extcommunity.rs:18-24 *)
Definition g_ext (x : ecomm) : gval := GList [GNum (ec_type x); GNum (ec_subtype x); GNum (ec_a x); GNum (ec_b x)].
(** community.rs:45-50 *)
Definition g_large (x : lcomm) : gval := GList [GNum (lc_ga x); GNum (lc_1 x); GNum (lc_2 x)].
(** attributes/mod.rs:64-84 *)
Fixpoint g_attr (a : attr) : gval :=
  match a with
  | AOrigin o => GVariant 0 (Some (GVariant (match o with Igp => 0 | Egp => 1 | Incomplete => 2 end) None))
  | AASPath v => GVariant 1 (Some (g_nums v))
  | ANextHop a => GVariant 2 (Some (GIp a))
  | AMED v => GVariant 3 (Some (GNum v))
  | ALocalPref v => GVariant 4 (Some (GNum v))
  | AAtomicAggregate a => GVariant 5 (Some (GIp a))
  | AAggregatorAS asn a => GVariant 6 (Some (GList [GNum asn; GIp4 a]))
  | ACommunityList v => GVariant 7 (Some (g_nums v))
  | AOriginatorID a => GVariant 8 (Some (GIp a))
  | AClusterList v => GVariant 9 (Some (g_vec GIp v))
  | AMPUpdates n a => GVariant 10 (Some (GList [g_addr n; g_addrs a]))
  | AMPWithdraws a => GVariant 11 (Some (GList [g_addrs a]))
  | AExtCommunityList v => GVariant 12 (Some (g_vec g_ext v))
  | ALargeCommunityList v => GVariant 13 (Some (g_vec g_large v))
  | APMSITunnel t => GVariant 14 (Some (g_pmsi t))
  | AAttrSet asn v => GVariant 15 (Some (GList [GNum asn; GList (map g_attr v)]))
  | AConnector asn a o => GVariant 16 (Some (GList [GNum asn; GIp4 a; GIp4 o]))
  | AUnknown tc f v => GVariant 17 (Some (GList [GList [GNum tc; GNum f]; g_nums v]))
  end.
(** how deep attribute sets are nested in an attribute (attrset.rs:18-24) *)
Fixpoint sets_deep (a : attr) : nat :=
  match a with
  | AAttrSet _ v => fold_right (fun x n => Nat.max (S (sets_deep x)) n) O v
  | _ => O
  end.
