(** The constants that generated Java declares for the values of rules, and where it refers to them: the templates ending in "Const" and
    their counterparts in templates/java, renderConstants and constantName (register.go:505-532), javaTypeFor (338-398).

    The names of fields are here those in the .proto file. *)
From Verif Require Import Base Num Rules Types JavaName.
Local Open Scope N_scope.

(** strcase.ToScreamingSnake. *)
Definition to_screaming (s : bytes) : bytes := map upc (snake None (trim (boundaries false s))).

(** The rules that have constants, by the names that the templates give to constantName. *)
Inductive crule := CConst | CLt | CLte | CGt | CGte | CIn | CNotIn | CPattern | CPrefix | CContains | CSuffix | CWithin.
Definition crule_name (r : crule) : bytes :=
  match r with
  | CConst => bs "Const" | CLt => bs "Lt" | CLte => bs "Lte" | CGt => bs "Gt" | CGte => bs "Gte" | CIn => bs "In" | CNotIn => bs "NotIn"
  | CPattern => bs "Pattern" | CPrefix => bs "Prefix" | CContains => bs "Contains" | CSuffix => bs "Suffix" | CWithin => bs "Within"
  end.
(** Where a rule is: on a field (or the value in a wrapper), the items of a list, the keys or the values of a map.  The index of the
    context, from Elem, Key and Unwrap (templates/shared/context.go) as the templates call them. *)
Inductive pos := AtField | AtItem | AtKey | AtValue.
Definition index (p : pos) : bytes := match p with AtField | AtItem => [] | AtKey => bs "Key" | AtValue => bs "Value" end.
(** constantName, 530-532. *)
Definition constant_name (field : bytes) (p : pos) (r : crule) : bytes := to_screaming (field ++ [95] ++ index p ++ [95] ++ crule_name r).

(** Java types. *)
Inductive jtype := JInteger | JLong | JFloat | JDouble | JBoolean | JString | JByteString | JBytes | JPattern | JDuration | JTimestamp
  | JEnum (e : string) | JMessage (m : string) | JObject | JArray (t : jtype).
(** javaTypeForProtoType, 378-398. *)
Definition boxed (k : numkind) : jtype :=
  match k with
  | KInt32 | KUInt32 | KSInt32 | KFixed32 | KSFixed32 => JInteger
  | KInt64 | KUInt64 | KSInt64 | KFixed64 | KSFixed64 => JLong
  | KDouble => JDouble | KFloat => JFloat
  end.
Definition proto_type (e : etype) : jtype :=
  match e with TNum k => boxed k | TBool => JBoolean | TString => JString | TBytes => JByteString | _ => JObject end.
(** javaTypeFor. *)
Definition java_type (p : pos) (e : etype) : jtype :=
  match p, e with
  | (AtKey | AtValue), _ => proto_type e
  | AtField, TAny => JString
  | AtField, TDur => JDuration
  | AtField, TTs => JTimestamp
  | AtField, TWrap (WkInt32 | WkUInt32) => JInteger
  | AtField, TWrap (WkInt64 | WkUInt64) => JLong
  | AtField, TWrap WkDouble => JDouble
  | AtField, TWrap WkFloat => JFloat
  | (AtField | AtItem), TEnum n => JEnum n
  | AtItem, TMsg m => JMessage m
  | _, _ => proto_type e
  end.

(** What a constant is set to.  Enum values are written as [t.forNumber(z)]. *)
Inductive content :=
| KNum (n : num) | KNums (l : list num) | KBytes (b : bytes) | KByteses (l : list bytes) | KStrings (l : list bytes) | KPattern (p : bytes)
| KSn (t : sn) | KSns (l : list sn) | KEnums (t : jtype) (l : list Z).

Definition if_set {A B} (r : crule) (f : A -> B) (o : option A) : list (crule * B) := match o with Some a => [(r, f a)] | None => [] end.
(** The condition of the templates for a list, and for bytes. *)
Definition if_any {A B} (r : crule) (f : list A -> B) (l : list A) : list (crule * B) := match l with [] => [] | _ => [(r, f l)] end.
Definition if_bytes {B} (r : crule) (f : bytes -> B) (o : option bytes) : list (crule * B) := match o with Some b => if_any r f b | None => [] end.

(** The declarations for the rules [r] on a value of type [e]: numConstTpl, num.go:3-34; stringConstTpl, string.go:3-20; bytesConstTpl,
    bytes.go:3-33; enumConstTpl, enum.go:3-18; anyConstTpl, any.go:3-18; durationConstTpl, duration.go:3-33; timestampConstTpl,
    timestamp.go:3-22.  There is none for bool. *)
Definition declares (p : pos) (e : etype) (r : rule_type) : list (crule * (jtype * content)) :=
  let t := java_type p e in
  match r with
  | RNum _ r =>
      let one n := (t, KNum n) in let all l := (JArray t, KNums l) in
      if_set CConst one (n_const r) ++ if_set CLt one (n_lt r) ++ if_set CLte one (n_lte r) ++ if_set CGt one (n_gt r) ++
      if_set CGte one (n_gte r) ++ if_any CIn all (n_in r) ++ if_any CNotIn all (n_not_in r)
  | RString r =>
      let all l := (JArray t, KStrings l) in
      if_any CIn all (s_in r) ++ if_any CNotIn all (s_not_in r) ++ if_set CPattern (fun p => (JPattern, KPattern p)) (s_pattern r)
  | RBytes r =>
      let all l := (JArray JByteString, KByteses l) in let part b := (JBytes, KBytes b) in
      if_bytes CConst (fun b => (JByteString, KBytes b)) (b_const r) ++ if_any CIn all (b_in r) ++ if_any CNotIn all (b_not_in r) ++
      if_set CPattern (fun p => (JPattern, KPattern p)) (b_pattern r) ++
      if_bytes CPrefix part (b_prefix r) ++ if_bytes CContains part (b_contains r) ++ if_bytes CSuffix part (b_suffix r)
  | REnum r => let all l := (JArray t, KEnums t l) in if_any CIn all (e_in r) ++ if_any CNotIn all (e_not_in r)
  | RAny r => let all l := (JArray JString, KStrings l) in if_any CIn all (a_in r) ++ if_any CNotIn all (a_not_in r)
  | RDuration r =>
      let one d := (JDuration, KSn d) in let all l := (JArray JDuration, KSns l) in
      if_set CConst one (d_const r) ++ if_set CLt one (d_lt r) ++ if_set CLte one (d_lte r) ++ if_set CGt one (d_gt r) ++
      if_set CGte one (d_gte r) ++ if_any CIn all (d_in r) ++ if_any CNotIn all (d_not_in r)
  | RTimestamp r =>
      let one d := (JTimestamp, KSn d) in
      if_set CConst one (t_const r) ++ if_set CLt one (t_lt r) ++ if_set CLte one (t_lte r) ++ if_set CGt one (t_gt r) ++
      if_set CGte one (t_gte r) ++ if_set CWithin (fun d => (JDuration, KSn d)) (t_within r)
  | RBool _ | RRepeated _ | RMap _ => []
  end.

(** The references in the code for the rules: numTpl, num.go:36-66; stringTpl; bytesTpl; enumTpl; anyTpl; durationTpl; timestampTpl.
    For bounds they are the same in both branches, the call of range and those of lessThan and so on. *)
Definition bound_uses {A} (lt lte gt gte : option A) : list crule :=
  let on c (o : option A) := match o with Some _ => [c] | None => [] end in
  on CLt lt ++ on CLte lte ++ on CGt gt ++ on CGte gte.
Definition uses (r : rule_type) : list crule :=
  let on {A} c (o : option A) := match o with Some _ => [c] | None => [] end in
  let any {A} c (l : list A) := match l with [] => [] | _ => [c] end in
  let some c (o : option bytes) := match o with Some (_ :: _) => [c] | _ => [] end in
  match r with
  | RNum _ r => on CConst (n_const r) ++ bound_uses (n_lt r) (n_lte r) (n_gt r) (n_gte r) ++ any CIn (n_in r) ++ any CNotIn (n_not_in r)
  | RString r => any CIn (s_in r) ++ any CNotIn (s_not_in r) ++ on CPattern (s_pattern r)
  | RBytes r =>
      some CConst (b_const r) ++ on CPattern (b_pattern r) ++ some CPrefix (b_prefix r) ++ some CContains (b_contains r) ++
      some CSuffix (b_suffix r) ++ any CIn (b_in r) ++ any CNotIn (b_not_in r)
  | REnum r => any CIn (e_in r) ++ any CNotIn (e_not_in r)
  | RAny r => any CIn (a_in r) ++ any CNotIn (a_not_in r)
  | RDuration r => on CConst (d_const r) ++ bound_uses (d_lt r) (d_lte r) (d_gt r) (d_gte r) ++ any CIn (d_in r) ++ any CNotIn (d_not_in r)
  | RTimestamp r => on CConst (t_const r) ++ bound_uses (t_lt r) (t_lte r) (t_gt r) (t_gte r) ++ on CWithin (t_within r)
  | RBool _ | RRepeated _ | RMap _ => []
  end.

(** The rules of a field with their places, and the types they apply to: context, Elem, Key; templates/shared/context.go:25-100, 129-193.
    An element with a wrapper type and rules for its value gives a context of type "wrapper"; none for rules of lists and maps inside
    of lists and maps, which the checker rejects. *)
Definition typed (p : pos) (e : etype) (fr : option field_rules) : list (pos * etype * rule_type) :=
  match match fr with Some fr => fr_typ fr | None => None end with
  | Some r => [(p, e, r)]
  | None => []
  end.
Definition parts (f : field) : list (pos * etype * rule_type) :=
  match f_type f, fr_typ (f_rules f) with
  | FOne e, _ => typed AtField e (Some (f_rules f))
  | FRep e, Some (RRepeated r) => typed AtItem e (r_items r)
  | FMap k v, Some (RMap r) => typed AtKey k (p_keys r) ++ typed AtValue v (p_values r)
  | _, _ => []
  end.

(** wrapperConstTpl, wrapper.go:3-4, with unwrap, register.go:494-502: for lists and maps, Field.Type().Embed() is nil and the generator
    panics. *)
Definition panics (x : pos * etype * rule_type) : bool :=
  match x with (p, e, _) => match e, p with TWrap _, (AtItem | AtKey | AtValue) => true | _, _ => false end end.

(** msgInnerTpl, msg.go:14-20, with oneOfConstTpl, oneof.go:3-5: the constants of a message, or none if the generator panics; and the
    references to constants in assertValid. *)
Definition declaration := (bytes * (jtype * content))%type.
Definition field_constants (f : field) : list declaration :=
  flat_map (fun x => match x with (p, e, r) => map (fun c => (constant_name (bs (f_name f)) p (fst c), snd c)) (declares p e r) end) (parts f).
Definition constants (d : msgdesc) : option (list declaration) :=
  let fs := md_fields d ++ flat_map o_fields (md_oneofs d) in
  if existsb (fun f => existsb panics (parts f)) fs then None else Some (flat_map field_constants fs).
(** Each with the field, the place and the rule for which it is. *)
Definition field_references (f : field) : list (bytes * (pos * etype * rule_type * crule)) :=
  flat_map (fun x => match x with (p, e, r) => map (fun c => (constant_name (bs (f_name f)) p c, (x, c))) (uses r) end) (parts f).
Definition references (d : msgdesc) : list (bytes * (pos * etype * rule_type * crule)) :=
  if md_disabled d then [] else flat_map field_references (md_fields d ++ flat_map o_fields (md_oneofs d)).
(** The types on which enum.go calls forNumber. *)
Definition enum_types (f : field) : list (jtype * string) :=
  flat_map (fun x => match x with
    | (p, TEnum n, REnum r) => if is_some (e_const r) || negb (is_nil (e_in r)) || negb (is_nil (e_not_in r)) then [(java_type p (TEnum n), n)] else []
    | _ => [] end) (parts f).
