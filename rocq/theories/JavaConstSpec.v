(** What javac asks of constants. *)
From Verif Require Import Base Num Rules Types JavaName JavaNameSpec JavaConst.
Local Open Scope N_scope.

(** Small letters, without underscores: protoc refuses proto3 messages with two fields that are the same up to this. *)
Definition squash (s : bytes) : bytes := map loc (filter (fun c => negb (c =? 95)) s).
Definition names (d : msgdesc) : list bytes := map (fun f => bs (f_name f)) (md_fields d ++ flat_map o_fields (md_oneofs d)).
Definition proto3_names (d : msgdesc) : Prop := NoDup (map squash (names d)) /\ forall n, In n (names d) -> identifier n = true.

(** The value of a rule. *)
Definition rule_value (r : rule_type) (c : crule) : option content :=
  let map_opt {A B} (f : A -> B) (o : option A) := match o with Some a => Some (f a) | None => None end in
  match r, c with
  | RNum _ r, CConst => map_opt KNum (n_const r) | RNum _ r, CLt => map_opt KNum (n_lt r) | RNum _ r, CLte => map_opt KNum (n_lte r)
  | RNum _ r, CGt => map_opt KNum (n_gt r) | RNum _ r, CGte => map_opt KNum (n_gte r)
  | RNum _ r, CIn => Some (KNums (n_in r)) | RNum _ r, CNotIn => Some (KNums (n_not_in r))
  | RString r, CIn => Some (KStrings (s_in r)) | RString r, CNotIn => Some (KStrings (s_not_in r)) | RString r, CPattern => map_opt KPattern (s_pattern r)
  | RBytes r, CConst => map_opt KBytes (b_const r) | RBytes r, CIn => Some (KByteses (b_in r)) | RBytes r, CNotIn => Some (KByteses (b_not_in r))
  | RBytes r, CPattern => map_opt KPattern (b_pattern r) | RBytes r, CPrefix => map_opt KBytes (b_prefix r)
  | RBytes r, CContains => map_opt KBytes (b_contains r) | RBytes r, CSuffix => map_opt KBytes (b_suffix r)
  | RAny r, CIn => Some (KStrings (a_in r)) | RAny r, CNotIn => Some (KStrings (a_not_in r))
  | RDuration r, CConst => map_opt KSn (d_const r) | RDuration r, CLt => map_opt KSn (d_lt r) | RDuration r, CLte => map_opt KSn (d_lte r)
  | RDuration r, CGt => map_opt KSn (d_gt r) | RDuration r, CGte => map_opt KSn (d_gte r)
  | RDuration r, CIn => Some (KSns (d_in r)) | RDuration r, CNotIn => Some (KSns (d_not_in r))
  | RTimestamp r, CConst => map_opt KSn (t_const r) | RTimestamp r, CLt => map_opt KSn (t_lt r) | RTimestamp r, CLte => map_opt KSn (t_lte r)
  | RTimestamp r, CGt => map_opt KSn (t_gt r) | RTimestamp r, CGte => map_opt KSn (t_gte r) | RTimestamp r, CWithin => map_opt KSn (t_within r)
  | _, _ => None
  end.
(** That of an enum rule is a list of numbers, turned into values of the enum type. *)
Definition enum_value (r : rule_type) (c : crule) : option (list Z) :=
  match r, c with REnum r, CIn => Some (e_in r) | REnum r, CNotIn => Some (e_not_in r) | _, _ => None end.
Definition holds_value (e : etype) (r : rule_type) (c : crule) (v : content) : Prop :=
  match r with
  | REnum _ => exists n l, e = TEnum n /\ enum_value r c = Some l /\ v = KEnums (JEnum n) l
  | _ => rule_value r c = Some v
  end.

(** The type of the values that are compared with the constant, from the getter that protoc makes. *)
Definition wrapped_num (w : wrapkind) : option numkind :=
  match w with
  | WkDouble => Some KDouble | WkFloat => Some KFloat | WkInt64 => Some KInt64 | WkUInt64 => Some KUInt64
  | WkInt32 => Some KInt32 | WkUInt32 => Some KUInt32 | _ => None
  end.
Definition number_type (k : numkind) : jtype :=
  match k with
  | KInt32 | KSInt32 | KSFixed32 | KUInt32 | KFixed32 => JInteger
  | KInt64 | KSInt64 | KSFixed64 | KUInt64 | KFixed64 => JLong
  | KFloat => JFloat | KDouble => JDouble
  end.
Definition value_type (e : etype) : jtype :=
  match e with
  | TNum k => number_type k | TBool => JBoolean | TString | TWrap WkString | TAny => JString | TBytes | TWrap WkBytes => JByteString
  | TWrap w => match wrapped_num w with Some k => number_type k | None => JBoolean end
  | TEnum n => JEnum n | TDur => JDuration | TTs => JTimestamp | TMsg m => JMessage m
  end.
(** The type of the constant for a rule; an array of strings may be one of objects. *)
Definition type_fits (e : etype) (c : crule) (t : jtype) : Prop :=
  match c with
  | CIn | CNotIn => t = JArray (value_type e) \/ (value_type e = JString /\ t = JArray JObject)
  | CPattern => t = JPattern
  | CPrefix | CContains | CSuffix => t = JBytes
  | CWithin => t = JDuration
  | _ => t = value_type e
  end.

(** Rules are on fields of their types, as the checker demands (C25). *)
Definition rule_for (e : etype) (r : rule_type) : Prop :=
  match r with
  | RNum k _ => e = TNum k \/ exists w, e = TWrap w /\ wrapped_num w = Some k
  | RBool _ => e = TBool \/ e = TWrap WkBool
  | RString _ => e = TString \/ e = TWrap WkString
  | RBytes _ => e = TBytes \/ e = TWrap WkBytes
  | REnum _ => exists n, e = TEnum n
  | RAny _ => e = TAny | RDuration _ => e = TDur | RTimestamp _ => e = TTs
  | RRepeated _ | RMap _ => False
  end.
Definition rules_for (d : msgdesc) : Prop :=
  forall f p e r, In f (md_fields d ++ flat_map o_fields (md_oneofs d)) -> In (p, e, r) (parts f) -> rule_for e r.
(** No rule const, in or not_in for enums in maps. *)
Definition no_enum_values (d : msgdesc) : Prop :=
  forall f, In f (md_fields d ++ flat_map o_fields (md_oneofs d)) -> (exists k v, f_type f = FMap k v) -> enum_types f = [].
(** Rules for the value in a wrapper, on the items of a list, or the values (or keys) of a map. *)
Definition wrapper_elements (f : field) : Prop :=
  exists w,
    (exists r fr t, f_type f = FRep (TWrap w) /\ fr_typ (f_rules f) = Some (RRepeated r) /\ r_items r = Some fr /\ fr_typ fr = Some t) \/
    (exists k r fr t, f_type f = FMap k (TWrap w) /\ fr_typ (f_rules f) = Some (RMap r) /\ p_values r = Some fr /\ fr_typ fr = Some t) \/
    (exists v r fr t, f_type f = FMap (TWrap w) v /\ fr_typ (f_rules f) = Some (RMap r) /\ p_keys r = Some fr /\ fr_typ fr = Some t).
