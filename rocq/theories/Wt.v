(** Assumptions of the theorems about generated Go code: values fit their declared types
    (what Go's type system and protobuf-go guarantee), rule messages fit validate.proto,
    the standard library behaves, and the schema is in the fragment for which the
    templates emit meaningful code. *)
From Verif Require Import Base Num Rules Types Time Iface GoGen GoSem Spec.

(** * Values *)

Definition is_sn (d : sn) : Prop :=
  (- 2^63 <= sn_s d < 2^63 /\ - 2^31 <= sn_n d < 2^31)%Z.

Inductive wt_elem (sc : schema) : etype -> value -> Prop :=
| wt_num k n : num_of_kind k n = true -> wt_elem sc (TNum k) (VNum n)
| wt_bool b : wt_elem sc TBool (VBool b)
| wt_str s : is_bytes s = true -> wt_elem sc TString (VStr s)
| wt_byt s : is_bytes s = true -> wt_elem sc TBytes (VByt s)
| wt_enum e z : wt_elem sc (TEnum e) (VEnum z)
| wt_nil n : wt_elem sc (TMsg n) (VMsg None)
| wt_some n d m : find_msg sc n = Some d -> wt_msg sc d m -> wt_elem sc (TMsg n) (VMsg (Some m))
| wt_wrap_nil w : wt_elem sc (TWrap w) (VWrap None)
| wt_wrap w v : wt_elem sc (wrapped_type w) v -> wt_elem sc (TWrap w) (VWrap (Some v))
| wt_any o : wt_elem sc TAny (VAny o)
| wt_dur_nil : wt_elem sc TDur (VDur None)
| wt_dur d : is_sn d -> wt_elem sc TDur (VDur (Some d))
| wt_ts_nil : wt_elem sc TTs (VTs None)
| wt_ts t : is_sn t -> wt_elem sc TTs (VTs (Some t))
with wt_field (sc : schema) : ftype -> value -> Prop :=
| wt_one e v : wt_elem sc e v -> wt_field sc (FOne e) v
| wt_rep e l : Forall (wt_elem sc e) l -> wt_field sc (FRep e) (VList l)
| wt_map k v l : Forall (fun p => wt_elem sc k (fst p) /\ wt_elem sc v (snd p)) l ->
    wt_field sc (FMap k v) (VMap l)
with wt_named (sc : schema) : field -> string * value -> Prop :=
| wt_nm f v : wt_field sc (f_type f) v -> wt_named sc f (f_name f, v)
with wt_oneof (sc : schema) : oneof -> string * option (string * value) -> Prop :=
| wt_unset o : wt_oneof sc o (o_name o, None)
| wt_set o f v : In f (o_fields o) -> wt_field sc (f_type f) v ->
    wt_oneof sc o (o_name o, Some (f_name f, v))
with wt_msg (sc : schema) : msgdesc -> msgval -> Prop :=
| wt_mv d fs os : Forall2 (wt_named sc) (md_fields d) fs -> Forall2 (wt_oneof sc) (md_oneofs d) os ->
    wt_msg sc d (MV fs os).

(** * Schemas *)

(** Field and oneof names are distinct in a message (protobuf guarantees it for proto
    names; the Go names must also be, or the Go struct does not compile). *)
Definition wf_msg (d : msgdesc) : Prop :=
  NoDup (map f_name (all_fields d)) /\ NoDup (map o_name (md_oneofs d)).

(** Field types: message types are part of the schema, map keys are integers, booleans or
    strings. *)
Definition map_key (e : etype) : bool :=
  match e with TNum k => negb (is_float k) | TBool | TString => true | _ => false end.
Definition type_ok (sc : schema) (e : etype) : Prop :=
  match e with TMsg n => find_msg sc n <> None | _ => True end.
Definition ftype_ok (sc : schema) (t : ftype) : Prop :=
  match t with FOne e | FRep e => type_ok sc e | FMap k v => map_key k = true /\ type_ok sc v end.

Definition wf_schema (sc : schema) : Prop :=
  forall d, In d (sc_msgs sc) ->
    wf_msg d /\ forall f, In f (all_fields d) -> ftype_ok sc (f_type f).

(** Rule values are of the rule's own numeric type. *)
Definition wf_num (k : numkind) (r : num_rules) : Prop :=
  forall n, (n_const r = Some n \/ n_lt r = Some n \/ n_lte r = Some n \/ n_gt r = Some n \/
             n_gte r = Some n \/ In n (n_in r) \/ In n (n_not_in r)) -> num_of_kind k n = true.

(** * The standard library *)

Record oracle_ok (orc : oracles) : Prop := mkOracleOk {
  (** Go's regexp engine on the three fixed patterns. *)
  ok_name : forall s, o_match orc re_header_name s = true <-> exists l, decodes s l /\ header_name l;
  ok_value : forall s, o_match orc re_header_value s = true <-> exists l, decodes s l /\ header_value l;
  ok_line : forall s, o_match orc re_header_string s = true <-> exists l, decodes s l /\ header_line l;
  (** mail.ParseAddress returns an address with a "@". *)
  ok_mail : forall s a, o_mail orc s = Some a -> In 64%N a }.

(** * Supported rules

    [supported] holds of a checked schema when, for every non-disabled message with generated
    code: the rules sit on a type they can apply to, the literals are Go constants, and every
    lookup table or pattern that is used is also declared.  Each clause excludes schemas
    that the checker accepts although their generated code does not compile, or panics
    the generator (see DESIGN.md, findings). *)

(** Where a rule sits; only some positions get lookup tables and patterns
    (msg.go:135-208). *)
Inductive pos := PTop | PItem | PKey | PVal.

Definition lens_ok (l : list (option N)) : Prop := forall n, In (Some n) l -> (n < 2^63)%N.

Definition no_lists {A} (a b : list A) : Prop := a = [] /\ b = [].

Definition num_ok (p : pos) (k : numkind) (r : num_rules) : Prop :=
  wf_num k r /\
  (forall n, (n_const r = Some n \/ n_lt r = Some n \/ n_lte r = Some n \/ n_gt r = Some n \/
             n_gte r = Some n) -> num_lit_ok n = true) /\
  (p <> PTop -> no_lists (n_in r) (n_not_in r)) /\
  forallb num_lit_ok (n_in r ++ n_not_in r) = true /\
  nodupb num_eqb (map lit_num (n_in r)) = true /\ nodupb num_eqb (map lit_num (n_not_in r)) = true.

Definition str_ok (p : pos) (uuid : bool) (r : string_rules) : Prop :=
  lens_ok [s_len r; s_min_len r; s_max_len r; s_len_bytes r; s_min_bytes r; s_max_bytes r] /\
  (p = PKey \/ p = PVal -> no_lists (s_in r) (s_not_in r)) /\
  nodupb bytes_eqb (s_in r) = true /\ nodupb bytes_eqb (s_not_in r) = true /\
  (s_wk r = Some (WUuid true) -> uuid = true).

(** [wrapped]: the field is a BytesValue, whose tables would be keyed by []byte. *)
Definition byt_ok (p : pos) (wrapped : bool) (r : bytes_rules) : Prop :=
  lens_ok [b_len r; b_min_len r; b_max_len r] /\
  (p <> PTop \/ wrapped = true -> no_lists (b_in r) (b_not_in r)) /\
  (p <> PTop -> b_pattern r = None) /\
  forallb byte_str_ok (b_in r ++ b_not_in r) = true /\
  nodupb bytes_eqb (b_in r) = true /\ nodupb bytes_eqb (b_not_in r) = true.

Definition enum_ok (sc : schema) (p : pos) (e : string) (r : enum_rules) : Prop :=
  (p = PKey \/ p = PVal -> no_lists (e_in r) (e_not_in r)) /\
  nodupb Z.eqb (e_in r) = true /\ nodupb Z.eqb (e_not_in r) = true /\
  find_enum sc e <> None.

Definition any_ok (p : pos) (r : any_rules) : Prop :=
  (p <> PTop -> no_lists (a_in r) (a_not_in r)) /\
  nodupb bytes_eqb (a_in r) = true /\ nodupb bytes_eqb (a_not_in r) = true.

Definition dur_ok (p : pos) (r : duration_rules) : Prop :=
  (forall d, (d_const r = Some d \/ d_lt r = Some d \/ d_lte r = Some d \/ d_gt r = Some d \/
              d_gte r = Some d) -> dur_lit d <> None) /\
  (p <> PTop -> no_lists (d_in r) (d_not_in r)) /\
  nodupb Z.eqb (map as_duration (d_in r)) = true /\ nodupb Z.eqb (map as_duration (d_not_in r)) = true.

Definition ts_ok (r : timestamp_rules) : Prop :=
  forall d, t_within r = Some d -> dur_lit d <> None.

(** A rule on a value of (unwrapped) element type [e]. *)
Definition rule_ok (sc : schema) (p : pos) (wrapped : bool) (e : etype) (r : rule_type) : Prop :=
  match r, e with
  | RNum k r, TNum k' => k = k' /\ num_ok p k r
  | RBool _, TBool => True
  | RString r, TString => str_ok p (file_uuid sc) r
  | RBytes r, TBytes => byt_ok p wrapped r
  | REnum r, TEnum n => enum_ok sc p n r
  | RAny r, TAny => any_ok p r
  | RDuration r, TDur => dur_ok p r
  | RTimestamp r, TTs => ts_ok r
  | _, _ => False
  end.

(** Rules on a field, list item, map key or map value.  Rules on the wrapped value of a
    list or map element crash the generator. *)
Definition elem_ok (sc : schema) (p : pos) (e : etype) (fr : field_rules) : Prop :=
  match fr with
  | FR _ None => True
  | FR _ (Some r) =>
      match e with
      | TWrap w => p = PTop /\ rule_ok sc p true (wrapped_type w) r
      | _ => rule_ok sc p false e r
      end
  end.

Definition has_pattern (o : option field_rules) : bool :=
  match o with
  | Some (FR _ (Some (RString r))) => is_some (s_pattern r)
  | _ => false
  end.

Definition field_ok (sc : schema) (f : field) : Prop :=
  match f_type f, fr_typ (f_rules f) with
  | FOne e, _ => elem_ok sc PTop e (f_rules f)
  | FRep e, None => True
  | FRep e, Some (RRepeated r) =>
      lens_ok [r_min r; r_max r] /\ (getb (r_unique r) = true -> is_embed e = false) /\
      elem_ok sc PItem e (rules_or_none (r_items r))
  | FMap k v, None => True
  | FMap k v, Some (RMap r) =>
      lens_ok [p_min r; p_max r] /\ (getb (p_no_sparse r) = true -> is_embed v = true) /\
      elem_ok sc PKey k (rules_or_none (p_keys r)) /\ elem_ok sc PVal v (rules_or_none (p_values r)) /\
      (has_pattern (p_keys r) && has_pattern (p_values r) = false)
  | _, _ => False
  end.

Definition supported (sc : schema) : Prop :=
  NoDup (map fst (pkg_decls sc)) /\
  forall d, In d (sc_msgs sc) -> md_disabled d = false -> has_methods d = true ->
    Forall (field_ok sc) (all_fields d).
