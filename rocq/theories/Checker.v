(** module/checker.go: the rules checker run before generation.

    [m.Failf], [m.Assert] and [m.CheckErr] terminate the plugin: [None].  An accepted
    message yields its rules again, with [StringRules.Pattern] filled in from
    [well_known_regex] (checker.go:468-479 writes through the shared pointer, and the
    templates read the same message later). *)
From Verif Require Import Base Utf8 Num Rules Types Time Iface.
Local Open Scope N_scope.

Definition guard {A} (b : bool) (k : option A) : option A := if b then k else None.

(** [int(x)] of a uint64 on a 64-bit platform. *)
Definition to_int (n : N) : Z := wrap64 (Z.of_N n).

Section WithRegex.
(** Does [regexp.Compile] accept this pattern? *)
Variable re_ok : bytes -> bool.

(** checkIns, checker.go:438-442. *)
Definition check_ins (i ni : nat) : bool := (i =? 0)%nat || (ni =? 0)%nat.

(** checkMinMax, checker.go:444-452. *)
Definition check_min_max (mn mx : option N) : bool :=
  match mn, mx with Some a, Some b => a <=? b | _, _ => true end.

(** checkLen, checker.go:454-466. *)
Definition check_len (l mn mx : option N) : bool :=
  match l with None => true | Some _ => is_none mn && is_none mx end.

(** checkNums, checker.go:393-436, over any type with the equality that
    [reflect.DeepEqual] has on the pointed-to values. *)
Definition check_nums {A} (eqA : A -> A -> bool) (i ni : nat) (c lt lte gt gte : option A) : bool :=
  check_ins i ni
  && (is_none c || ((i =? 0)%nat && (ni =? 0)%nat && is_none lt && is_none lte
                      && is_none gt && is_none gte))
  && ((i =? 0)%nat || (is_none lt && is_none lte && is_none gt && is_none gte))
  && (is_none lt || is_none lte)
  && (is_none gt || is_none gte)
  && match lt, lte with
     | Some l, _ =>
         (match gt with None => true | Some g => negb (eqA l g) end)
         && (match gte with None => true | Some g => negb (eqA l g) end)
     | None, Some l =>
         (match gt with None => true | Some g => negb (eqA l g) end)
         && (match gte with None => true | Some g => negb (eqA l g) end)
     | None, None => true
     end.

(** CheckFloat .. CheckSFixed64, checker.go:157-203. *)
Definition check_num (r : num_rules) : bool :=
  check_nums num_eqb (List.length (n_in r)) (List.length (n_not_in r))
    (n_const r) (n_lt r) (n_lte r) (n_gt r) (n_gte r).

(** checkPattern, checker.go:481-487. *)
Definition check_pattern (p : option bytes) (i : nat) : bool :=
  match p with None => true | Some p => (i =? 0)%nat && re_ok p end.

(** GetWellKnownRegex: zero unless that oneof member is set. *)
Definition get_wkr (r : string_rules) : known_regex :=
  match s_wk r with Some (WRegex k) => k | _ => KRUnknown end.

Definition set_pattern (r : string_rules) (p : option bytes) : string_rules :=
  mkStringRules (s_const r) (s_len r) (s_min_len r) (s_max_len r) (s_len_bytes r)
    (s_min_bytes r) (s_max_bytes r) p (s_prefix r) (s_suffix r) (s_contains r)
    (s_not_contains r) (s_in r) (s_not_in r) (s_wk r) (s_strict r) (s_ignore_empty r).

(** checkWellKnownRegex, checker.go:468-479.  [wk.String()] of an unnamed number is
    the number, which is not in [regex_map]: nil. *)
Definition check_wkr (r : string_rules) : option string_rules :=
  match get_wkr r with
  | KRUnknown => Some r
  | k =>
      guard (is_none (s_pattern r))
        (let non_strict := match s_strict r with Some false => true | _ => false end in
         Some (set_pattern r
           (match k with
            | KRHeaderName => Some (if non_strict then re_header_string else re_header_name)
            | KRHeaderValue => Some (if non_strict then re_header_string else re_header_value)
            | _ => None
            end)))
  end.

(** CheckString, checker.go:205-231. *)
Definition check_string (r0 : string_rules) : option string_rules :=
  guard (check_len (s_len r0) (s_min_len r0) (s_max_len r0)
         && check_len (s_len_bytes r0) (s_min_bytes r0) (s_max_bytes r0)
         && check_min_max (s_min_len r0) (s_max_len r0)
         && check_min_max (s_min_bytes r0) (s_max_bytes r0)
         && check_ins (List.length (s_in r0)) (List.length (s_not_in r0)))
  (match check_wkr r0 with
   | None => None
   | Some r =>
     guard (check_pattern (s_pattern r) (List.length (s_in r))
       && match s_max_len r with
          | None => true
          | Some mx =>
              let m := to_int mx in
              (Z.of_N (rune_count (getbs (s_prefix r))) <=? m)%Z
              && (Z.of_N (rune_count (getbs (s_suffix r))) <=? m)%Z
              && (Z.of_N (rune_count (getbs (s_contains r))) <=? m)%Z
              && match s_max_bytes r with None => true | Some mb => mx <=? mb end
          end
       && match s_max_bytes r with
          | None => true
          | Some mx =>
              let m := to_int mx in
              (Z.of_N (blen (getbs (s_prefix r))) <=? m)%Z
              && (Z.of_N (blen (getbs (s_suffix r))) <=? m)%Z
              && (Z.of_N (blen (getbs (s_contains r))) <=? m)%Z
          end)
     (Some r)
   end).

(** CheckBytes, checker.go:233-244. *)
Definition check_bytes (r : bytes_rules) : bool :=
  check_min_max (b_min_len r) (b_max_len r)
  && check_ins (List.length (b_in r)) (List.length (b_not_in r))
  && check_pattern (b_pattern r) (List.length (b_in r))
  && match b_max_len r with
     | None => true
     | Some mx =>
         let m := to_int mx in
         (Z.of_N (blen (getbs (b_prefix r))) <=? m)%Z
         && (Z.of_N (blen (getbs (b_suffix r))) <=? m)%Z
         && (Z.of_N (blen (getbs (b_contains r))) <=? m)%Z
     end.

(** CheckEnum, checker.go:246-271; [vals] are the numbers the enum defines. *)
Definition check_enum (vals : list Z) (r : enum_rules) : bool :=
  check_ins (List.length (e_in r)) (List.length (e_not_in r))
  && (if getb (e_defined_only r) && negb (is_nil (e_in r))
      then forallb (fun z => existsb (Z.eqb z) vals) (e_in r) else true).

(** CheckAny, checker.go:333-335 (the field type is not looked at). *)
Definition check_any (r : any_rules) : bool :=
  check_ins (List.length (a_in r)) (List.length (a_not_in r)).

(** checkDur, checker.go:489-497, and checkTS, 499-507: validity, then the value
    compared by checkNums. *)
Definition check_dur_ok (d : option sn) : bool :=
  match d with None => true | Some d => is_none (dur_check d) end.
Definition check_ts_ok (t : option sn) : bool :=
  match t with None => true | Some t => is_none (ts_check t) end.
Definition ts_nano (t : sn) : Z := unix_nano (instant t).

(** CheckDuration, checker.go:337-356. *)
Definition check_duration (r : duration_rules) : bool :=
  check_dur_ok (d_const r) && check_dur_ok (d_lt r) && check_dur_ok (d_lte r)
  && check_dur_ok (d_gt r) && check_dur_ok (d_gte r)
  && check_nums Z.eqb (List.length (d_in r)) (List.length (d_not_in r))
       (option_map as_duration (d_const r)) (option_map as_duration (d_lt r))
       (option_map as_duration (d_lte r)) (option_map as_duration (d_gt r))
       (option_map as_duration (d_gte r))
  && forallb (fun d => is_none (dur_check d)) (d_in r)
  && forallb (fun d => is_none (dur_check d)) (d_not_in r).

(** CheckTimestamp, checker.go:358-382. *)
Definition check_timestamp (r : timestamp_rules) : bool :=
  let no_abs := is_none (t_lt r) && is_none (t_lte r) && is_none (t_gt r) && is_none (t_gte r) in
  check_ts_ok (t_const r) && check_ts_ok (t_lt r) && check_ts_ok (t_lte r)
  && check_ts_ok (t_gt r) && check_ts_ok (t_gte r)
  && check_nums Z.eqb 0 0
       (option_map ts_nano (t_const r)) (option_map ts_nano (t_lt r))
       (option_map ts_nano (t_lte r)) (option_map ts_nano (t_gt r))
       (option_map ts_nano (t_gte r))
  && ((is_none (t_lt_now r) && is_none (t_gt_now r)) || no_abs)
  && (is_none (t_within r) || no_abs)
  && (is_none (t_lt_now r) || is_none (t_gt_now r))
  && match t_within r with
     | None => true
     | Some d => is_none (dur_check d) && (0 <? as_duration d)%Z
     end.

(** MustType, checker.go:138-155, for an element type: the rule's scalar type [t], or
    the wrapper of it where a wrapper was given. *)
Definition wrapper_of (t : etype) : option wrapkind :=
  match t with
  | TNum KFloat => Some WkFloat | TNum KDouble => Some WkDouble
  | TNum KInt32 => Some WkInt32 | TNum KInt64 => Some WkInt64
  | TNum KUInt32 => Some WkUInt32 | TNum KUInt64 => Some WkUInt64
  | TBool => Some WkBool | TString => Some WkString | TBytes => Some WkBytes
  | _ => None
  end.

Definition wrapkind_eqb (a b : wrapkind) : bool :=
  match a, b with
  | WkDouble, WkDouble | WkFloat, WkFloat | WkInt64, WkInt64 | WkUInt64, WkUInt64
  | WkInt32, WkInt32 | WkUInt32, WkUInt32 | WkBool, WkBool | WkString, WkString
  | WkBytes, WkBytes => true
  | _, _ => false
  end.

(** Equality of [ProtoType()] (all messages are MessageT, all enums EnumT). *)
Definition same_proto (a b : etype) : bool :=
  match a, b with
  | TNum k, TNum k' => numkind_eqb k k'
  | TBool, TBool | TString, TString | TBytes, TBytes | TEnum _, TEnum _ => true
  | _, _ => is_embed a && is_embed b
  end.

Definition must_type (e : etype) (t : etype) : bool :=
  match e with
  | TWrap w =>
      match wrapper_of t with
      | Some w' => wrapkind_eqb w w'
      | None => is_embed t
      end
  | _ => same_proto e t
  end.

(** What CheckFieldRules sees: a field type or an element type.  An element does not
    implement pgs.FieldType, so [mustFieldType] (checker.go:384-391) fails on it. *)
Inductive ctype := CField (f : ftype) | CElem (e : etype).

Definition must_type_c (c : ctype) (t : etype) : bool :=
  match c with
  | CField (FOne e) | CElem e => must_type e t
  | CField (FRep _) => false
  | CField (FMap _ _) => is_embed t      (* a map field's ProtoType is MessageT *)
  end.

Variable sc : schema.

Definition enum_vals (c : ctype) : list Z :=
  match c with
  | CField (FOne (TEnum e)) | CElem (TEnum e) =>
      match find_enum sc e with Some d => en_values d | None => [] end
  | _ => []
  end.

(** CheckFieldRules, checker.go:69-136, with CheckRepeated (292-308) and CheckMap
    (310-331). *)
Fixpoint check_fr (c : ctype) (fr : field_rules) {struct fr} : option field_rules :=
  match fr with
  | FR m ty =>
    match ty with
    | None => Some fr
    | Some (RNum k r) =>
        guard (must_type_c c (TNum k) && check_num r) (Some fr)
    | Some (RBool _) => guard (must_type_c c TBool) (Some fr)
    | Some (RString r) =>
        guard (must_type_c c TString)
          (match check_string r with
           | Some r' => Some (FR m (Some (RString r')))
           | None => None
           end)
    | Some (RBytes r) => guard (must_type_c c TBytes && check_bytes r) (Some fr)
    | Some (REnum r) =>
        guard (must_type_c c (TEnum "") && check_enum (enum_vals c) r) (Some fr)
    | Some (RRepeated r) =>
        match c with
        | CField (FRep e) =>
            guard (check_min_max (r_min r) (r_max r)
                   && (negb (getb (r_unique r)) || negb (is_embed e)))
              (match r with
               | mkRepRules mn mx u (Some it) ie =>
                   match check_fr (CElem e) it with
                   | Some it' => Some (FR m (Some (RRepeated (mkRepRules mn mx u (Some it') ie))))
                   | None => None
                   end
               | mkRepRules _ _ _ None _ => Some fr
               end)
        | _ => None
        end
    | Some (RMap r) =>
        match c with
        | CField (FMap k v) =>
            guard (check_min_max (p_min r) (p_max r)
                   && (negb (getb (p_no_sparse r)) || is_embed v))
              (match r with
               | mkMapRules mn mx ns ks vs ie =>
                   match (match ks with None => Some None
                          | Some ks => option_map Some (check_fr (CElem k) ks) end),
                         (match vs with None => Some None
                          | Some vs => option_map Some (check_fr (CElem v) vs) end) with
                   | Some ks', Some vs' =>
                       Some (FR m (Some (RMap (mkMapRules mn mx ns ks' vs' ie))))
                   | _, _ => None
                   end
               end)
        | _ => None
        end
    | Some (RAny r) => guard (check_any r) (Some fr)
    | Some (RDuration r) => guard (check_duration r) (Some fr)
    | Some (RTimestamp r) => guard (check_timestamp r) (Some fr)
    end
  end.

(** MustType(MessageT, UnknownWKT) followed by CheckMessage, checker.go:58-61 and
    273-290. *)
Definition check_message (t : ftype) (fr : field_rules) : bool :=
  match fr_msg fr with
  | None => true
  | Some mr =>
      match t with
      | FOne (TMsg _) | FOne (TWrap _) =>
          negb (is_some (fr_typ fr) && getb (m_skip mr))
      | _ => false
      end
  end.

Definition check_field (f : field) : option field :=
  guard (check_message (f_type f) (f_rules f))
    (match check_fr (CField (f_type f)) (f_rules f) with
     | Some fr => Some (mkField (f_name f) (f_type f) fr)
     | None => None
     end).

Fixpoint map_opt {A B} (f : A -> option B) (l : list A) : option (list B) :=
  match l with
  | [] => Some []
  | x :: t => match f x, map_opt f t with
              | Some y, Some t' => Some (y :: t')
              | _, _ => None
              end
  end.

Definition check_oneof (o : oneof) : option oneof :=
  match map_opt check_field (o_fields o) with
  | Some fs => Some (mkOneof (o_name o) fs (o_required o))
  | None => None
  end.

(** CheckRules, checker.go:38-67. *)
Definition check_msg (m : msgdesc) : option msgdesc :=
  if md_disabled m then Some m
  else match map_opt check_field (md_fields m), map_opt check_oneof (md_oneofs m) with
       | Some fs, Some os => Some (mkMsg (md_name m) fs os (md_disabled m) (md_methods m))
       | _, _ => None
       end.

Definition check_schema : option schema :=
  match map_opt check_msg (sc_msgs sc) with
  | Some ms => Some (mkSchema ms (sc_enums sc) (sc_top sc))
  | None => None
  end.

End WithRegex.
