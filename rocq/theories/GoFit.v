(** Which rules give code that compiles, in terms of the rules alone. *)
From Verif Require Import Base Num Rules Types Time GoIR GoGen GoSem Spec Wt GoType.
Local Open Scope string_scope.

(** Lengths that are printed: [len] hides the others. *)
Definition lens_fit (l mn mx : option N) : Prop :=
  match l with
  | Some n => int_fits n
  | None => (forall n, mn = Some n -> int_fits n) /\ (forall n, mx = Some n -> int_fits n)
  end.

Definition num_fit (p : pos) (r : num_rules) : Prop :=
  (forall n, (n_const r = Some n \/ n_lt r = Some n \/ n_lte r = Some n \/ n_gt r = Some n \/
             n_gte r = Some n) -> num_lit_ok n = true) /\
  (p <> PTop -> no_lists (n_in r) (n_not_in r)) /\
  forallb num_lit_ok (n_in r ++ n_not_in r) = true /\
  nodupb num_eqb (map lit_num (n_in r)) = true /\ nodupb num_eqb (map lit_num (n_not_in r)) = true.

Definition str_fit (p : pos) (uuid : bool) (r : string_rules) : Prop :=
  lens_fit (s_len r) (s_min_len r) (s_max_len r) /\
  lens_fit (s_len_bytes r) (s_min_bytes r) (s_max_bytes r) /\
  (p = PKey \/ p = PVal -> no_lists (s_in r) (s_not_in r)) /\
  nodupb bytes_eqb (s_in r) = true /\ nodupb bytes_eqb (s_not_in r) = true /\
  (s_wk r = Some (WUuid true) -> uuid = true).

Definition byt_fit (p : pos) (wrapped : bool) (r : bytes_rules) : Prop :=
  lens_fit (b_len r) (b_min_len r) (b_max_len r) /\
  (p <> PTop \/ wrapped = true -> no_lists (b_in r) (b_not_in r)) /\
  forallb byte_str_ok (b_in r ++ b_not_in r) = true /\
  nodupb bytes_eqb (b_in r) = true /\ nodupb bytes_eqb (b_not_in r) = true.

Definition enum_fit (p : pos) (r : enum_rules) : Prop :=
  (p = PKey \/ p = PVal -> no_lists (e_in r) (e_not_in r)) /\
  nodupb Z.eqb (e_in r) = true /\ nodupb Z.eqb (e_not_in r) = true.

(** The checker does not look at the type that any, duration and timestamp rules are put on. *)
Definition any_fit (p : pos) (t : gty) (r : any_rules) : Prop :=
  nilable t /\
  (no_lists (a_in r) (a_not_in r) \/
   t = GPtr TAny /\ p = PTop /\
   nodupb bytes_eqb (a_in r) = true /\ nodupb bytes_eqb (a_not_in r) = true).

Definition dur_idle (r : duration_rules) : Prop :=
  d_const r = None /\ d_lt r = None /\ d_lte r = None /\ d_gt r = None /\ d_gte r = None /\
  no_lists (d_in r) (d_not_in r).
Definition dur_fit (p : pos) (t : gty) (r : duration_rules) : Prop :=
  (getb (d_required r) = true -> nilable t) /\
  (dur_idle r \/ t = GPtr TDur /\ dur_ok p r).

Definition ts_idle (r : timestamp_rules) : Prop :=
  t_const r = None /\ t_lt r = None /\ t_lte r = None /\ t_gt r = None /\ t_gte r = None /\
  t_lt_now r = None /\ t_gt_now r = None /\ t_within r = None.
Definition ts_fit (t : gty) (r : timestamp_rules) : Prop :=
  (getb (t_required r) = true -> nilable t) /\
  (ts_idle r \/ t = GPtr TTs /\ ts_ok r).

(** Rules on a value of Go type [t]; [wrapped]: the value of a wrapper message. *)
Definition leaf_fit (uuid : bool) (p : pos) (wrapped : bool) (t : gty) (r : rule_type) : Prop :=
  match r with
  | RNum _ r => num_fit p r
  | RBool _ => True
  | RString r => str_fit p uuid r
  | RBytes r => byt_fit p wrapped r
  | REnum r => enum_fit p r
  | RAny r => any_fit p t r
  | RDuration r => dur_fit p t r
  | RTimestamp r => ts_fit t r
  | RRepeated _ | RMap _ => False
  end.

(** Rules that wrapper messages take for the value they hold. *)
Definition on_wrapped (e : etype) (r : rule_type) : bool :=
  match e, r with
  | TWrap _, (RNum _ _ | RBool _ | RString _ | RBytes _) => true
  | _, _ => false
  end.

Definition elem_fit (uuid : bool) (p : pos) (e : etype) (fr : option field_rules) : Prop :=
  match fr with
  | Some (FR _ (Some r)) =>
      if on_wrapped e r then p = PTop /\ leaf_fit uuid p true (go_type e) r
      else leaf_fit uuid p false (go_type e) r
  | _ => True
  end.

(** Does a rule lead to any check?  [true] constants of well-known rules and non-empty byte
    strings only. *)
Definition full (o : option bytes) : bool := match o with Some (_ :: _) => true | _ => false end.
Definition has_check (r : rule_type) : bool :=
  match r with
  | RNum _ r =>
      is_some (n_const r) || is_some (n_lt r) || is_some (n_lte r) || is_some (n_gt r)
      || is_some (n_gte r) || negb (is_nil (n_in r)) || negb (is_nil (n_not_in r))
  | RBool c => is_some c
  | RString r =>
      is_some (s_const r) || is_some (s_len r) || is_some (s_min_len r) || is_some (s_max_len r)
      || is_some (s_len_bytes r) || is_some (s_min_bytes r) || is_some (s_max_bytes r)
      || is_some (s_pattern r) || is_some (s_prefix r) || is_some (s_suffix r)
      || is_some (s_contains r) || is_some (s_not_contains r)
      || negb (is_nil (s_in r)) || negb (is_nil (s_not_in r))
      || match s_wk r with
         | Some (WEmail b | WHostname b | WIp b | WIpv4 b | WIpv6 b | WUri b | WUriRef b
                | WAddress b | WUuid b) => b
         | _ => false
         end
  | RBytes r =>
      full (b_const r) || is_some (b_len r) || is_some (b_min_len r) || is_some (b_max_len r)
      || is_some (b_pattern r) || full (b_prefix r) || full (b_suffix r) || full (b_contains r)
      || negb (is_nil (b_in r)) || negb (is_nil (b_not_in r))
      || match b_wk r with Some (BIp b | BIpv4 b | BIpv6 b) => b | None => false end
  | REnum r =>
      is_some (e_const r) || getb (e_defined_only r) || negb (is_nil (e_in r))
      || negb (is_nil (e_not_in r))
  | RAny r => getb (a_required r) || negb (is_nil (a_in r)) || negb (is_nil (a_not_in r))
  | RDuration r =>
      getb (d_required r) || is_some (d_const r) || is_some (d_lt r) || is_some (d_lte r)
      || is_some (d_gt r) || is_some (d_gte r) || negb (is_nil (d_in r)) || negb (is_nil (d_not_in r))
  | RTimestamp r =>
      getb (t_required r) || is_some (t_const r) || is_some (t_lt r) || is_some (t_lte r)
      || is_some (t_gt r) || is_some (t_gte r) || is_some (t_lt_now r) || is_some (t_gt_now r)
      || is_some (t_within r)
  | RRepeated _ | RMap _ => false
  end.

(** [ignore_empty] turns into a test of the value itself. *)
Definition tests_empty (r : rule_type) : bool :=
  match r with
  | RNum _ r => getb (n_ignore_empty r)
  | RString r => getb (s_ignore_empty r)
  | RBytes r => getb (b_ignore_empty r)
  | RAny _ => true
  | _ => false
  end.

(** Does the loop over a map mention the key?  Go rejects a loop that does not. *)
Definition msg_check (mr : option message_rules) : bool :=
  match mr with Some m => getb (m_required m) || negb (getb (m_skip m)) | None => true end.
Definition key_named (k v : etype) (r : map_rules field_rules) : bool :=
  getb (p_no_sparse r)
  || match p_keys r with
     | Some (FR _ (Some r)) => has_check r || tests_empty r
     | _ => false
     end
  || match p_values r with
     | Some (FR _ (Some r)) => has_check r
     | Some (FR mr None) => is_embed v && msg_check mr
     | None => is_embed v
     end.
(** Is there a loop at all? *)
Definition map_loops (v : etype) (r : map_rules field_rules) : bool :=
  getb (p_no_sparse r) || match p_keys r with Some (FR _ (Some _)) => true | _ => false end
  || match p_values r with Some (FR _ (Some _)) => true | _ => is_embed v end.

(** Patterns of byte strings inside lists and maps have no variable of their own.  For map
    values the code refers to that of the keys, if there is one. *)
Definition bytes_pattern (fr : option field_rules) : bool :=
  match fr with Some (FR _ (Some (RBytes r))) => is_some (b_pattern r) | _ => false end.

Definition counts_fit (mn mx : option N) : Prop :=
  (forall n, mn = Some n -> int_fits n) /\ (forall n, mx = Some n -> int_fits n).

Definition field_fit (uuid : bool) (f : field) : Prop :=
  match fr_typ (f_rules f), f_type f with
  | None, _ => True
  | Some (RRepeated r), FRep e =>
      counts_fit (r_min r) (r_max r) /\ elem_fit uuid PItem e (r_items r) /\
      bytes_pattern (r_items r) = false
  | Some (RMap r), FMap k v =>
      counts_fit (p_min r) (p_max r) /\
      elem_fit uuid PKey k (p_keys r) /\ elem_fit uuid PVal v (p_values r) /\
      has_pattern (p_keys r) && has_pattern (p_values r) = false /\
      (bytes_pattern (p_values r) = true -> has_pattern (p_keys r) = true) /\
      (map_loops v r = true -> key_named k v r = true)
  | Some _, FOne e => elem_fit uuid PTop e (Some (f_rules f))
  | Some r, t => leaf_fit uuid PTop false (go_ftype t) r
  end.

Definition go_fits (sc : schema) : Prop :=
  forall d, In d (sc_msgs sc) -> has_methods d = true -> md_disabled d = false ->
    Forall (field_fit (file_uuid sc)) (all_fields d).

(** * Names *)

(** [Outer_Inner_field]: the part of a lookup name that tells fields apart. *)
Definition paths (sc : schema) : list string :=
  flat_map (fun d => map (fun f => md_name d ++ "_" ++ f_name f) (all_fields d))
    (filter has_methods (sc_msgs sc)).
(** Types: messages, enums and the two error types of each message. *)
Definition type_names (sc : schema) : list string :=
  map md_name (sc_msgs sc) ++ map en_name (sc_enums sc) ++
  flat_map (fun d => [md_name d ++ "MultiError"; md_name d ++ "ValidationError"])
    (filter has_methods (sc_msgs sc)).
Definition exported (n : string) : Prop :=
  match n with String c _ => c <> "_"%char | EmptyString => True end.

(** A name without an underscore. *)
Definition plain_name (n : string) : Prop := forall a b, n <> a ++ "_" ++ b.

(** Rule values are of the rule's own type (as in any FieldRules message). *)
Definition rule_typed (r : rule_type) : Prop :=
  match r with
  | RNum k r => wf_num k r
  | REnum r => forall z, (e_const r = Some z \/ In z (e_in r) \/ In z (e_not_in r)) -> enum_fits z
  | _ => True
  end.
Definition rules_typed (fr : field_rules) : Prop :=
  match fr_typ fr with
  | Some (RRepeated r) =>
      forall r', fr_typ (rules_or_none (r_items r)) = Some r' -> rule_typed r'
  | Some (RMap r) =>
      forall r', (fr_typ (rules_or_none (p_keys r)) = Some r' \/
                  fr_typ (rules_or_none (p_values r)) = Some r') -> rule_typed r'
  | Some r => rule_typed r
  | None => True
  end.
Definition enum_known (sc : schema) (t : ftype) : Prop :=
  forall e, (t = FOne (TEnum e) \/ t = FRep (TEnum e) \/ exists k, t = FMap k (TEnum e)) ->
    In e (map en_name (sc_enums sc)).

(** [package re_ok sc0 sc]: the plugin accepts the schema [sc0] and generates code from its
    checked form [sc]; types and fields have distinct names, also after joining the name of a
    field to that of its message; disabled messages carry no field rules. *)
Record package (re_ok : bytes -> bool) (sc0 sc : schema) : Prop := mkPackage {
  pk_checked : Checker.check_schema re_ok sc0 = Some sc;
  pk_wf : wf_schema sc0;
  pk_types : NoDup (type_names sc);
  pk_exported : Forall exported (type_names sc);
  pk_paths : NoDup (paths sc);
  pk_typed : forall d f, In d (sc_msgs sc) -> In f (all_fields d) ->
    rules_typed (f_rules f) /\ enum_known sc (f_type f);
  pk_disabled : forall d f, In d (sc_msgs sc) -> md_disabled d = true -> In f (all_fields d) ->
    fr_typ (f_rules f) = None }.

(** * Code that compiles and does not do what the rules say *)

(** Rules for Any, Duration and Timestamp are on such a field (the checker does not look), and all lengths of byte strings
    fit an int, whether they are printed or not. *)
Definition apt (e : etype) (fr : option field_rules) : Prop :=
  match fr with
  | Some (FR _ (Some (RAny _))) => e = TAny
  | Some (FR _ (Some (RDuration _))) => e = TDur
  | Some (FR _ (Some (RTimestamp _))) => e = TTs
  | Some (FR _ (Some (RBytes r))) => forall n, In (Some n) [b_len r; b_min_len r; b_max_len r] -> int_fits n
  | _ => True
  end.
Definition field_apt (f : field) : Prop :=
  match f_type f, fr_typ (f_rules f) with
  | FOne e, _ => apt e (Some (f_rules f))
  | FRep e, Some (RRepeated r) => apt e (r_items r)
  | FMap k v, Some (RMap r) => apt k (p_keys r) /\ apt v (p_values r) /\ bytes_pattern (p_values r) = false
  | _, Some _ => False
  | _, None => True
  end.
Definition go_apt (sc : schema) : Prop :=
  forall d, In d (sc_msgs sc) -> has_methods d = true -> md_disabled d = false -> Forall field_apt (all_fields d).
