(** The rule conflicts and type mismatches the plugin must refuse, stated without
    reference to the checker: README.md ("Constraint Rules") and the messages
    of module/checker.go give the list. *)
From Verif Require Import Base Num Rules Types Iface Spec.

(** Where a rule stands: on a field, or on the items of a list or the keys or values of a map. *)
Inductive site := On_field (t : ftype) | On_elem (e : etype).

(** [stands s fr s' r]: the rules [fr], written at [s], contain the rule [r] at [s']. *)
Inductive stands : site -> field_rules -> site -> rule_type -> Prop :=
| stands_here s m r : stands s (FR m (Some r)) s r
| stands_items e m r it s' r' :
    r_items r = Some it -> stands (On_elem e) it s' r' ->
    stands (On_field (FRep e)) (FR m (Some (RRepeated r))) s' r'
| stands_keys k v m r it s' r' :
    p_keys r = Some it -> stands (On_elem k) it s' r' ->
    stands (On_field (FMap k v)) (FR m (Some (RMap r))) s' r'
| stands_values k v m r it s' r' :
    p_values r = Some it -> stands (On_elem v) it s' r' ->
    stands (On_field (FMap k v)) (FR m (Some (RMap r))) s' r'.

(** The site holds single values of type [e]. *)
Definition holds (s : site) (e : etype) : Prop := s = On_field (FOne e) \/ s = On_elem e.
(** ... or the google.protobuf wrapper of that scalar. *)
Definition holds_scalar (s : site) (e : etype) : Prop :=
  holds s e \/ exists w, holds s (TWrap w) /\ wrapped_type w = e.

(** Messages of any sort (as opposed to scalars and enums). *)
Definition message_type (e : etype) : Prop :=
  match e with TNum _ | TBool | TString | TBytes | TEnum _ => False | _ => True end.

(** The rule is for values of the site's type.  Deviation: Any, duration and timestamp rules
    are let through everywhere. *)
Definition fits (s : site) (r : rule_type) : Prop :=
  match r with
  | RNum k _ => holds_scalar s (TNum k)
  | RBool _ => holds_scalar s TBool
  | RString _ => holds_scalar s TString
  | RBytes _ => holds_scalar s TBytes
  | REnum _ => exists e, holds s (TEnum e)
  | RRepeated r => exists e, s = On_field (FRep e) /\ (r_unique r = Some true -> ~ message_type e)
  | RMap r => exists k v, s = On_field (FMap k v) /\ (p_no_sparse r = Some true -> message_type v)
  | RAny _ | RDuration _ | RTimestamp _ => True
  end.

(** Message rules: only on single message fields, other than Any, Duration and Timestamp, and
    [skip] not together with another rule. *)
Definition message_fits (t : ftype) (fr : field_rules) : Prop :=
  forall mr, fr_msg fr = Some mr ->
    ((exists m, t = FOne (TMsg m)) \/ (exists w, t = FOne (TWrap w))) /\
    ~ (fr_typ fr <> None /\ m_skip mr = Some true).

(** const, in, not_in and the four bounds, for values compared by [same]. *)
Inductive range_conflict {A} (same : A -> A -> Prop) (c lt lte gt gte : option A) (l nl : list A) : Prop :=
| const_with_other : c <> None ->
    (l <> [] \/ nl <> [] \/ lt <> None \/ lte <> None \/ gt <> None \/ gte <> None) ->
    range_conflict same c lt lte gt gte l nl
| in_with_not_in : l <> [] -> nl <> [] -> range_conflict same c lt lte gt gte l nl
| in_with_range : l <> [] -> (lt <> None \/ lte <> None \/ gt <> None \/ gte <> None) ->
    range_conflict same c lt lte gt gte l nl
| lt_with_lte : lt <> None -> lte <> None -> range_conflict same c lt lte gt gte l nl
| gt_with_gte : gt <> None -> gte <> None -> range_conflict same c lt lte gt gte l nl
| equal_bounds : forall a b, (lt = Some a \/ lte = Some a) -> (gt = Some b \/ gte = Some b) -> same a b ->
    range_conflict same c lt lte gt gte l nl.

(** A minimum above the maximum. *)
Definition min_above_max (mn mx : option N) : Prop := exists a b, mn = Some a /\ mx = Some b /\ (b < a)%N.

(** A required part of [n] characters or bytes that cannot fit below the maximum. *)
Definition part_too_long (count : bytes -> N -> Prop) (part : option bytes) (mx : option N) : Prop :=
  exists p n m, part = Some p /\ count p n /\ mx = Some m /\ (m < n)%N.

Section Conflict.
Variable re_ok : bytes -> bool.
Variable sc : schema.

Inductive string_conflict (r : string_rules) : Prop :=
| sc_len : s_len r <> None -> (s_min_len r <> None \/ s_max_len r <> None) -> string_conflict r
| sc_len_bytes : s_len_bytes r <> None -> (s_min_bytes r <> None \/ s_max_bytes r <> None) -> string_conflict r
| sc_min_max : min_above_max (s_min_len r) (s_max_len r) -> string_conflict r
| sc_min_max_bytes : min_above_max (s_min_bytes r) (s_max_bytes r) -> string_conflict r
| sc_max_len_bytes : min_above_max (s_max_len r) (s_max_bytes r) -> string_conflict r
| sc_in_not_in : s_in r <> [] -> s_not_in r <> [] -> string_conflict r
| sc_pattern_known k : s_wk r = Some (WRegex k) -> k <> KRUnknown -> s_pattern r <> None -> string_conflict r
| sc_known_in k : s_wk r = Some (WRegex k) -> (k = KRHeaderName \/ k = KRHeaderValue) -> s_in r <> [] -> string_conflict r
| sc_pattern_in : s_pattern r <> None -> s_in r <> [] -> string_conflict r
| sc_pattern_bad p : s_pattern r = Some p -> re_ok p = false -> string_conflict r
| sc_part_chars p : (p = s_prefix r \/ p = s_suffix r \/ p = s_contains r) ->
    part_too_long chars_count p (s_max_len r) -> string_conflict r
| sc_part_bytes p : (p = s_prefix r \/ p = s_suffix r \/ p = s_contains r) ->
    part_too_long bytes_count p (s_max_bytes r) -> string_conflict r.

Inductive bytes_conflict (r : bytes_rules) : Prop :=
| bc_min_max : min_above_max (b_min_len r) (b_max_len r) -> bytes_conflict r
| bc_in_not_in : b_in r <> [] -> b_not_in r <> [] -> bytes_conflict r
| bc_pattern_in : b_pattern r <> None -> b_in r <> [] -> bytes_conflict r
| bc_pattern_bad p : b_pattern r = Some p -> re_ok p = false -> bytes_conflict r
| bc_part p : (p = b_prefix r \/ p = b_suffix r \/ p = b_contains r) ->
    part_too_long bytes_count p (b_max_len r) -> bytes_conflict r.

Inductive enum_conflict (e : string) (r : enum_rules) : Prop :=
| ec_in_not_in : e_in r <> [] -> e_not_in r <> [] -> enum_conflict e r
| ec_undefined z : e_defined_only r = Some true -> In z (e_in r) -> ~ defined sc e z -> enum_conflict e r.

(** Durations are compared by their exact length. *)
Inductive duration_conflict (r : duration_rules) : Prop :=
| dc_invalid d : ~ valid_duration d ->
    (In d (d_in r) \/ In d (d_not_in r) \/ In (Some d) [d_const r; d_lt r; d_lte r; d_gt r; d_gte r]) ->
    duration_conflict r
| dc_range : range_conflict (fun a b => nanos a = nanos b)
      (d_const r) (d_lt r) (d_lte r) (d_gt r) (d_gte r) (d_in r) (d_not_in r) -> duration_conflict r.

Inductive timestamp_conflict (r : timestamp_rules) : Prop :=
| tc_invalid t : ~ valid_timestamp t ->
    In (Some t) [t_const r; t_lt r; t_lte r; t_gt r; t_gte r] -> timestamp_conflict r
| tc_within d : t_within r = Some d -> (~ valid_duration d \/ nanos d <= 0)%Z -> timestamp_conflict r
| tc_range : range_conflict (fun a b => nanos a = nanos b)
      (t_const r) (t_lt r) (t_lte r) (t_gt r) (t_gte r) [] [] -> timestamp_conflict r
| tc_now_absolute : (t_lt_now r <> None \/ t_gt_now r <> None \/ t_within r <> None) ->
    (t_lt r <> None \/ t_lte r <> None \/ t_gt r <> None \/ t_gte r <> None) -> timestamp_conflict r
| tc_now_now : t_lt_now r <> None -> t_gt_now r <> None -> timestamp_conflict r.

(** The rule, standing at [s], conflicts with itself. *)
Definition conflict (s : site) (r : rule_type) : Prop :=
  match r with
  | RNum _ r => range_conflict neq (n_const r) (n_lt r) (n_lte r) (n_gt r) (n_gte r) (n_in r) (n_not_in r)
  | RBool _ => False
  | RString r => string_conflict r
  | RBytes r => bytes_conflict r
  | REnum r => exists e, holds s (TEnum e) /\ enum_conflict e r
  | RRepeated r => min_above_max (r_min r) (r_max r)
  | RMap r => min_above_max (p_min r) (p_max r)
  | RAny r => a_in r <> [] /\ a_not_in r <> []
  | RDuration r => duration_conflict r
  | RTimestamp r => timestamp_conflict r
  end.

(** Numbers of ordinary size: maximal lengths below 2^63, and durations and timestamps whose
    nanoseconds fit an int64 (about 292 years around 0 and around 1970). *)
Definition small_max (mx : option N) : Prop := forall m, mx = Some m -> (m < 2^63)%N.
Definition small_time (t : option sn) : Prop := forall d, t = Some d -> (- 2^63 < nanos d < 2^63 - 1)%Z.
Definition ordinary (r : rule_type) : Prop :=
  match r with
  | RString r => small_max (s_max_len r) /\ small_max (s_max_bytes r)
  | RBytes r => small_max (b_max_len r)
  | RDuration r => small_time (d_const r) /\ small_time (d_lt r) /\ small_time (d_lte r) /\
                   small_time (d_gt r) /\ small_time (d_gte r)
  | RTimestamp r => small_time (t_const r) /\ small_time (t_lt r) /\ small_time (t_lte r) /\
                    small_time (t_gt r) /\ small_time (t_gte r)
  | _ => True
  end.

(** All rules of a schema that the checker looks at: those of messages not disabled. *)
Definition rule_in (s : site) (r : rule_type) : Prop :=
  exists m f, In m (sc_msgs sc) /\ md_disabled m = false /\ In f (all_fields m) /\
    stands (On_field (f_type f)) (f_rules f) s r.

(** The schema is free of conflicts and mismatches. *)
Definition consistent : Prop :=
  (forall s r, rule_in s r -> fits s r /\ ~ conflict s r) /\
  (forall m f, In m (sc_msgs sc) -> md_disabled m = false -> In f (all_fields m) ->
     message_fits (f_type f) (f_rules f)).

End Conflict.
