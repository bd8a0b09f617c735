(** The rule messages of validate/validate.proto:37-863.  [option] is protobuf
    field presence (a Go pointer), lists are repeated fields. *)
From Verif Require Import Base Num.

(** FloatRules .. SFixed64Rules, validate.proto:69-499: twelve messages of one shape. *)
Record num_rules := mkNumRules {
  n_const : option num;
  n_lt : option num; n_lte : option num;
  n_gt : option num; n_gte : option num;
  n_in : list num; n_not_in : list num;
  n_ignore_empty : option bool
}.

(** KnownRegex, validate.proto:624-632.  [KROther]: an open-enum number
    without a name. *)
Inductive known_regex := KRUnknown | KRHeaderName | KRHeaderValue | KROther.

(** The well_known oneof of StringRules, validate.proto:560-607. *)
Inductive str_wk :=
| WEmail (b : bool) | WHostname (b : bool) | WIp (b : bool) | WIpv4 (b : bool)
| WIpv6 (b : bool) | WUri (b : bool) | WUriRef (b : bool) | WAddress (b : bool)
| WUuid (b : bool) | WRegex (k : known_regex).

(** StringRules, validate.proto:507-621. *)
Record string_rules := mkStringRules {
  s_const : option bytes;
  s_len : option N; s_min_len : option N; s_max_len : option N;
  s_len_bytes : option N; s_min_bytes : option N; s_max_bytes : option N;
  s_pattern : option bytes;
  s_prefix : option bytes; s_suffix : option bytes;
  s_contains : option bytes; s_not_contains : option bytes;
  s_in : list bytes; s_not_in : list bytes;
  s_wk : option str_wk;
  s_strict : option bool;
  s_ignore_empty : option bool
}.

(** The well_known oneof of BytesRules, validate.proto:676-689. *)
Inductive byt_wk := BIp (b : bool) | BIpv4 (b : bool) | BIpv6 (b : bool).

(** BytesRules, validate.proto:635-694. *)
Record bytes_rules := mkBytesRules {
  b_const : option bytes;
  b_len : option N; b_min_len : option N; b_max_len : option N;
  b_pattern : option bytes;
  b_prefix : option bytes; b_suffix : option bytes; b_contains : option bytes;
  b_in : list bytes; b_not_in : list bytes;
  b_wk : option byt_wk;
  b_ignore_empty : option bool
}.

(** EnumRules, validate.proto:697-712. *)
Record enum_rules := mkEnumRules {
  e_const : option Z; e_defined_only : option bool;
  e_in : list Z; e_not_in : list Z
}.

(** MessageRules, validate.proto:716-723. *)
Record message_rules := mkMessageRules { m_skip : option bool; m_required : option bool }.

(** AnyRules, validate.proto:779-790. *)
Record any_rules := mkAnyRules {
  a_required : option bool; a_in : list bytes; a_not_in : list bytes }.

(** google.protobuf.Duration / Timestamp messages: seconds and nanos. *)
Record sn := mkSN { sn_s : Z; sn_n : Z }.

(** DurationRules, validate.proto:794-824. *)
Record duration_rules := mkDurationRules {
  d_required : option bool; d_const : option sn;
  d_lt : option sn; d_lte : option sn; d_gt : option sn; d_gte : option sn;
  d_in : list sn; d_not_in : list sn }.

(** TimestampRules, validate.proto:828-863. *)
Record timestamp_rules := mkTimestampRules {
  t_required : option bool; t_const : option sn;
  t_lt : option sn; t_lte : option sn; t_gt : option sn; t_gte : option sn;
  t_lt_now : option bool; t_gt_now : option bool; t_within : option sn }.

(** RepeatedRules, validate.proto:726-748, over the type of item rules. *)
Record rep_rules (A : Type) := mkRepRules {
  r_min : option N; r_max : option N; r_unique : option bool;
  r_items : option A; r_ignore_empty : option bool }.
Arguments mkRepRules {A}. Arguments r_min {A}. Arguments r_max {A}.
Arguments r_unique {A}. Arguments r_items {A}. Arguments r_ignore_empty {A}.

(** MapRules, validate.proto:751-775. *)
Record map_rules (A : Type) := mkMapRules {
  p_min : option N; p_max : option N; p_no_sparse : option bool;
  p_keys : option A; p_values : option A; p_ignore_empty : option bool }.
Arguments mkMapRules {A}. Arguments p_min {A}. Arguments p_max {A}.
Arguments p_no_sparse {A}. Arguments p_keys {A}. Arguments p_values {A}.
Arguments p_ignore_empty {A}.

(** FieldRules, validate.proto:37-66: message rules plus a oneof. *)
Inductive field_rules := FR (msg : option message_rules) (typ : option rule_type)
with rule_type :=
| RNum (k : numkind) (r : num_rules)
| RBool (c : option bool)
| RString (r : string_rules)
| RBytes (r : bytes_rules)
| REnum (r : enum_rules)
| RRepeated (r : rep_rules field_rules)
| RMap (r : map_rules field_rules)
| RAny (r : any_rules)
| RDuration (r : duration_rules)
| RTimestamp (r : timestamp_rules).

Definition fr_msg (f : field_rules) : option message_rules := match f with FR m _ => m end.
Definition fr_typ (f : field_rules) : option rule_type := match f with FR _ t => t end.
Definition fr_none : field_rules := FR None None.

(** Empty rule messages. *)
Definition num_none : num_rules := mkNumRules None None None None None [] [] None.
Definition str_none : string_rules :=
  mkStringRules None None None None None None None None None None None None [] [] None None None.
Definition byt_none : bytes_rules :=
  mkBytesRules None None None None None None None None [] [] None None.
Definition dur_none : duration_rules := mkDurationRules None None None None None None [] [].
Definition ts_none : timestamp_rules :=
  mkTimestampRules None None None None None None None None None.
