(** A fragment of the rules that all four languages implement: signed integers, strings, booleans, enums, lists of these,
    embedded messages, and counts of map entries. *)
From Coq Require Import Floats.SpecFloat.
From Verif Require Import Base Utf8 Num Rules Types Iface Checker Spec Meaning LitSpec Wt GoSem Setting GoFit Values Outcome CcSpec Py PySpec.

(** ** Constants *)

(** Printable ASCII without quotes, backslash and question mark, and something. *)
Definition common_text (s : bytes) : Prop :=
  Forall (fun c => 32 <= c < 127 /\ c <> 34 /\ c <> 39 /\ c <> 92 /\ c <> 63)%N s /\ s <> [].
(** Lengths and counts. *)
Definition common_size (o : option N) : Prop := forall n, o = Some n -> (0 < n < 2^31)%N.
Definition signed (k : numkind) : Prop := In k [KInt32; KInt64; KSInt32; KSInt64; KSFixed32; KSFixed64].

(** ** Rules *)
Definition common_num (k : numkind) (r : num_rules) : Prop :=
  signed k /\
  (forall n, (n_const r = Some n \/ n_lt r = Some n \/ n_lte r = Some n \/ n_gt r = Some n \/ n_gte r = Some n \/
              In n (n_in r) \/ In n (n_not_in r)) -> exists z, n = NI z /\ num_of_kind k n = true /\ z <> (- 2^63)%Z) /\
  NoDup (n_in r) /\ NoDup (n_not_in r) /\ n_ignore_empty r <> Some false.

Definition common_str (r : string_rules) : Prop :=
  (forall s, (s_const r = Some s \/ s_prefix r = Some s \/ s_suffix r = Some s \/ s_contains r = Some s \/
              s_not_contains r = Some s \/ In s (s_in r) \/ In s (s_not_in r)) -> common_text s) /\
  Forall common_size [s_len r; s_min_len r; s_max_len r; s_len_bytes r; s_min_bytes r; s_max_bytes r] /\
  NoDup (s_in r) /\ NoDup (s_not_in r) /\ s_pattern r = None /\ s_wk r = None.

Definition common_enum (sc : schema) (e : string) (r : enum_rules) : Prop :=
  find_enum sc e <> None /\
  (forall z, (e_const r = Some z \/ In z (e_in r) \/ In z (e_not_in r)) -> defined sc e z) /\
  NoDup (e_in r) /\ NoDup (e_not_in r) /\ e_const r <> Some 0%Z.

(** There is something to check, see [idle]. *)
Definition common_rule (sc : schema) (e : etype) (r : rule_type) : Prop :=
  ~ idle r /\
  match r, e with
  | RNum k r, TNum k' => k = k' /\ common_num k r
  | RBool c, TBool => c <> None
  | RString r, TString => common_str r
  | REnum r, TEnum n => common_enum sc n r
  | _, _ => False
  end.

(** A string with [ignore_empty]. *)
Definition empty_ignored (r : rule_type) : Prop := match r with RString r => s_ignore_empty r = Some true | _ => False end.
(** [inside]: an item of a list; numbers have no in-lists there, and strings no [ignore_empty]. *)
Definition common_elem (sc : schema) (inside : bool) (e : etype) (fr : field_rules) : Prop :=
  match fr with
  | FR None None => True
  | FR None (Some r) => common_rule sc e r /\ (inside = true -> (forall k r', r = RNum k r' -> no_lists (n_in r') (n_not_in r')) /\ ~ empty_ignored r)
  | FR (Some mr) None =>
      inside = false /\ (exists n, e = TMsg n) /\ (m_skip mr <> None \/ m_required mr <> None) /\
      ~ (m_skip mr = Some true /\ m_required mr = Some true)
  | _ => False
  end.

Definition common_field (sc : schema) (f : field) : Prop :=
  match f_type f, f_rules f with
  | FOne e, fr => common_elem sc false e fr
  | (FRep _ | FMap _ _), FR None None => True
  | FRep e, FR None (Some (RRepeated r)) =>
      common_size (r_min r) /\ common_size (r_max r) /\
      (r_unique r = Some true -> e = TString \/ exists k, e = TNum k /\ signed k) /\
      (r_min r <> None \/ r_max r <> None \/ r_unique r = Some true \/ fr_typ (inner (r_items r)) <> None) /\
      common_elem sc true e (inner (r_items r))
  | FMap _ _, FR None (Some (RMap r)) =>
      common_size (p_min r) /\ common_size (p_max r) /\ (p_min r <> None \/ p_max r <> None) /\
      p_no_sparse r <> Some true /\ p_keys r = None /\ p_values r = None
  | _, _ => False
  end.

(** All messages are validated; strings in oneofs have no [ignore_empty]; the fields of disabled messages have no rules; enums have 32-bit numbers, and are declared. *)
Definition common (sc : schema) : Prop :=
  (forall e, In e (sc_enums sc) -> Forall (fun z => - 2^31 <= z < 2^31)%Z (en_values e)) /\
  forall d, In d (sc_msgs sc) ->
    md_methods d = MBoth /\ Forall (common_field sc) (all_fields d) /\
    (md_disabled d = true -> Forall (fun f => f_rules f = no_rules) (all_fields d)) /\
    Forall (fun f => enum_known sc (f_type f)) (all_fields d) /\
    forall o f mr r, In o (md_oneofs d) -> In f (o_fields o) -> f_rules f = FR mr (Some r) -> ~ empty_ignored r.

(** ** Values: strings are UTF-8, there are no absent messages in lists and maps.  (Integers are integers by their type.) *)
Definition common_value (inside uniq : bool) (e : etype) (fr : field_rules) (v : value) : Prop :=
  (inside = true -> is_set v) /\ (e = TString -> exists s, v = VStr s /\ valid_utf8 s) /\
  (forall k, e = TNum k -> signed k -> exists z, v = VNum (NI z)).
Definition common_values (sc : schema) (n : string) (m : msgval) : Prop := all_values sc common_value n m.

(** ** Four verdicts *)

(** [g], [j], [c] and [p]: what the validation in Go, Java, C++ and Python ends with, of a message that satisfies its rules if
    [ok].  All four accept, or all four reject; nothing else happens. *)
Definition one_verdict (ok : Prop) (g : vres) (j c p : outcome) : Prop :=
  (ok /\ g = VNil /\ j = Passes /\ c = Passes /\ p = Passes) \/
  (~ ok /\ (exists e, g = VErr e) /\ j = Rejects /\ c = Rejects /\ p = Rejects).

(** The assumptions of [one_verdict_on_common]: the plugin accepts the well-formed schema [sc0], which is in the fragment, and
    whose names make sense in Go and Python. *)
Record common_setting (re_ok : bytes -> bool) (sc0 sc : schema) (orc : oracles) (pl : py_libs) (pn : py_names) : Prop := mkCommonSetting {
  co_checked : check_schema re_ok sc0 = Some sc;
  co_wf : wf_schema sc0;
  co_orc : oracle_ok orc;
  (** names of Go types *)
  co_types : NoDup (type_names sc);
  co_exported : Forall exported (type_names sc);
  co_paths : NoDup (paths sc);
  co_common : common sc;
  (** int(h, 16) *)
  co_hex : forall h, List.length h = 32 -> Forall hexdig h -> pl_int16 pl h = true;
  (** no type is one of google.protobuf, in an ignored file, or a map entry *)
  co_google : forall n, validated_type sc0 n = true -> String.prefix "google.protobuf" (pn_full pn n) = false;
  co_ignored : forall n, pn_ignored pn n = false;
  co_entry : forall n, pn_entry pn n = false }.
