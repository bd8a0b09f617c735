(** Schemas with rules that C++ or Java do not implement: rule_comparison.md of /repo.  Without those rules they
    must be in the fragments of CcSpec.v and JavaSpec.v. *)
From Verif Require Import Base Num Rules Types Iface Checker Spec Meaning LitSpec Wt Values Outcome Java JavaSpec Cc CcSpec.

(** [r] without what the C++ code does not implement: the formats email, uri and uri_ref of strings, all formats of
    bytes, and all rules for timestamps but [required]. *)
Definition cc_part (r : rule_type) : rule_type :=
  match r with
  | RString s =>
      match s_wk s with
      | Some (WEmail true) | Some (WUri true) | Some (WUriRef true) =>
          RString (mkStringRules (s_const s) (s_len s) (s_min_len s) (s_max_len s) (s_len_bytes s) (s_min_bytes s) (s_max_bytes s)
            (s_pattern s) (s_prefix s) (s_suffix s) (s_contains s) (s_not_contains s) (s_in s) (s_not_in s) None (s_strict s) (s_ignore_empty s))
      | _ => r
      end
  | RBytes b =>
      RBytes (mkBytesRules (b_const b) (b_len b) (b_min_len b) (b_max_len b) (b_pattern b) (b_prefix b) (b_suffix b) (b_contains b)
        (b_in b) (b_not_in b) None (b_ignore_empty b))
  | RTimestamp t => RTimestamp (mkTimestampRules (t_required t) None None None None None None None None)
  | _ => r
  end.

(** For all the rules of a field; [no_sparse] for maps is not implemented either. *)
Definition leaf_part (part : rule_type -> rule_type) (fr : field_rules) : field_rules :=
  match fr with FR mr (Some r) => FR mr (Some (part r)) | FR mr None => fr end.
Definition field_part (part : rule_type -> rule_type) (f : field) : field :=
  mkField (f_name f) (f_type f)
    (match f_rules f with
     | FR mr (Some (RRepeated r)) =>
         FR mr (Some (RRepeated (mkRepRules (r_min r) (r_max r) (r_unique r) (option_map (leaf_part part) (r_items r)) (r_ignore_empty r))))
     | FR mr (Some (RMap r)) =>
         FR mr (Some (RMap (mkMapRules (p_min r) (p_max r) None (option_map (leaf_part part) (p_keys r)) (option_map (leaf_part part) (p_values r))
           (p_ignore_empty r))))
     | fr => leaf_part part fr
     end).

(** The implemented part of the rules is in the fragment. *)
Definition cc_partly (cl : cc_libs) (sc : schema) : Prop :=
  forall d, In d (sc_msgs sc) -> active d = true -> Forall (fun f => cc_field_ok cl (field_part cc_part f)) (all_fields d).
(** Java implements all rules but [no_sparse]. *)
Definition java_partly (ignored : string -> bool) (sc : schema) : Prop :=
  forall d, In d (sc_msgs sc) -> active d = true -> Forall (fun f => java_field sc ignored (field_part (fun r => r) f)) (all_fields d).

(** ** The assumptions of the theorems *)
Record cc_part_setting (re_ok : bytes -> bool) (sc0 sc : schema) (orc : oracles) (cl : cc_libs) : Prop := mkCcPart {
  cps_checked : check_schema re_ok sc0 = Some sc;
  cps_wf : wf_schema sc0;
  cps_orc : oracle_ok orc;
  cps_part : cc_partly cl sc }.
Record java_part_setting (re_ok : bytes -> bool) (sc0 sc : schema) (orc : oracles) (ignored : string -> bool) : Prop := mkJavaPart {
  jps_checked : check_schema re_ok sc0 = Some sc;
  jps_wf : wf_schema sc0;
  jps_orc : oracle_ok orc;
  jps_part : java_partly ignored sc }.

(** ** Rules that are not implemented, where the value [v] makes the C++ code reach them *)
Definition cc_missing (r : rule_type) (v : value) : Prop :=
  match r, v with
  | RString r, VStr s =>
      (s_wk r = Some (WEmail true) \/ s_wk r = Some (WUri true) \/ s_wk r = Some (WUriRef true)) /\
      ~ (s_ignore_empty r = Some true /\ s = [])
  | RBytes r, VByt s =>
      (b_wk r = Some (BIp true) \/ b_wk r = Some (BIpv4 true) \/ b_wk r = Some (BIpv6 true)) /\
      ~ (b_ignore_empty r = Some true /\ s = [])
  | RTimestamp r, VTs _ => ts_constrained r
  | _, _ => False
  end.
(** As a condition on all the values in a message; the rules of wrappers are for the wrapped value. *)
Definition cc_enforceable (inside uniq : bool) (e : etype) (fr : field_rules) (v : value) : Prop :=
  match fr, v with
  | FR _ (Some r), VWrap (Some x) => ~ cc_missing r x
  | FR _ (Some r), _ => ~ cc_missing r v
  | _, _ => True
  end.
(** A map with [no_sparse], unless it is empty and that is ignored. *)
Definition sparse_missing (fr : field_rules) (v : value) : Prop :=
  exists mr r l, fr = FR mr (Some (RMap r)) /\ v = VMap l /\ p_no_sparse r = Some true /\ ~ (p_ignore_empty r = Some true /\ l = []).
