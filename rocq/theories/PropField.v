(** C05-C08, C12-C23: what each rule makes the generated Go code accept.

    The message type "M" has one field "F" with the given type and rules (or one oneof "O");
    any other message types and enums may be around it.  [validate sc orc false] is Validate,
    [validate sc orc true] is ValidateAll. *)
From Coq Require Import Floats.SpecFloat Lia.
From Verif Require Import Base Num Rules Types Iface Checker GoGen GoSem Spec SpecErr Meaning Wt WtDec Setting Main
  MainFacts FieldFacts RuleFacts Example.

(** For the examples. *)
Definition checked_of (s : schema) : schema :=
  match check_schema re_any s with Some s => s | None => mkSchema [] [] [] end.
Definition ex_field (t : ftype) (fr : field_rules) : schema := with_field [ex_location] [mkEnum "Color" [0; 1; 2]%Z] [] t fr.
Definition ex_accepts (t : ftype) (fr : field_rules) (v : value) : Prop :=
  setting re_any (ex_field t fr) (checked_of (ex_field t fr)) ex_orc /\
  validate (checked_of (ex_field t fr)) ex_orc false "M" (one v) = VNil.
Definition ex_rejects (t : ftype) (fr : field_rules) (v : value) : Prop :=
  setting re_any (ex_field t fr) (checked_of (ex_field t fr)) ex_orc /\
  exists e, validate (checked_of (ex_field t fr)) ex_orc false "M" (one v) = VErr e.
Ltac in_setting := constructor; [vm_compute; reflexivity | apply wf_schemab_sound; vm_compute; reflexivity
  | apply supportedb_sound; vm_compute; reflexivity | exact ex_orc_ok].
Ltac by_run := split; [in_setting|first [vm_compute; reflexivity|eexists; vm_compute; reflexivity]].

Ltac runs := cbv zeta; repeat match goal with |- _ /\ _ => split end; by_run.

(** C05, C06, C12: numbers. *)
Theorem go_number_exact : forall re_ok ms es top sc orc all k r v,
  setting re_ok (with_field ms es top (FOne (TNum k)) (FR None (Some (RNum k r)))) sc orc ->
  num_of_kind k v = true ->
  (validate sc orc all "M" (one (VNum v)) = VNil <-> num_meaning r v).
Proof. exact p_num. Qed.
Print Assumptions go_number_exact.
Example go_number_exact_ex :
  let fr := FR None (Some (RNum KInt32 (mkNumRules None (Some (NI 10)) None (Some (NI (-10))) None [] [NI 7] None))) in
  ex_accepts (FOne (TNum KInt32)) fr (VNum (NI 9)) /\ ex_rejects (FOne (TNum KInt32)) fr (VNum (NI 10)) /\
  ex_rejects (FOne (TNum KInt32)) fr (VNum (NI 7)).
Proof. runs. Qed.

(** C05 in plain words: with both bounds, an integer must be inside an ordered range, and
    outside a reversed one. *)
Theorem go_integer_range : forall re_ok ms es top sc orc all k l u v,
  setting re_ok (with_field ms es top (FOne (TNum k))
    (FR None (Some (RNum k (mkNumRules None (Some (NI u)) None (Some (NI l)) None [] [] None))))) sc orc ->
  num_of_kind k (NI v) = true ->
  (validate sc orc all "M" (one (VNum (NI v))) = VNil <->
   (l < u /\ l < v < u)%Z \/ (u <= l /\ (v < u \/ l < v))%Z).
Proof. exact p_integer_range. Qed.
Print Assumptions go_integer_range.
Example go_integer_range_ex :
  let fr l u := FR None (Some (RNum KUInt64 (mkNumRules None (Some (NI u)) None (Some (NI l)) None [] [] None))) in
  ex_accepts (FOne (TNum KUInt64)) (fr 3 9)%Z (VNum (NI 5)) /\ ex_rejects (FOne (TNum KUInt64)) (fr 9 3)%Z (VNum (NI 5)) /\
  ex_accepts (FOne (TNum KUInt64)) (fr 9 3)%Z (VNum (NI (2^64 - 1))).
Proof. runs. Qed.

(** The inclusive bounds. *)
Theorem go_integer_range_inclusive : forall re_ok ms es top sc orc all k l u v,
  setting re_ok (with_field ms es top (FOne (TNum k))
    (FR None (Some (RNum k (mkNumRules None None (Some (NI u)) None (Some (NI l)) [] [] None))))) sc orc ->
  num_of_kind k (NI v) = true ->
  (validate sc orc all "M" (one (VNum (NI v))) = VNil <->
   (l < u /\ l <= v <= u)%Z \/ (u <= l /\ (v <= u \/ l <= v))%Z).
Proof. exact p_integer_range_inclusive. Qed.
Print Assumptions go_integer_range_inclusive.
Example go_integer_range_inclusive_ex :
  let fr := FR None (Some (RNum KSInt32 (mkNumRules None None (Some (NI 4)) None (Some (NI (-4))) [] [] None))) in
  ex_accepts (FOne (TNum KSInt32)) fr (VNum (NI (-4))) /\ ex_rejects (FOne (TNum KSInt32)) fr (VNum (NI 5)).
Proof. runs. Qed.

(** C05: NaN passes every range, and fails every const and in rule. *)
Theorem go_nan : forall re_ok ms es top sc orc all k r,
  setting re_ok (with_field ms es top (FOne (TNum k)) (FR None (Some (RNum k r)))) sc orc -> is_float k = true ->
  (validate sc orc all "M" (one (VNum (NF S754_nan))) = VNil <-> n_const r = None /\ n_in r = []).
Proof. exact p_nan. Qed.
Print Assumptions go_nan.
Example go_nan_ex :
  ex_accepts (FOne (TNum KDouble)) deg_rules (VNum (NF S754_nan)) /\ ex_rejects (FOne (TNum KDouble)) deg_rules (VNum f_big).
Proof. runs. Qed.

(** C06: booleans. *)
Theorem go_bool_exact : forall re_ok ms es top sc orc all c v,
  setting re_ok (with_field ms es top (FOne TBool) (FR None (Some (RBool c)))) sc orc ->
  (validate sc orc all "M" (one (VBool v)) = VNil <-> forall x, c = Some x -> v = x).
Proof. exact p_bool. Qed.
Print Assumptions go_bool_exact.
Example go_bool_exact_ex : let fr := FR None (Some (RBool (Some true))) in
  ex_accepts (FOne TBool) fr (VBool true) /\ ex_rejects (FOne TBool) fr (VBool false).
Proof. runs. Qed.

(** C06-C12: strings. *)
Theorem go_string_exact : forall re_ok ms es top sc orc all r s,
  setting re_ok (with_field ms es top (FOne TString) (FR None (Some (RString r)))) sc orc -> is_bytes s = true ->
  (validate sc orc all "M" (one (VStr s)) = VNil <-> str_meaning orc r s).
Proof. exact p_string. Qed.
Print Assumptions go_string_exact.
Example go_string_exact_ex :
  ex_accepts (FOne TString) (s_rules (min_len 2)) (VStr [195; 169; 65]%N) /\
  ex_rejects (FOne TString) (s_rules (min_len 2)) (VStr [195; 169]%N) /\
  ex_accepts (FOne TString) (s_rules (with_wk (WHostname true))) (VStr (bs "example.org")) /\
  ex_rejects (FOne TString) (s_rules (with_wk (WHostname true))) (VStr (bs "-example.org")) /\
  ex_accepts (FOne TString) (s_rules (with_wk (WUuid true))) (VStr (bs "01234567-89ab-cdef-0123-456789ABCDEF")) /\
  ex_rejects (FOne TString) (s_rules (with_wk (WRegex KRHeaderName))) (VStr (bs "a b")).
Proof. runs. Qed.

(** C06, C07, C08, C12, C13: bytes. *)
Theorem go_bytes_exact : forall re_ok ms es top sc orc all r s,
  setting re_ok (with_field ms es top (FOne TBytes) (FR None (Some (RBytes r)))) sc orc -> is_bytes s = true ->
  (validate sc orc all "M" (one (VByt s)) = VNil <-> byt_meaning orc r s).
Proof. exact p_bytes. Qed.
Print Assumptions go_bytes_exact.
Example go_bytes_exact_ex :
  let fr := FR None (Some (RBytes (mkBytesRules None None None (Some 4%N) None (Some (bs "a")) None None [] [] None None))) in
  ex_accepts (FOne TBytes) fr (VByt (bs "abc")) /\ ex_rejects (FOne TBytes) fr (VByt (bs "abcde")) /\
  ex_rejects (FOne TBytes) fr (VByt (bs "b")).
Proof. runs. Qed.

(** C06 is false for one case: an empty bytes const is not enforced. *)
Theorem go_bytes_empty_const_refuted : exists re_ok ms es top sc orc r s,
  setting re_ok (with_field ms es top (FOne TBytes) (FR None (Some (RBytes r)))) sc orc /\ is_bytes s = true /\
  b_const r = Some [] /\ s <> [] /\ validate sc orc false "M" (one (VByt s)) = VNil.
Proof. exact p_bytes_empty_const. Qed.
Print Assumptions go_bytes_empty_const_refuted.

(** C07 is false for one case: with a bytes [len] rule, [min_len] is not enforced. *)
Theorem go_bytes_len_hides_min_refuted : exists re_ok ms es top sc orc r s n,
  setting re_ok (with_field ms es top (FOne TBytes) (FR None (Some (RBytes r)))) sc orc /\ is_bytes s = true /\
  b_min_len r = Some n /\ (N.of_nat (List.length s) < n)%N /\ validate sc orc false "M" (one (VByt s)) = VNil.
Proof. exact p_bytes_len_hides_min. Qed.
Print Assumptions go_bytes_len_hides_min_refuted.

(** C14, C06: enums. *)
Theorem go_enum_exact : forall re_ok ms es top sc orc all e r z,
  setting re_ok (with_field ms es top (FOne (TEnum e)) (FR None (Some (REnum r)))) sc orc ->
  (validate sc orc all "M" (one (VEnum z)) = VNil <->
   enum_meaning (with_field ms es top (FOne (TEnum e)) (FR None (Some (REnum r)))) e r z).
Proof. exact p_enum. Qed.
Print Assumptions go_enum_exact.
Example go_enum_exact_ex : let fr := FR None (Some (REnum (mkEnumRules None (Some true) [] [1%Z]))) in
  ex_accepts (FOne (TEnum "Color")) fr (VEnum 2) /\ ex_rejects (FOne (TEnum "Color")) fr (VEnum 1) /\
  ex_rejects (FOne (TEnum "Color")) fr (VEnum 3).
Proof. runs. Qed.

(** C20: Any. *)
Theorem go_any_exact : forall re_ok ms es top sc orc all r o,
  setting re_ok (with_field ms es top (FOne TAny) (FR None (Some (RAny r)))) sc orc ->
  (validate sc orc all "M" (one (VAny o)) = VNil <-> any_meaning r o).
Proof. exact p_any. Qed.
Print Assumptions go_any_exact.
Example go_any_exact_ex : let fr := FR None (Some (RAny (mkAnyRules (Some true) [bs "t/A"] []))) in
  ex_accepts (FOne TAny) fr (VAny (Some (bs "t/A"))) /\ ex_rejects (FOne TAny) fr (VAny (Some (bs "t/B"))) /\
  ex_rejects (FOne TAny) fr (VAny None).
Proof. runs. Qed.

(** C21: durations. *)
Theorem go_duration_exact : forall re_ok ms es top sc orc all r o,
  setting re_ok (with_field ms es top (FOne TDur) (FR None (Some (RDuration r)))) sc orc ->
  (forall d, o = Some d -> is_sn d) ->
  (validate sc orc all "M" (one (VDur o)) = VNil <-> dur_meaning r o).
Proof. exact p_duration. Qed.
Print Assumptions go_duration_exact.
Example go_duration_exact_ex :
  let fr := FR None (Some (RDuration (mkDurationRules (Some true) None None (Some (mkSN 5 0)) None (Some (mkSN (-2) (-500000000))) [] []))) in
  ex_accepts (FOne TDur) fr (VDur (Some (mkSN (-2) (-500000000)))) /\ ex_rejects (FOne TDur) fr (VDur (Some (mkSN 5 1))) /\
  ex_rejects (FOne TDur) fr (VDur (Some (mkSN 1 (-1)))) /\ ex_rejects (FOne TDur) fr (VDur None).
Proof. runs. Qed.

(** Go's durations are exact below 292 years, ... *)
Theorem go_duration_small : forall d, (- 2^63 <= nanos d < 2^63)%Z -> go_duration d = nanos d.
Proof. exact p_duration_small. Qed.
Print Assumptions go_duration_small.
Example go_duration_small_ex : go_duration (mkSN 9223372036 854775807) = (2^63 - 1)%Z.
Proof. vm_compute. reflexivity. Qed.

(** ... beyond, C21 is false: two different durations count as equal. *)
Theorem go_duration_large_refuted : exists re_ok ms es top sc orc r d c,
  setting re_ok (with_field ms es top (FOne TDur) (FR None (Some (RDuration r)))) sc orc /\
  is_sn d /\ valid_duration d /\ valid_duration c /\ d_const r = Some c /\ nanos d <> nanos c /\
  validate sc orc false "M" (one (VDur (Some d))) = VNil.
Proof. exact p_duration_large. Qed.
Print Assumptions go_duration_large_refuted.

(** C22, C23: timestamps. *)
Theorem go_timestamp_exact : forall re_ok ms es top sc orc all r o,
  setting re_ok (with_field ms es top (FOne TTs) (FR None (Some (RTimestamp r)))) sc orc ->
  (forall d, o = Some d -> is_sn d) ->
  (validate sc orc all "M" (one (VTs o)) = VNil <-> ts_meaning orc r o).
Proof. exact p_timestamp. Qed.
Print Assumptions go_timestamp_exact.
Example go_timestamp_exact_ex :
  let fr := FR None (Some (RTimestamp (mkTimestampRules (Some true) None None None None None (Some true) None (Some (mkSN 60 0))))) in
  ex_accepts (FOne TTs) fr (VTs (Some (mkSN 1599999940 0))) /\ ex_rejects (FOne TTs) fr (VTs (Some (mkSN 1599999939 999999999))) /\
  ex_rejects (FOne TTs) fr (VTs (Some (mkSN 1600000000 0))) /\ ex_rejects (FOne TTs) fr (VTs None).
Proof. runs. Qed.

(** C23 is false in one case: [lt_now: false] is enforced like [lt_now: true]. *)
Theorem go_timestamp_now_false_refuted : exists re_ok ms es top sc orc r t e,
  setting re_ok (with_field ms es top (FOne TTs) (FR None (Some (RTimestamp r)))) sc orc /\
  r = mkTimestampRules None None None None None None (Some false) None None /\ is_sn t /\ valid_timestamp t /\
  validate sc orc false "M" (one (VTs (Some t))) = VErr e.
Proof. exact p_timestamp_now_false. Qed.
Print Assumptions go_timestamp_now_false_refuted.

(** C15: a message field.  Required; then, unless skipped, the embedded message's own
    Validate or ValidateAll decides, when its type has one. *)
Theorem go_message_exact : forall re_ok ms es top sc orc all n mr d o,
  let s0 := with_field ms es top (FOne (TMsg n)) (FR mr None) in
  setting re_ok s0 sc orc -> find_msg s0 n = Some d -> (forall m, o = Some m -> wt_msg s0 d m) ->
  (validate sc orc all "M" (one (VMsg o)) = VNil <->
   (required mr = true -> o <> None) /\
   (forall m, o = Some m -> skipped mr = false -> md_methods d <> MNone -> validate sc orc all n m = VNil)).
Proof. exact p_message. Qed.
Print Assumptions go_message_exact.
Example go_message_exact_ex :
  let req := FR (Some (mkMessageRules None (Some true))) None in
  let skp := FR (Some (mkMessageRules (Some true) None)) None in
  ex_accepts (FOne (TMsg "Location")) req (VMsg (Some (place f_one f_one))) /\
  ex_rejects (FOne (TMsg "Location")) req (VMsg (Some (place f_big f_one))) /\
  ex_rejects (FOne (TMsg "Location")) req (VMsg None) /\
  ex_accepts (FOne (TMsg "Location")) skp (VMsg (Some (place f_big f_one))) /\ ex_accepts (FOne (TMsg "Location")) skp (VMsg None).
Proof. runs. Qed.

(** C15: a disabled message accepts everything. *)
Theorem go_disabled_accepts : forall re_ok sc0 sc orc, setting re_ok sc0 sc orc ->
  forall all n d m, message sc0 n d m -> md_disabled d = true -> validate sc orc all n m = VNil.
Proof. exact p_disabled. Qed.
Print Assumptions go_disabled_accepts.
Example go_disabled_accepts_ex :
  let s0 := mkSchema [mkMsg "M" [mkField "F" (FOne (TMsg "N")) (FR (Some (mkMessageRules None (Some true))) None)] [] false MBoth;
                      mkMsg "N" [mkField "F" (FOne (TNum KDouble)) deg_rules] [] true MBoth] [] [] in
  setting re_any s0 (checked_of s0) ex_orc /\ message s0 "N" (mkMsg "N" [mkField "F" (FOne (TNum KDouble)) deg_rules] [] true MBoth) (one (VNum f_big)).
Proof. split; [in_setting|]. constructor; [reflexivity|reflexivity|]. repeat constructor. Qed.

(** C16: repeated fields. *)
Theorem go_repeated_exact : forall re_ok ms es top sc orc all e r l,
  let s0 := with_field ms es top (FRep e) (FR None (Some (RRepeated r))) in
  setting re_ok s0 sc orc -> plain_t (FRep e) = true -> Forall (wt_elem s0 e) l ->
  (validate sc orc all "M" (one (VList l)) = VNil <-> rep_meaning orc s0 e r l).
Proof. exact p_repeated. Qed.
Print Assumptions go_repeated_exact.
Example go_repeated_exact_ex :
  let fr := FR None (Some (RRepeated (mkRepRules (Some 1%N) (Some 3%N) (Some true) (Some (s_rules (min_len 1))) None))) in
  let t := FRep TString in let l x := VList (map (fun s => VStr (bs s)) x) in
  ex_accepts t fr (l ["a"; "b"; "c"])%string /\ ex_rejects t fr (l ["a"; "b"; "a"])%string /\ ex_rejects t fr (l []) /\
  ex_rejects t fr (l ["a"; ""])%string /\ ex_rejects t fr (l ["a"; "b"; "c"; "d"])%string.
Proof. runs. Qed.

(** C16: ValidateAll names exactly the items that violate their rules or repeat an earlier item. *)
Theorem go_repeated_indices : forall re_ok ms es top sc orc e r l,
  let s0 := with_field ms es top (FRep e) (FR None (Some (RRepeated r))) in
  setting re_ok s0 sc orc -> is_embed e = false -> Forall (wt_elem s0 e) l ->
  forall i, (exists reason, In ("M", ("F", (Some (IxN i), reason)))%string (report (validate sc orc true "M" (one (VList l))))) <->
    exists x, nth_error l i = Some x /\
      ((r_unique r = Some true /\ exists j y, j < i /\ nth_error l j = Some y /\ same_item x y) \/
       ~ elem_meaning orc s0 e (rules_or_none (r_items r)) x).
Proof. exact p_item_index. Qed.
Print Assumptions go_repeated_indices.
Example go_repeated_indices_ex :
  let s0 := ex_field (FRep TString) (FR None (Some (RRepeated (mkRepRules None None (Some true) (Some (s_rules (min_len 1))) None)))) in
  setting re_any s0 (checked_of s0) ex_orc /\
  map (fun x => fst (snd (snd x))) (report (validate (checked_of s0) ex_orc true "M"
    (one (VList (map (fun s => VStr (bs s)) ["a"; "b"; "a"; ""; "b"; ""]%string))))) =
  [Some (IxN 2); Some (IxN 3); Some (IxN 4); Some (IxN 5); Some (IxN 5)].
Proof. split; [in_setting|vm_compute; reflexivity]. Qed.

(** C17: maps. *)
Theorem go_map_exact : forall re_ok ms es top sc orc all k v r l,
  let s0 := with_field ms es top (FMap k v) (FR None (Some (RMap r))) in
  setting re_ok s0 sc orc -> plain_t (FMap k v) = true ->
  (forall x y, In (x, y) l -> wt_elem s0 k x /\ wt_elem s0 v y) ->
  (validate sc orc all "M" (one (VMap l)) = VNil <-> map_meaning orc s0 k v r l).
Proof. exact p_map. Qed.
Print Assumptions go_map_exact.
Definition ex_map_rules : field_rules :=
  FR None (Some (RMap (mkMapRules (Some 1%N) (Some 2%N) (Some true) (Some (s_rules (min_len 1))) None None))).
Example go_map_exact_ex :
  let t := FMap TString (TWrap WkBool) in let b := VWrap (Some (VBool true)) in
  ex_accepts t ex_map_rules (VMap [(VStr (bs "a"), b); (VStr (bs "b"), b)]) /\ ex_rejects t ex_map_rules (VMap []) /\
  ex_rejects t ex_map_rules (VMap [(VStr (bs "a"), b); (VStr (bs ""), b)]) /\
  ex_rejects t ex_map_rules (VMap [(VStr (bs "a"), VWrap None)]).
Proof. runs. Qed.

(** C17: ValidateAll names exactly the keys of the violating entries. *)
Theorem go_map_keys : forall re_ok ms es top sc orc k v r l,
  let s0 := with_field ms es top (FMap k v) (FR None (Some (RMap r))) in
  setting re_ok s0 sc orc -> plain_t (FMap k v) = true ->
  (forall x y, In (x, y) l -> wt_elem s0 k x /\ wt_elem s0 v y) ->
  forall x, (exists reason, In ("M", ("F", (Some (IxV x), reason)))%string (report (validate sc orc true "M" (one (VMap l))))) <->
    exists y, In (x, y) l /\
      ((p_no_sparse r = Some true /\ ~ is_set y) \/
       ~ elem_meaning orc s0 k (rules_or_none (p_keys r)) x \/ ~ elem_meaning orc s0 v (rules_or_none (p_values r)) y).
Proof. exact p_map_index. Qed.
Print Assumptions go_map_keys.
Example go_map_keys_ex :
  let s0 := ex_field (FMap TString (TWrap WkBool)) ex_map_rules in let b := VWrap (Some (VBool true)) in
  setting re_any s0 (checked_of s0) ex_orc /\
  map (fun x => fst (snd (snd x))) (report (validate (checked_of s0) ex_orc true "M"
    (one (VMap [(VStr (bs "a"), b); (VStr (bs ""), b); (VStr (bs "c"), VWrap None)])))) =
  [None; Some (IxV (VStr [])); Some (IxV (VStr (bs "c")))].
Proof. split; [in_setting|vm_compute; reflexivity]. Qed.

(** C18: a oneof with no member set is rejected exactly when required. *)
Theorem go_oneof_unset : forall re_ok ms es top sc orc all fs req,
  setting re_ok (with_oneof ms es top fs req) sc orc ->
  (validate sc orc all "M" (choice None) = VNil <-> req <> Some true).
Proof. exact run_unset. Qed.
Print Assumptions go_oneof_unset.
Definition ex_choice (req : option bool) : schema :=
  with_oneof [ex_location] [] [] [mkField "A" (FOne TString) (s_rules (min_len 1)); mkField "B" (FOne (TMsg "Location")) fr_none] req.
Example go_oneof_unset_ex : setting re_any (ex_choice (Some true)) (checked_of (ex_choice (Some true))) ex_orc /\
  setting re_any (ex_choice None) (checked_of (ex_choice None)) ex_orc.
Proof. split; in_setting. Qed.

(** C18: with a member set, that member's rules decide, and only they. *)
Theorem go_oneof_set : forall re_ok ms es top sc orc all fs req f v,
  let s0 := with_oneof ms es top fs req in
  setting re_ok s0 sc orc -> In f fs -> wt_field s0 (f_type f) v ->
  (validate sc orc all "M" (choice (Some (f_name f, v))) = VNil <->
   field_meaning orc s0 f v /\ forall n m, field_embeds s0 f v n m -> meant orc s0 n m).
Proof. exact run_set. Qed.
Print Assumptions go_oneof_set.
Example go_oneof_set_ex : let sc := checked_of (ex_choice None) in
  setting re_any (ex_choice None) sc ex_orc /\
  validate sc ex_orc false "M" (choice (Some ("A"%string, VStr (bs "x")))) = VNil /\
  (exists e, validate sc ex_orc false "M" (choice (Some ("A"%string, VStr []))) = VErr e) /\
  (exists e, validate sc ex_orc false "M" (choice (Some ("B"%string, VMsg (Some (place f_big f_one))))) = VErr e).
Proof. split; [in_setting|]. split; [vm_compute; reflexivity|]. split; eexists; vm_compute; reflexivity. Qed.

(** C19: a wrapper field that is set behaves like the plain field: same errors, in both modes. *)
Theorem go_wrapper_set : forall re_ok re_ok' ms es top sc sc' orc w mr r x,
  setting re_ok (with_field ms es top (FOne (TWrap w)) (FR mr (Some r))) sc orc ->
  setting re_ok' (with_field ms es top (FOne (wrapped_type w)) (FR None (Some r))) sc' orc ->
  wt_elem (with_field ms es top (FOne (wrapped_type w)) (FR None (Some r))) (wrapped_type w) x ->
  forall all, report (validate sc orc all "M" (one (VWrap (Some x)))) = report (validate sc' orc all "M" (one x)).
Proof. exact p_wrapper. Qed.
Print Assumptions go_wrapper_set.
Definition ex_wrap_rule : rule_type := RNum KInt32 (mkNumRules None (Some (NI 10)) None None None [] [NI 7] None).
Example go_wrapper_set_ex :
  let s1 := ex_field (FOne (TWrap WkInt32)) (FR (Some (mkMessageRules None (Some true))) (Some ex_wrap_rule)) in
  let s2 := ex_field (FOne (TNum KInt32)) (FR None (Some ex_wrap_rule)) in
  setting re_any s1 (checked_of s1) ex_orc /\ setting re_any s2 (checked_of s2) ex_orc /\
  report (validate (checked_of s1) ex_orc true "M" (one (VWrap (Some (VNum (NI 11)))))) <> [].
Proof. split; [in_setting|]. split; [in_setting|]. vm_compute. discriminate. Qed.

(** C19: a wrapper field that is not set is rejected exactly when required. *)
Theorem go_wrapper_unset : forall re_ok ms es top sc orc w mr r all,
  setting re_ok (with_field ms es top (FOne (TWrap w)) (FR mr (Some r))) sc orc ->
  (validate sc orc all "M" (one (VWrap None)) = VNil <-> required mr = false).
Proof. exact p_wrapper_nil. Qed.
Print Assumptions go_wrapper_unset.
Example go_wrapper_unset_ex :
  ex_accepts (FOne (TWrap WkInt32)) (FR None (Some ex_wrap_rule)) (VWrap None) /\
  ex_rejects (FOne (TWrap WkInt32)) (FR (Some (mkMessageRules None (Some true))) (Some ex_wrap_rule)) (VWrap None).
Proof. runs. Qed.

(** C12: with ignore_empty the empty value is accepted, ... *)
Theorem go_ignore_empty_accepts : forall re_ok ms es top sc orc t mr r v all,
  setting re_ok (with_field ms es top t (FR mr (Some r))) sc orc -> plain_t t = true -> (forall w, t <> FOne (TWrap w)) ->
  wt_field (with_field ms es top t (FR mr (Some r))) t v ->
  ignores_empty r = true -> empty v -> validate sc orc all "M" (one v) = VNil.
Proof. exact p_ignore_accepts. Qed.
Print Assumptions go_ignore_empty_accepts.

(** ... and any other value is treated as without ignore_empty: same errors, in both modes. *)
Theorem go_ignore_empty_otherwise : forall re_ok re_ok' ms es top sc sc' orc t mr r v,
  setting re_ok (with_field ms es top t (FR mr (Some r))) sc orc ->
  setting re_ok' (with_field ms es top t (FR mr (Some (no_ignore r)))) sc' orc -> plain_t t = true -> (forall w, t <> FOne (TWrap w)) ->
  wt_field (with_field ms es top t (FR mr (Some r))) t v ->
  ~ empty v -> forall all, report (validate sc orc all "M" (one v)) = report (validate sc' orc all "M" (one v)).
Proof. exact p_ignore_same. Qed.
Print Assumptions go_ignore_empty_otherwise.
Definition ex_ignore : rule_type := RNum KInt32 (mkNumRules None None None (Some (NI 5)) None [] [] (Some true)).
Example go_ignore_empty_ex :
  let fr := FR None (Some ex_ignore) in
  ex_accepts (FOne (TNum KInt32)) fr (VNum (NI 0)) /\ ex_rejects (FOne (TNum KInt32)) fr (VNum (NI 1)) /\
  ex_rejects (FOne (TNum KInt32)) (FR None (Some (no_ignore ex_ignore))) (VNum (NI 0)).
Proof. runs. Qed.
