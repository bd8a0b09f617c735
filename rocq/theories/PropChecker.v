(** C24, C25, C26: which schemas the plugin agrees to generate code for.

    [check_schema re_ok sc] is the plugin's rules checker; [None] means that it ends with an error.
    [re_ok] tells which patterns regexp.Compile accepts. *)
From Coq Require Import Lia Floats.SpecFloat.
From Verif Require Import Base Num Rules Types Iface Checker GoSem Spec Conflict ConflictFacts ConflictEx Meaning SatFacts
  Setting FieldFacts Example.

(** The three built-in patterns compile. *)
Definition header_patterns_ok (re_ok : bytes -> bool) : Prop :=
  re_ok re_header_name = true /\ re_ok re_header_value = true /\ re_ok re_header_string = true.

(** C24, C25: whatever the plugin accepts is free of conflicts, and every rule, at any depth,
    stands on a type it is for. *)
Theorem checker_sound : forall re_ok sc, header_patterns_ok re_ok ->
  check_schema re_ok sc <> None -> consistent re_ok sc.
Proof. intros re_ok sc (A & B & C). exact (check_schema_sound re_ok A B C sc). Qed.
Print Assumptions checker_sound.

(** C24: with numbers of ordinary size, it accepts exactly the schemas free of conflicts. *)
Theorem checker_exact : forall re_ok sc, header_patterns_ok re_ok ->
  (forall s r, rule_in sc s r -> ordinary r) ->
  (check_schema re_ok sc <> None <-> consistent re_ok sc).
Proof. intros re_ok sc (A & B & C). exact (check_schema_ok re_ok A B C sc). Qed.
Print Assumptions checker_exact.
Example checker_ex :
  header_patterns_ok re_any /\ check_schema re_any ex_schema <> None /\
  (* a conflict at depth: items with an empty range of lengths *)
  check_schema re_any (with_field [] [] [] (FRep TString) (FR None (Some (RRepeated (mkRepRules None None None
    (Some (FR None (Some (RString (mkStringRules None None (Some 3%N) (Some 2%N) None None None None None None None None [] [] None None None))))) None))))) = None.
Proof. split; [repeat split|]. split; vm_compute; [discriminate|reflexivity]. Qed.
Example checker_exact_ex : forall s r, rule_in ex_schema s r -> ordinary r.
Proof.
  intros s r (m & f & Im & _ & If & St). cbn in Im.
  repeat (destruct Im as [<-|Im]; [cbn in If; repeat (destruct If as [<-|If];
    [cbn in St; repeat match goal with
       | H : stands _ _ _ _ |- _ => inversion H; clear H; subst
       | H : Some _ = Some _ |- _ => injection H as H; subst
       | H : None = Some _ |- _ => discriminate H
       | H : Some _ = None |- _ => discriminate H
       | H : r_items _ = Some _ |- _ => cbn in H
       | H : p_keys _ = Some _ |- _ => cbn in H
       | H : p_values _ = Some _ |- _ => cbn in H
       end; cbn; unfold small_max, small_time; cbn; repeat split; intros; try discriminate;
       repeat match goal with H : Some _ = Some _ |- _ => injection H as H; subst end; cbn; lia
    |]); destruct If|]). destruct Im.
Qed.

(** Outside of ordinary sizes it refuses schemas without conflicts: a maximal length of 2^63, ... *)
Theorem checker_complete_max_refuted : exists r, s_max_len r = Some (2^63)%N /\
  let sc := with_field [] [] [] (FOne TString) (FR None (Some (RString r))) in
  consistent re_any sc /\ check_schema re_any sc = None.
Proof. exact huge_max_refused. Qed.
Print Assumptions checker_complete_max_refuted.
(** ... bounds of more than 292 years, ... *)
Theorem checker_complete_duration_refuted : exists r, d_lt r = Some (mkSN 9223372038 0) /\ d_gt r = Some (mkSN 9223372037 0) /\
  let sc := with_field [] [] [] (FOne TDur) (FR None (Some (RDuration r))) in
  consistent re_any sc /\ check_schema re_any sc = None.
Proof. exact long_durations_refused. Qed.
Print Assumptions checker_complete_duration_refuted.
(** ... instants 2^64 nanoseconds apart. *)
Theorem checker_complete_timestamp_refuted : exists r, t_lt r = Some (mkSN 18446744073 709551616) /\ t_gt r = Some (mkSN 0 0) /\
  let sc := with_field [] [] [] (FOne TTs) (FR None (Some (RTimestamp r))) in
  consistent re_any sc /\ check_schema re_any sc = None.
Proof. exact far_timestamps_refused. Qed.
Print Assumptions checker_complete_timestamp_refuted.

(** C25: "a rule is only accepted on fields of its type" is false of Any, duration and timestamp rules. *)
Theorem checker_types_refuted : exists sc ra rd rt,
  check_schema re_any sc <> None /\
  rule_in sc (On_field (FOne (TNum KInt32))) (RAny ra) /\
  rule_in sc (On_field (FOne TString)) (RDuration rd) /\
  rule_in sc (On_field (FRep TBool)) (RTimestamp rt).
Proof. exact wrong_type_accepted. Qed.
Print Assumptions checker_types_refuted.

(** C26: accepted rules may contradict each other: no value of the field's type passes. *)
Theorem checker_contradiction_refuted : exists sc0 sc,
  setting re_any sc0 sc ex_orc /\
  (exists r, sc0 = with_field [] [] [] (FOne (TNum KInt32)) (FR None (Some (RNum KInt32 r)))) /\
  forall all v, num_of_kind KInt32 v = true -> validate sc ex_orc all "M" (one (VNum v)) <> VNil.
Proof. exact contradiction_number. Qed.
Print Assumptions checker_contradiction_refuted.
Theorem checker_contradiction_string_refuted : exists sc0 sc,
  setting re_any sc0 sc ex_orc /\
  (exists r, sc0 = with_field [] [] [] (FOne TString) (FR None (Some (RString r)))) /\
  forall all s, is_bytes s = true -> validate sc ex_orc all "M" (one (VStr s)) <> VNil.
Proof. exact contradiction_string. Qed.
Print Assumptions checker_contradiction_string_refuted.
Theorem checker_contradiction_enum_refuted : exists sc0 sc,
  setting re_any sc0 sc ex_orc /\
  (exists r, sc0 = with_field [] [mkEnum "Color" [0; 1; 2]%Z] [] (FOne (TEnum "Color")) (FR None (Some (REnum r)))) /\
  forall all z, (- 2^31 <= z < 2^31)%Z -> validate sc ex_orc all "M" (one (VEnum z)) <> VNil.
Proof. exact contradiction_enum. Qed.
Print Assumptions checker_contradiction_enum_refuted.

(** C26, exactly for integers without [not_in]: accepted bounds can be met unless they exclude the
    whole kind, or ask for a number strictly between two neighbours. *)
Theorem checker_integer_satisfiable : forall k r, is_float k = false ->
  Forall (fun c => num_of_kind k c = true) (constants r) ->
  ~ range_conflict neq (n_const r) (n_lt r) (n_lte r) (n_gt r) (n_gte r) (n_in r) (n_not_in r) ->
  n_not_in r = [] -> n_ignore_empty r <> Some true ->
  ((exists v, num_of_kind k v = true /\ num_meaning r v) <-> ~ hopeless k r).
Proof. exact integer_sat. Qed.
Print Assumptions checker_integer_satisfiable.
Example checker_integer_satisfiable_ex :
  let r := mkNumRules None (Some (NI 0)) None None None [] [] None in
  is_float KUInt32 = false /\ Forall (fun c => num_of_kind KUInt32 c = true) (constants r) /\
  ~ range_conflict neq (n_const r) (n_lt r) (n_lte r) (n_gt r) (n_gte r) (n_in r) (n_not_in r) /\
  hopeless KUInt32 r.
Proof.
  repeat split; cbn; auto.
  - intros K; destruct K as [C D|D1 D2|D1 D2|D1 D2|D1 D2|a b Da Db S]; try congruence. destruct Db; discriminate.
  - left. auto.
Qed.

(** C26, exactly for floats: NaN meets every range, so only a NaN constant, or a list of NaNs, is hopeless. *)
Theorem checker_float_satisfiable : forall k r, is_float k = true ->
  Forall (fun c => num_of_kind k c = true) (constants r) ->
  ~ range_conflict neq (n_const r) (n_lt r) (n_lte r) (n_gt r) (n_gte r) (n_in r) (n_not_in r) ->
  n_ignore_empty r <> Some true ->
  ((exists v, num_of_kind k v = true /\ num_meaning r v) <->
   n_const r <> Some (NF S754_nan) /\ ~ (n_in r <> [] /\ Forall nan (n_in r))).
Proof. exact float_sat. Qed.
Print Assumptions checker_float_satisfiable.
Example checker_float_satisfiable_ex :
  let r := mkNumRules None (Some (f90 false)) None (Some (f90 true)) None [] [] None in
  is_float KDouble = true /\ Forall (fun c => num_of_kind KDouble c = true) (constants r) /\
  ~ range_conflict neq (n_const r) (n_lt r) (n_lte r) (n_gt r) (n_gte r) (n_in r) (n_not_in r).
Proof.
  split; [reflexivity|]. split; [repeat constructor|].
  intros K; destruct K as [C D|D1 D2|D1 D2|D1 D2|D1 D2|a b Da Db S]; cbn in *; try congruence.
  destruct Da as [Da|Da], Db as [Db|Db]; try discriminate. injection Da as <-. injection Db as <-. discriminate S.
Qed.
