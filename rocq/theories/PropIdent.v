(** C27: does the generated Go package compile?

    [compiles sc] (GoType.v) is the judgement of the Go compiler on the code generated from the checked schema [sc]: the
    names declared in the package are distinct, the map literals are legal, and in each method every name is declared, used
    and of a fitting type.  [go_fits sc] (GoFit.v) speaks about the rules only.  [package re_ok sc0 sc]: the plugin accepts
    [sc0], and no two types and no two fields end up with the same name. *)
From Coq Require Import Floats.SpecFloat Lia.
From Verif Require Import Base Num Rules Types Time Iface Checker GoIR GoGen GoSem Spec Wt WtDec WtMsgDec GoType GoFit GoTypeFacts GoFieldFacts GoCompile GoIdent
  Setting Example Values JavaEx GoEx.
Local Open Scope string_scope.

(** ** The class of rules *)

(** The package compiles exactly if the rules of its messages fit. *)
Theorem go_compiles_iff : forall re_ok sc0 sc, package re_ok sc0 sc -> (compiles sc <-> go_fits sc).
Proof. intros re_ok sc0 sc H. exact (compiles_iff re_ok sc0 sc H). Qed.
Print Assumptions go_compiles_iff.
Example go_compiles_iff_ex : package re_any ex_schema (checked ex_schema).
Proof. exact ex_package. Qed.

(** Supported schemas (those about which the theorems on Validate speak) compile, unless a loop over a map ignores the key. *)
Theorem go_supported_compiles : forall re_ok sc0 sc, package re_ok sc0 sc -> supported sc ->
  (forall d f k v r, In d (sc_msgs sc) -> In f (all_fields d) -> f_type f = FMap k v -> fr_typ (f_rules f) = Some (RMap r) ->
     map_loops v r = true -> key_named k v r = true) ->
  compiles sc.
Proof. intros re_ok sc0 sc P S K. apply (compiles_iff re_ok sc0 sc P). exact (supported_fits sc S K). Qed.
Print Assumptions go_supported_compiles.
Example go_supported_compiles_ex : compiles (checked ex_schema).
Proof.
  apply (go_supported_compiles re_any ex_schema _ ex_package); [apply supportedb_sound; vm_compute; reflexivity|].
  intros d f k v r Hd Hf. vm_compute in Hd. repeat (destruct Hd as [<-|Hd]; [|]); try contradiction;
    vm_compute in Hf; repeat (destruct Hf as [<-|Hf]; [|]); try contradiction; try discriminate.
  intros [= <- <-] [= <-] _. reflexivity.
Qed.

(** Names clash neither if no field name has an underscore and no type name ends like the error types. *)
Theorem go_names_distinct : forall sc,
  NoDup (map md_name (sc_msgs sc) ++ map en_name (sc_enums sc))%list ->
  (forall d, In d (sc_msgs sc) -> NoDup (map f_name (all_fields d))) ->
  (forall d f, In d (sc_msgs sc) -> In f (all_fields d) -> plain_name (f_name f)) ->
  (forall n s, In n (map md_name (sc_msgs sc) ++ map en_name (sc_enums sc))%list ->
     n <> s ++ "MultiError" /\ n <> s ++ "ValidationError") ->
  NoDup (type_names sc) /\ NoDup (paths sc).
Proof.
  intros sc N F P E. split.
  - apply own_types; auto.
  - apply NoDup_app_iff in N. apply plain_paths; tauto.
Qed.
Print Assumptions go_names_distinct.
Example go_names_distinct_ex : NoDup (map md_name (sc_msgs ex_schema) ++ map en_name (sc_enums ex_schema))%list /\
  plain_name "Timeout" /\ ~ plain_name "B_C".
Proof.
  split; [apply nodup_str_sound; reflexivity|]. split.
  - apply no_us_plain. reflexivity.
  - intros H. apply (H "B" "C"). reflexivity.
Qed.

(** ** What breaks the build

    Each of these schemas is well-formed and the plugin accepts it. *)
Definition breaks (sc0 : schema) : Prop := exists sc, check_schema re_any sc0 = Some sc /\ wf_schema sc0 /\ ~ compiles sc.

Lemma breaks_by sc0 : package re_any sc0 (checked sc0) -> ~ go_fits (checked sc0) -> breaks sc0.
Proof.
  intros P F. exists (checked sc0). split; [apply P|]. split; [apply P|].
  intros C. apply F. now apply (compiles_iff _ _ _ P).
Qed.

Definition pattern_rules (p : string) : field_rules := s_rules (with_pattern (bs p)).
Definition num_in (l : list num) : num_rules := mkNumRules None None None None None l [] None.
Definition str_in (l : list bytes) (r : string_rules) : string_rules :=
  mkStringRules None None None None None None None None None None None None l [] None None None.
Definition map_of (k v : option field_rules) : field_rules := FR None (Some (RMap (mkMapRules None None None k v None))).
Definition list_of (r : field_rules) : field_rules := FR None (Some (RRepeated (mkRepRules None None None (Some r) None))).

Lemma unfit sc d f : In d (sc_msgs sc) -> has_methods d = true -> md_disabled d = false -> In f (all_fields d) ->
  ~ field_fit (file_uuid sc) f -> ~ go_fits sc.
Proof. intros Hd M D Hf N H. specialize (H d Hd M D). rewrite Forall_forall in H. auto. Qed.
Ltac unfit d := apply breaks_by; [apply checked_package; vm_compute; reflexivity|];
  eapply (unfit _ d); [vm_compute; tauto|reflexivity|reflexivity|left; reflexivity|].

(** Patterns for both the keys and the values of a map: one variable is declared twice. *)
Theorem go_map_patterns_refuted :
  breaks (one_schema (FMap TString TString) (map_of (Some (pattern_rules "a")) (Some (pattern_rules "b")))).
Proof.
  unfit (one_field (FMap TString TString) (map_of (Some (pattern_rules "a")) (Some (pattern_rules "b")))).
  intros (_ & _ & _ & A & _). discriminate.
Qed.
Print Assumptions go_map_patterns_refuted.

(** in-lists on the items of a list of numbers: the table is not declared. *)
Theorem go_items_in_refuted :
  breaks (one_schema (FRep (TNum KInt32)) (list_of (FR None (Some (RNum KInt32 (num_in [NI 1])))))).
Proof.
  unfit (one_field (FRep (TNum KInt32)) (list_of (FR None (Some (RNum KInt32 (num_in [NI 1])))))).
  intros (_ & (_ & A & _) & _). destruct A; discriminate.
Qed.
Print Assumptions go_items_in_refuted.

(** A uuid rule in a nested message only: the pattern for uuids is not declared. *)
Definition nested_uuid : schema :=
  mkSchema [mkMsg "A" [] [] false MBoth; mkMsg "A_B" [mkField "F" (FOne TString) (s_rules (with_wk (WUuid true)))] [] false MBoth] [] ["A"].
Theorem go_nested_uuid_refuted : breaks nested_uuid.
Proof.
  unfit (mkMsg "A_B" [mkField "F" (FOne TString) (s_rules (with_wk (WUuid true)))] [] false MBoth).
  intros (_ & _ & _ & _ & _ & A). discriminate (A eq_refl).
Qed.
Print Assumptions go_nested_uuid_refuted.

(** A loop over a map that does not use the key: "declared and not used". *)
Theorem go_unused_key_refuted :
  breaks (one_schema (FMap TString (TMsg "Ignored")) (map_of None (Some (FR (Some (mkMessageRules (Some true) None)) None)))).
Proof.
  unfit (one_field (FMap TString (TMsg "Ignored")) (map_of None (Some (FR (Some (mkMessageRules (Some true) None)) None)))).
  intros (_ & _ & _ & _ & _ & A). discriminate (A eq_refl).
Qed.
Print Assumptions go_unused_key_refuted.

(** Two fields whose names agree after joining them to those of their messages. *)
Lemma nodup_str_complete l : NoDup l -> nodup_str l = true.
Proof.
  induction 1 as [|x l N _ IH]; cbn; auto. rewrite IH, andb_true_r. apply negb_true_iff, not_true_iff_false. intros H.
  apply existsb_exists in H. destruct H as (y & Hy & E). apply String.eqb_eq in E. now subst.
Qed.
Definition in_a : field_rules := s_rules (str_in [bs "a"]).
Definition clash : schema :=
  mkSchema [mkMsg "A" [mkField "B_C" (FOne TString) in_a] [] false MBoth; mkMsg "A_B" [mkField "C" (FOne TString) in_a] [] false MBoth] [] ["A"].
Theorem go_lookup_clash_refuted : breaks clash.
Proof.
  exists (checked clash). split; [vm_compute; reflexivity|]. split; [apply wf_schemab_sound; vm_compute; reflexivity|].
  intros (N & _). apply nodup_str_complete in N. vm_compute in N. discriminate.
Qed.
Print Assumptions go_lookup_clash_refuted.

(** A message named like the error type of another. *)
Definition error_clash : schema :=
  mkSchema [mkMsg "X" [] [] false MBoth; mkMsg "XValidationError" [] [] false MBoth] [] ["X"; "XValidationError"].
Theorem go_error_clash_refuted : breaks error_clash.
Proof.
  exists (checked error_clash). split; [vm_compute; reflexivity|]. split; [apply wf_schemab_sound; vm_compute; reflexivity|].
  intros (N & _). apply nodup_str_complete in N. vm_compute in N. discriminate.
Qed.
Print Assumptions go_error_clash_refuted.

(** Rules of a disabled message are not checked, but its tables are still declared. *)
Definition disabled_twice : schema :=
  mkSchema [mkMsg "M" [mkField "F" (FOne TString) (s_rules (str_in [bs "a"; bs "a"]))] [] true MBoth] [] ["M"].
Theorem go_disabled_refuted : breaks disabled_twice.
Proof.
  exists (checked disabled_twice). split; [vm_compute; reflexivity|]. split; [apply wf_schemab_sound; vm_compute; reflexivity|].
  intros (_ & D & _). rewrite Forall_forall in D.
  assert (I : In ("_M_F_InLookup", DBadSet) (pkg_decls (checked disabled_twice))) by (vm_compute; tauto).
  exact (D _ I).
Qed.
Print Assumptions go_disabled_refuted.

(** ** Code that compiles and checks something else

    Byte strings as map values have no pattern variable of their own.  If the keys have one the code compiles, and the
    values are matched against the pattern of the keys. *)
Definition lit_orc : oracles := mkOracles (fun p s => contains s p) (fun _ => None) (fun _ => None) (fun _ => None) 0.
Definition byt_pattern (p : string) : field_rules :=
  FR None (Some (RBytes (mkBytesRules None None None None (Some (bs p)) None None None [] [] None None))).
Definition bytes_values : schema :=
  one_schema (FMap TString TBytes) (map_of (Some (pattern_rules "k")) (Some (byt_pattern "v"))).
Definition kv (k v : string) : msgval := one_value (VMap [(VStr (bs k), VByt (bs v))]).
Theorem go_bytes_values_refuted :
  package re_any bytes_values (checked bytes_values) /\ compiles (checked bytes_values) /\
  (message bytes_values "M" (one_field (FMap TString TBytes) (map_of (Some (pattern_rules "k")) (Some (byt_pattern "v")))) (kv "k" "k") /\
   validate (checked bytes_values) lit_orc false "M" (kv "k" "k") = VNil /\ ~ valid lit_orc bytes_values "M" (kv "k" "k")).
Proof.
  assert (P : package re_any bytes_values (checked bytes_values)) by (apply checked_package; vm_compute; reflexivity).
  split; [exact P|]. split.
  - apply (compiles_iff _ _ _ P).
    assert (E : checked bytes_values = bytes_values) by (vm_compute; reflexivity). rewrite E. clear E P.
    intros d [<-|[<-|[]]]; [intros _ _|discriminate]. constructor; [|constructor].
    unfold field_fit. cbn [fr_typ f_rules f_type map_of]. split; [split; discriminate|]. cbn [p_keys p_values].
    split; [|split; [|split; [reflexivity|split; reflexivity]]].
    + cbn. repeat split; try discriminate; auto. intros n [= <-]. reflexivity.
    + cbn. repeat split; try discriminate; auto.
  - split; [|split].
    + constructor; [reflexivity|reflexivity|]. apply (wt_msgb_sound _ 3). vm_compute. reflexivity.
    + vm_compute. reflexivity.
    + intros V. unfold valid in V.
      specialize (V "M" _ _ (reach_here _ _ "M" (kv "k" "k")) eq_refl eq_refl "F" (Some (IxV (VStr (bs "k"))))).
      assert (H : contains (bs "k") (bs "v") = true); [|discriminate H].
      apply (V (want (contains (bs "k") (bs "v") = true) [PStr "value does not match regex pattern "; PLit (bs "v")])).
      right. right. left. reflexivity.
Qed.
Print Assumptions go_bytes_values_refuted.
