(** C61: the names in generated C++; C62: its tables for in, not_in and pattern. *)
From Verif Require Import Base BaseFacts Num Rules Types JavaName JavaNameSpec JavaNameFacts JavaNameLookup JavaNameEx JavaConst JavaConstSpec Values Cc CcSpec CcName CcNameSpec CcNameFacts CcTableFacts.
Local Open Scope N_scope.

(** ** C61 *)

(** The getters and has-methods are those of protoc exactly for field names without capital letters that are not keywords of C++, but for const
    and inline. *)
Theorem cc_accessors_agree n : (cc_accessor n = cpp_getter n /\ cc_has n = cpp_has n) <->
  small n = n /\ (In n keywords -> n = bs "const" \/ n = bs "inline").
Proof. split; [intros [H _]; now apply accessor_iff|intros H; split; [now apply accessor_iff|now apply has_iff]]. Qed.
Print Assumptions cc_accessors_agree.
Example cc_accessors_agree_met : (forall n, In n [bs "foo_bar2"; bs "_x"; bs "classes"; bs "const"] ->
  small n = n /\ (In n keywords -> n = bs "const" \/ n = bs "inline")) /\ cc_accessor (bs "const") = bs "m.const_()".
Proof.
  split; [|reflexivity]. intros n [<-|[<-|[<-|[<-|[]]]]]; (split; [reflexivity|]); intros H; try (apply keyword_in in H; vm_compute in H; discriminate). auto.
Qed.
(** So the C++ for fields called fooBar or new does not compile. *)
Theorem cc_accessors_refuted : cc_accessor (bs "fooBar") = bs "m.fooBar()" /\ cpp_getter (bs "fooBar") = bs "m.foobar()" /\
  cc_accessor (bs "new") = bs "m.new()" /\ cpp_getter (bs "new") = bs "m.new_()".
Proof. vm_compute. auto. Qed.
Print Assumptions cc_accessors_refuted.

(** The cases of a oneof: the constant is right unless the name of the field begins with an underscore; the enum is right
    if and only if all underscores in the name of the oneof are between a letter or digit and a small letter. *)
Theorem cc_cases_agree field oneof : identifier field = true -> identifier oneof = true ->
  (case_constant field = cpp_case_constant field <-> head_is (N.eqb 95) field = false) /\
  (case_type oneof = cpp_case_type oneof <-> tidy_name oneof = true).
Proof. intros F O. split; [apply case_constant_iff|apply case_type_iff]; now apply identifier_ident. Qed.
Print Assumptions cc_cases_agree.
Example cc_cases_agree_met : identifier (bs "foo_1a__b_") = true /\ case_constant (bs "foo_1a__b_") = bs "kFoo1AB" /\
  tidy_name (bs "my_oneof1x") = true /\ case_type (bs "my_oneof1x") = bs "MyOneof1XCase".
Proof. vm_compute. auto. Qed.
Theorem cc_cases_refuted : case_constant (bs "_foo") = bs "kXFoo" /\ cpp_case_constant (bs "_foo") = bs "kFoo" /\
  case_type (bs "foo_1") = bs "Foo_1Case" /\ cpp_case_type (bs "foo_1") = bs "Foo1Case".
Proof. vm_compute. auto. Qed.
Print Assumptions cc_cases_refuted.

(** Classes, if the package has a dot, or is a single word to pgs. *)
Theorem cc_class_agrees words l p : (2 <= List.length l)%nat -> (forall n, In n l -> identifier n = true) ->
  class_name words (dotted_package l) p = cpp_class l p.
Proof. exact (class_agrees words l p). Qed.
Print Assumptions cc_class_agrees.
Theorem cc_class_single words n p : identifier n = true -> (forall i, last_index 95 n = Some i -> i = O) -> words n = [n] ->
  class_name words n p = cpp_class [n] p.
Proof. exact (class_single words n p). Qed.
Print Assumptions cc_class_single.
Example cc_class_agrees_met words : class_name words (bs "a.b_c.v1") [bs "Outer"; bs "In"] = bs "::a::b_c::v1::Outer_In" /\
  identifier (bs "foo") = true /\ last_index 95 (bs "foo") = None /\ class_name (fun n => [n]) (bs "foo") [bs "M"] = bs "::foo::M".
Proof. vm_compute. auto. Qed.
(** A package without a dot is cut at underscores, and a file without a package gets a name that is none. *)
Theorem cc_class_refuted words : class_name words (bs "foo_bar") [bs "M"] = bs "::foo::bar::M" /\ cpp_class [bs "foo_bar"] [bs "M"] = bs "::foo_bar::M" /\
  class_name words [] [bs "M"] = bs "::::M" /\ cpp_class [] [bs "M"] = bs "::M".
Proof. vm_compute. auto. Qed.
Print Assumptions cc_class_refuted.

(** The variables with which the validators of a file register themselves have different names if the classes have; those of two files may have
    the same. *)
Theorem cc_static_vars_distinct words pkg p q : (forall n, In n p \/ In n q -> identifier n = true) -> static_var words pkg p = static_var words pkg q ->
  names_joined p = names_joined q.
Proof. exact (static_distinct words pkg p q). Qed.
Print Assumptions cc_static_vars_distinct.
Example cc_static_vars_met words : static_var words (bs "a.b") [bs "M"; bs "N"] = bs "validator___a__b__M_N".
Proof. vm_compute. reflexivity. Qed.
Theorem cc_static_vars_refuted words : let p := [bs "b"] in let q := [bs "_b"] in
  cpp_class [bs "x"; bs "a_"] p <> cpp_class [bs "x"; bs "a"] q /\ static_var words (bs "x.a_") p = static_var words (bs "x.a") q.
Proof. split; [vm_compute; discriminate|vm_compute; reflexivity]. Qed.
Print Assumptions cc_static_vars_refuted.

(** ** C62 *)

Definition s_rule (l n : list string) (p : option string) : rule_type :=
  RString (mkStringRules None None None None None None None (match p with Some p => Some (bs p) | None => None end) None None None None (map bs l) (map bs n) None None None).
Definition n_rule (l : list Z) : num_rules := mkNumRules None None None None None (map NI l) [] None.
Definition fr1 (r : rule_type) : field_rules := FR None (Some r).
Definition items (r : rule_type) : field_rules := fr1 (RRepeated (mkRepRules None None None (Some (fr1 r)) None)).
Definition pairs (k v : option rule_type) : field_rules :=
  let o x := match x with Some r => Some (fr1 r) | None => None end in fr1 (RMap (mkMapRules None None None (o k) (o v) None)).
Definition cc_file1 : list cc_msg :=
  [mkCcMsg [bs "Outer"] false (mkMsg "Outer"
     [mkField "name" (FOne TString) (fr1 (s_rule ["a"] [] (Some "[a-z]*"))%string);
      mkField "tags" (FRep TString) (items (s_rule [] ["x"] None)%string);
      mkField "colors" (FRep (TEnum "Color")) (items (REnum (mkEnumRules None None [1; 2]%Z [])));
      mkField "labels" (FMap TString TString) (pairs (Some (s_rule [] [] (Some "k.*"))%string) None)]
     [mkOneof "o" [mkField "any" (FOne TAny) (fr1 (RAny (mkAnyRules None [bs "t"] []))); mkField "str" (FOne (TWrap WkString)) (fr1 (s_rule ["w"] [] None)%string)] None]
     false MBoth);
   mkCcMsg [bs "Outer"; bs "Inner"] false (mkMsg "Outer.Inner" [mkField "name" (FOne (TNum KSInt64)) (fr1 (RNum KSInt64 (n_rule [1; 2]%Z)))] [] false MBoth);
   mkCcMsg [bs "Gone"; bs "Inner"] true (mkMsg "Gone.Inner" [] [] false MBoth)].
Example cc_file1_names : file_names (kept cc_file1).
Proof.
  split; [apply nodupb_sound; vm_compute; reflexivity|]. split; [intros m [<-|[<-|[]]]; vm_compute; intuition discriminate|].
  split; [intros m [<-|[<-|[]]]; apply nodupb_sound; vm_compute; reflexivity|].
  assert (A : forallb (fun m => forallb (fun f => identifier (bs (f_name f)) && negb (head_is (N.eqb 95) (bs (f_name f)))) (own_fields m)) (kept cc_file1) = true) by (vm_compute; reflexivity).
  intros m f M F. rewrite forallb_forall in A. specialize (A m M). rewrite forallb_forall in A. specialize (A f F). apply andb_true_iff in A.
  destruct A as [A B]. split; auto. now apply negb_true_iff in B.
Qed.
Example cc_file1_rules : file_rules_for (kept cc_file1).
Proof.
  intros m f p e r [<-|[<-|[]]] F P; cbn in F;
    repeat (destruct F as [<-|F]; [vm_compute in P; repeat (destruct P as [P|P]; [injection P as <- <- <-; cbn; eauto|]); destruct P|]); destruct F.
Qed.
Example cc_file1_maps m f : In m (kept cc_file1) -> In f (own_fields m) -> ~ two_patterns f.
Proof.
  intros [<-|[<-|[]]] F (k & v & r & T & R & _ & (x & s & p & V & _)); cbn in F;
    repeat (destruct F as [<-|F]; [try discriminate T; injection R as <-; discriminate V|]); destruct F.
Qed.

(** With names after the style guide, no table of a file is declared twice, but for the patterns of keys and values of a map. *)
Theorem cc_tables_once l ds : file_names (kept l) -> (forall m f, In m (kept l) -> In f (own_fields m) -> ~ two_patterns f) ->
  file_tables l = Some ds -> NoDup (map fst ds).
Proof. exact (tables_once l ds). Qed.
Print Assumptions cc_tables_once.
(** The code of a message, unless it is disabled, refers to a table for each list and pattern among its rules, but for not_in beside in. *)
Theorem cc_lookups_made l m f p e r t : In m (kept l) -> md_disabled (cm_desc m) = false -> In f (own_fields m) -> In (p, e, r) (parts f) -> looks_up r t ->
  exists n, In (n, (f, (p, e, r), t)) (file_needs l).
Proof. intros M D F X U. eexists. exact (lookups_made l m f (p, e, r) t M D F X U). Qed.
Print Assumptions cc_lookups_made.
Example cc_lookups_met : looks_up (s_rule [] ["x"] (Some "a"))%string NotInTable /\ looks_up (s_rule [] ["x"] (Some "a"))%string PatternTable.
Proof.
  split; (split; [eexists; split; [reflexivity|cbn; try exact I; discriminate]|]); intros H; try discriminate H.
  intros (v & V & E). injection V as <-. now elim E.
Qed.
(** The tables for in and not_in of fields and of items that are strings or enums, and for pattern of fields and strings, exist, with the
    type of the values that are looked up and the values of the rule. *)
Theorem cc_tables_resolve l ds n f p e r t : file_tables l = Some ds -> file_rules_for (kept l) -> In (n, (f, (p, e, r), t)) (file_needs l) ->
  has_table p r t -> exists c v, In (n, (c, v)) ds /\ table_type e t = Some c /\ table_value r t = Some v.
Proof. exact (tables_resolve l ds n f p e r t). Qed.
Print Assumptions cc_tables_resolve.
Example cc_tables_met : exists ds, file_tables cc_file1 = Some ds /\ ds =
  [(bs "_Outer_Name_InLookup", (CcString, XStrings [bs "a"])); (bs "_Outer_Name_Pattern", (CcRE2, XPattern (bs "[a-z]*")));
   (bs "_Outer_Tags_NotInLookup", (CcString, XStrings [bs "x"])); (bs "_Outer_Colors_InLookup", (CcEnum "Color", XEnums [1; 2]%Z));
   (bs "_Outer_Labels_Pattern", (CcRE2, XPattern (bs "k.*"))); (bs "_Outer_Any_InLookup", (CcString, XStrings [bs "t"]));
   (bs "_Outer_Str_InLookup", (CcString, XStrings [bs "w"])); (bs "_Inner_Name_InLookup", (CcInt64, XNums [NI 1; NI 2]))] /\
  map fst (file_needs cc_file1) = map fst ds.
Proof. eexists. split; [reflexivity|]. vm_compute. auto. Qed.

(** The others do not: the C++ for them does not compile. *)
Theorem cc_tables_missing l ds n f p e r t : file_names (kept l) -> file_tables l = Some ds -> In (n, (f, (p, e, r), t)) (file_needs l) ->
  ~ has_table p r t -> (t = PatternTable -> ~ one_pattern f) -> ~ In n (map fst ds).
Proof. exact (tables_missing l ds n f p e r t). Qed.
Print Assumptions cc_tables_missing.
Definition cc_one (f : field) : list cc_msg := [mkCcMsg [bs "M"] false (mkMsg "M" [f] [] false MBoth)].
Definition num_items : field := mkField "sizes" (FRep (TNum KInt32)) (items (RNum KInt32 (n_rule [1; 2]%Z))).
Definition key_list : field := mkField "labels" (FMap TString TString) (pairs (Some (s_rule ["a"] [] None)%string) None).
Example cc_tables_missing_met : file_tables (cc_one num_items) = Some [] /\ map fst (file_needs (cc_one num_items)) = [bs "_M_Sizes_InLookup"] /\
  file_tables (cc_one key_list) = Some [] /\ map fst (file_needs (cc_one key_list)) = [bs "_M_Labels_InLookup"] /\ ~ one_pattern key_list /\
  forall r s, ~ has_table AtItem (RNum KInt32 r) InTable /\ ~ has_table AtKey (RString s) InTable.
Proof.
  split; [reflexivity|]. split; [vm_compute; reflexivity|]. split; [reflexivity|]. split; [vm_compute; reflexivity|]. split.
  - intros (k & v & r & T & R & [(x & s & p & V & P)|(x & s & p & V & P)]); injection R as <-; [|discriminate V]. injection V as <- <-. discriminate P.
  - intros r s. split; intros [H|H]; try discriminate H; exact H.
Qed.

(** The generator fails on lists for the values of wrappers other than StringValue, and on rules for wrappers in lists and maps. *)
Theorem cc_generation_fails l : file_rules_for (kept l) -> (file_tables l = None <->
  exists m f, In m (kept l) /\ In f (own_fields m) /\ (wrapper_list f \/ (md_disabled (cm_desc m) = false /\ wrapper_elements f))).
Proof. exact (tables_none l). Qed.
Print Assumptions cc_generation_fails.
Definition int_wrapper : field := mkField "size" (FOne (TWrap WkInt32)) (fr1 (RNum KInt32 (n_rule [1]%Z))).
Theorem cc_wrapper_list_refuted : file_rules_for (kept (cc_one int_wrapper)) /\ file_names (kept (cc_one int_wrapper)) /\ file_tables (cc_one int_wrapper) = None.
Proof.
  split; [|split; [|reflexivity]].
  - intros m f p e r [<-|[]] [<-|[]] P. vm_compute in P. destruct P as [P|[]]. injection P as <- <- <-. cbn. eauto.
  - split; [apply nodupb_sound; vm_compute; reflexivity|]. split; [intros m [<-|[]]; vm_compute; intuition discriminate|].
    split; [intros m [<-|[]]; apply nodupb_sound; vm_compute; reflexivity|]. intros m f [<-|[]] [<-|[]]. split; reflexivity.
Qed.
Print Assumptions cc_wrapper_list_refuted.

(** Two nested messages of the same name in one file can clash. *)
Definition same_names : list cc_msg :=
  let m (o : string) z := mkCcMsg [bs o; bs "M"] false (mkMsg "M" [mkField "val" (FOne (TNum KInt32)) (fr1 (RNum KInt32 (n_rule [z])))] [] false MBoth) in [m "A"%string 1%Z; m "B"%string 2%Z].
Theorem cc_tables_clash_refuted : NoDup (map cm_path same_names) /\ file_tables same_names =
  Some [(bs "_M_Val_InLookup", (CcInt32, XNums [NI 1])); (bs "_M_Val_InLookup", (CcInt32, XNums [NI 2]))].
Proof. split; [apply nodup_paths_sound; vm_compute; reflexivity|vm_compute; reflexivity]. Qed.
Print Assumptions cc_tables_clash_refuted.
(** So do patterns for both the keys and the values of a map. *)
Definition both_patterns : field := mkField "labels" (FMap TString TString) (pairs (Some (s_rule [] [] (Some "a"))%string) (Some (s_rule [] [] (Some "b"))%string)).
Theorem cc_map_patterns_refuted : file_tables (cc_one both_patterns) =
  Some [(bs "_M_Labels_Pattern", (CcRE2, XPattern (bs "a"))); (bs "_M_Labels_Pattern", (CcRE2, XPattern (bs "b")))].
Proof. vm_compute. reflexivity. Qed.
Print Assumptions cc_map_patterns_refuted.
(** And if the values are bytes, they are matched against the pattern for keys: this compiles. *)
Definition bytes_values : field := mkField "labels" (FMap TString TBytes)
  (pairs (Some (s_rule [] [] (Some "a"))%string) (Some (RBytes (mkBytesRules None None None None (Some (bs "b")) None None None [] [] None None)))).
Theorem cc_value_pattern_refuted : exists n r, In (n, (bytes_values, (AtValue, TBytes, r), PatternTable)) (file_needs (cc_one bytes_values)) /\
  table_value r PatternTable = Some (XPattern (bs "b")) /\ file_tables (cc_one bytes_values) = Some [(n, (CcRE2, XPattern (bs "a")))].
Proof.
  exists (bs "_M_Labels_Pattern"), (RBytes (mkBytesRules None None None None (Some (bs "b")) None None None [] [] None None)). split; [|split; [reflexivity|vm_compute; reflexivity]].
  vm_compute. right. left. reflexivity.
Qed.
Print Assumptions cc_value_pattern_refuted.

(** The fields for which C++ is proved to be right (C42) are those whose tables exist and for which the generator does not fail. *)
Theorem cc_fragment_has_tables cl f p e r t : cc_field_ok cl f -> In (p, e, r) (parts f) -> In t (needs r) -> has_table p r t.
Proof. exact (fragment_tables cl f p e r t). Qed.
Print Assumptions cc_fragment_has_tables.
Theorem cc_fragment_generates cl f : cc_field_ok cl f -> ~ wrapper_list f /\ ~ wrapper_elements f /\ ~ two_patterns f.
Proof. exact (fragment_generates cl f). Qed.
Print Assumptions cc_fragment_generates.
Example cc_fragment_met cl : let f := mkField "colors" (FRep (TEnum "Color")) (items (REnum (mkEnumRules None None [1; 2]%Z []))) in
  cc_field_ok cl f /\ map (fun x => needs (snd x)) (parts f) = [[InTable]].
Proof. split; [|reflexivity]. cbn. unfold cc_size, cc_rule_ok. cbn. intuition discriminate. Qed.
