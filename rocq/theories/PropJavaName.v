(** C58: the validators that Java finds by the names of classes; C59: the accessors in generated Java. *)
From Verif Require Import Base BaseFacts Lit JavaName JavaNameSpec JavaNameFacts JavaNameLookup JavaNameEx.
Local Open Scope N_scope.

(** ** C58, without java_multiple_files *)

(** If the generated Java compiles, the index finds the validator of each message type; for a type that is ignored it finds none. *)
Theorem single_file_found simple f p : proper f -> imports f = true -> multiple_files f = false -> compiles f (classes simple f) ->
  In (p, false) (all_messages f) -> reflective (classes simple f) (top_class f p) (message_class f p) = Finds p.
Proof. intros P I M C H. exact (single_finds simple f P I C p false M H (compiles_outer simple f P I C p M H)). Qed.
Print Assumptions single_file_found.
Example single_file_found_met : proper one_file /\ imports one_file = true /\ multiple_files one_file = false /\
  compiles one_file (classes go_name one_file) /\ In ([bs "Outer"; bs "Inner"], false) (all_messages one_file) /\
  message_class one_file [bs "Outer"; bs "Inner"] = bs "a.b.FilenameWithDash2X.Outer.Inner" /\
  map vc_name (classes go_name one_file) = [bs "FilenameWithDash2XValidator"].
Proof. refine (conj one_proper (conj eq_refl (conj eq_refl (conj one_compiles _)))). vm_compute. auto 10. Qed.

Theorem single_file_ignored simple f p q : proper f -> imports f = true -> multiple_files f = false -> compiles f (classes simple f) ->
  In (p, true) (all_messages f) -> In (q, false) (all_messages f) ->
  reflective (classes simple f) (top_class f p) (message_class f p) = Null.
Proof. intros P I M C H Q. exact (single_finds simple f P I C p true M H (compiles_outer simple f P I C q M Q)). Qed.
Print Assumptions single_file_ignored.
Example single_file_ignored_met : proper one_file /\ imports one_file = true /\ multiple_files one_file = false /\
  compiles one_file (classes go_name one_file) /\ In ([bs "Gone"], true) (all_messages one_file) /\ In ([bs "Outer"], false) (all_messages one_file).
Proof. refine (conj one_proper (conj eq_refl (conj eq_refl (conj one_compiles _)))). vm_compute. auto 10. Qed.

(** The class is the one that protoc makes, unless a word of the file name has a single small letter before a capital one, or a nested
    type, but no top-level one, has the name of the class. *)
Theorem outer_class_agrees f x : multiple_files f = false -> base (jf_name f) = x ++ bs ".proto" -> odd true x = false ->
  (match jf_options f with Some o => jo_outer o | None => None end <> None \/ file_has (java_camel true x) f = top_has (java_camel true x) f) ->
  class_file f = outer_class f.
Proof. exact (class_file_outer f x). Qed.
Print Assumptions outer_class_agrees.
Example outer_class_agrees_met : let x := bs "filename-with-dash_2x" in
  multiple_files one_file = false /\ base (jf_name one_file) = x ++ bs ".proto" /\ odd true x = false /\
  file_has (java_camel true x) one_file = top_has (java_camel true x) one_file /\ class_file one_file = bs "FilenameWithDash2X" /\
  let f := single "foo.proto" [m0 "Foo"] in
  file_has (java_camel true (bs "foo")) f = top_has (java_camel true (bs "foo")) f /\ class_file f = bs "FooOuterClass".
Proof. vm_compute. auto 10. Qed.

(** Where the classes differ, what is generated does not compile. *)
Theorem wrong_class_does_not_compile simple f p : proper f -> imports f = true -> multiple_files f = false ->
  In (p, false) (all_messages f) -> class_file f <> outer_class f -> ~ compiles f (classes simple f).
Proof. intros P I M H N C. exact (N (compiles_outer simple f P I C p M H)). Qed.
Print Assumptions wrong_class_does_not_compile.
Definition ios : jfile := single "iOS.proto" [m0 "M"].
Definition foo_in_bar : jfile := single "foo.proto" [JMsg (bs "Bar") false [] [m0 "Foo"]].
Theorem odd_file_name_refuted : proper ios /\ imports ios = true /\ class_file ios = bs "IoS" /\ outer_class ios = bs "IOS" /\
  forall simple, ~ compiles ios (classes simple ios).
Proof.
  assert (P : proper ios) by (apply properb_sound; vm_compute; reflexivity). refine (conj P (conj eq_refl (conj eq_refl (conj eq_refl _)))).
  intros simple. apply (wrong_class_does_not_compile simple ios [bs "M"] P eq_refl eq_refl); [now left|discriminate].
Qed.
Print Assumptions odd_file_name_refuted.
Theorem nested_name_refuted : proper foo_in_bar /\ imports foo_in_bar = true /\ class_file foo_in_bar = bs "Foo" /\ outer_class foo_in_bar = bs "FooOuterClass" /\
  forall simple, ~ compiles foo_in_bar (classes simple foo_in_bar).
Proof.
  assert (P : proper foo_in_bar) by (apply properb_sound; vm_compute; reflexivity). refine (conj P (conj eq_refl (conj eq_refl (conj eq_refl _)))).
  intros simple. apply (wrong_class_does_not_compile simple foo_in_bar [bs "Bar"] P eq_refl eq_refl); [now left|discriminate].
Qed.
Print Assumptions nested_name_refuted.

(** ** C58, with java_multiple_files *)

(** The validator is found if the name of the top-level message type has no small letter at the beginning or after a digit.  A top-level
    type is found even if it is ignored. *)
Theorem multiple_files_found simple f p : proper f -> imports f = true -> multiple_files f = true -> compiles f (classes simple f) ->
  (forall p q, has_message f p -> has_message f q -> simple p = simple q -> p = q) ->
  keeps true (hd [] p) = true -> unambiguous (hd [] p) -> In (p, false) (all_messages f) \/ (has_message f p /\ tl p = []) ->
  reflective (classes simple f) (top_class f p) (message_class f p) = Finds p.
Proof.
  intros P I M C D K U H.
  assert (S : forall i, In (p, i) (all_messages f) -> class_msg (hd [] p) = hd [] p).
  { intros i Hi. apply class_msg_same; auto. apply identifier_ident, (pf_names f P p); [now exists i|]. destruct (in_all f p i Hi) as (m & _ & _ & N & _).
    destruct p; [now elim N|now left]. }
  destruct H as [H|[[i H] T]].
  - exact (multi_finds simple f P I C D p false M H (S _ H)).
  - rewrite (multi_finds simple f P I C D p i M H (S _ H)). destruct p as [|a [|b p]]; [now destruct i|now destruct i|discriminate].
Qed.
Print Assumptions multiple_files_found.
Example multiple_files_found_met : proper many_files /\ imports many_files = true /\ multiple_files many_files = true /\
  compiles many_files (classes go_name many_files) /\
  (forall p q, has_message many_files p -> has_message many_files q -> go_name p = go_name q -> p = q) /\
  (let p := [bs "MessageNameWith_Underscore"] in keeps true (hd [] p) = true /\ unambiguous (hd [] p) /\ In (p, false) (all_messages many_files)) /\
  (let p := [bs "Outer"; bs "Off"; bs "Deep"] in keeps true (hd [] p) = true /\ unambiguous (hd [] p) /\ In (p, false) (all_messages many_files)) /\
  map vc_name (classes go_name many_files) = [bs "MessageNameWith_UnderscoreValidator"; bs "OuterValidator"; bs "GoneValidator"].
Proof.
  refine (conj many_proper (conj eq_refl (conj eq_refl (conj many_compiles (conj _ (conj _ (conj _ eq_refl))))))).
  - apply distinctb_sound. vm_compute. reflexivity.
  - refine (conj eq_refl (conj _ _)); [split; apply no_contains; reflexivity|vm_compute; auto].
  - refine (conj eq_refl (conj _ _)); [split; apply no_contains; reflexivity|vm_compute; auto 10].
Qed.

Theorem multiple_files_ignored simple f p : proper f -> imports f = true -> multiple_files f = true -> compiles f (classes simple f) ->
  (forall p q, has_message f p -> has_message f q -> simple p = simple q -> p = q) ->
  keeps true (hd [] p) = true -> unambiguous (hd [] p) -> In (p, true) (all_messages f) -> tl p <> [] ->
  reflective (classes simple f) (top_class f p) (message_class f p) = Null.
Proof.
  intros P I M C D K U H T. rewrite (multi_finds simple f P I C D p true M H); [destruct p as [|a [|b p]]; [now elim T|now elim T|reflexivity]|].
  apply class_msg_same; auto. apply identifier_ident, (pf_names f P p); [now exists true|]. destruct p; [now elim T|now left].
Qed.
Print Assumptions multiple_files_ignored.
Example multiple_files_ignored_met : let p := [bs "Outer"; bs "Off"] in
  keeps true (hd [] p) = true /\ unambiguous (hd [] p) /\ In (p, true) (all_messages many_files) /\ tl p <> [].
Proof. refine (conj eq_refl (conj _ (conj _ _))); [split; apply no_contains; reflexivity|vm_compute; auto 10|discriminate]. Qed.
(** With java_multiple_files the rules of a top-level message type that is ignored are checked. *)
Theorem multiple_files_ignored_refuted : In ([bs "Gone"], true) (all_messages many_files) /\
  reflective (classes go_name many_files) (top_class many_files [bs "Gone"]) (message_class many_files [bs "Gone"]) = Finds [bs "Gone"] /\
  reflective (classes go_name one_file) (top_class one_file [bs "Gone"]) (message_class one_file [bs "Gone"]) = Null.
Proof. vm_compute. auto 10. Qed.
Print Assumptions multiple_files_ignored_refuted.

(** For any other message type the index finds no class, and goes on to its fallback, by default one that takes all as valid:
    neither the type nor those inside of it are checked. *)
Theorem multiple_files_lost simple f p : imports f = true -> multiple_files f = true -> has_message f p ->
  keeps true (hd [] p) = false -> reflective (classes simple f) (top_class f p) (message_class f p) = Throws.
Proof. intros I M [i H] K. exact (multi_throws simple f I p i M H K). Qed.
Print Assumptions multiple_files_lost.
Theorem multiple_files_lost_refuted : proper small /\ compiles small (classes go_name small) /\
  In ([bs "foo"], false) (all_messages small) /\ In ([bs "Foo1bar"], false) (all_messages small) /\
  map vc_name (classes go_name small) = [bs "FooValidator"; bs "Foo1BarValidator"] /\
  reflective (classes go_name small) (top_class small [bs "foo"]) (message_class small [bs "foo"]) = Throws /\
  reflective (classes go_name small) (top_class small [bs "Foo1bar"]) (message_class small [bs "Foo1bar"]) = Throws.
Proof. refine (conj small_proper (conj small_compiles _)). vm_compute. auto 10. Qed.
Print Assumptions multiple_files_lost_refuted.
(** The escape for underscores is not one-to-one. *)
Theorem underscore_name_refuted : keeps true (bs "UnderscoreUnderscoreUnderscore") = true /\ class_msg (bs "UnderscoreUnderscoreUnderscore") = bs "_" /\
  keeps true (bs "Underscore_") = true /\ class_msg (bs "Underscore_") = bs "_Underscore".
Proof. vm_compute. auto. Qed.
Print Assumptions underscore_name_refuted.

(** The class is called after the name in the file, but an instance is made with the Go name. *)
Definition foo_bar : jfile := several "x.proto" [m0 "Foo_bar"].
Theorem go_name_refuted : proper foo_bar /\ map vc_name (classes go_name foo_bar) = [bs "Foo_barValidator"] /\
  map vc_cases (classes go_name foo_bar) = [[(bs "a.b.Foo_bar", bs "FooBarValidator")]] /\ ~ compiles foo_bar (classes go_name foo_bar).
Proof.
  refine (conj _ (conj eq_refl (conj eq_refl _))); [apply properb_sound; vm_compute; reflexivity|]. intros C.
  destruct (co_instances _ _ C _ (bs "a.b.Foo_bar") (bs "FooBarValidator") (or_introl eq_refl)) as [[]|[_ E]]; [now left|discriminate E].
Qed.
Print Assumptions go_name_refuted.

(** ** C58, files without classes *)

(** A file that does not import validate.proto has no classes, so that nothing in it is checked, not even messages that have rules. *)
Theorem unimported_never_found simple f p : (forall d, In d (jf_deps f) -> has_suffix d (bs "validate.proto") = false) ->
  reflective (classes simple f) (top_class f p) (message_class f p) = Throws.
Proof.
  intros H. apply no_import. unfold imports. destruct (existsb _ _) eqn:E; [|reflexivity]. apply existsb_exists in E. destruct E as (d & Hd & E).
  now rewrite (H d Hd) in E.
Qed.
Print Assumptions unimported_never_found.
Example unimported_never_found_met : forall d, In d [bs "a/b.proto"; bs "google/protobuf/any.proto"] -> has_suffix d (bs "validate.proto") = false.
Proof. intros d [<-|[<-|[]]]; reflexivity. Qed.
(** A file without a package does not compile. *)
Theorem no_package_refuted simple f : imports f = true -> package_of f = [] -> jf_msgs f <> [] -> ~ compiles f (classes simple f).
Proof.
  intros I K N C. unfold classes in C. rewrite I in C. destruct (multi f); [|exact (co_package _ _ C _ (or_introl eq_refl) K)].
  destruct (jf_msgs f) as [|m l]; [now elim N|]. exact (co_package _ _ C _ (or_introl eq_refl) K).
Qed.
Print Assumptions no_package_refuted.
Example no_package_refuted_met : let f := mkJFile (bs "a.proto") [] None [pgv] [] [] [m0 "M"] in
  proper f /\ imports f = true /\ package_of f = [] /\ jf_msgs f <> [].
Proof. refine (conj _ (conj eq_refl (conj eq_refl _))); [apply properb_sound; vm_compute; reflexivity|discriminate]. Qed.

(** ** C59 *)

(** Fields are read by the methods that protoc makes. *)
Theorem accessors_agree name l : identifier name = true ->
  field_accessor name l = bs "proto." ++ getter name l ++ bs "()" /\ has_accessor name = bs "proto." ++ has_method name ++ bs "()".
Proof. intros I. apply identifier_ident in I. split; [exact (field_accessor_java name l I)|exact (has_accessor_java name I)]. Qed.
Print Assumptions accessors_agree.
Example accessors_agree_met : identifier (bs "foo_bar2baz_3x_Y__z") = true /\ field_accessor (bs "foo_bar2baz_3x_Y__z") Repeated = bs "proto.getFooBar2Baz3XYZList()".
Proof. vm_compute. auto. Qed.
(** Oneofs are, if no small letter is directly after a digit in their names. *)
Theorem case_agrees name : identifier name = true -> keeps false name = true -> case_accessor name = bs "proto." ++ case_method name ++ bs "()".
Proof. intros I. exact (case_accessor_java name (identifier_ident name I)). Qed.
Print Assumptions case_agrees.
Example case_agrees_met : identifier (bs "foo_1_a2B") = true /\ keeps false (bs "foo_1_a2B") = true /\ case_accessor (bs "foo_1_a2B") = bs "proto.getFoo1A2BCase()".
Proof. vm_compute. auto. Qed.
Theorem case_refuted : identifier (bs "foo_1a") = true /\ case_accessor (bs "foo_1a") = bs "proto.getFoo1aCase()" /\
  bs "proto." ++ case_method (bs "foo_1a") ++ bs "()" = bs "proto.getFoo1ACase()".
Proof. vm_compute. auto. Qed.
Print Assumptions case_refuted.
(** The method of a field [class] is getClass_ (getClass is one of Object), which is not asked for. *)
Theorem class_field_refuted : field_accessor (bs "class") Single = bs "proto.getClass()".
Proof. reflexivity. Qed.
Print Assumptions class_field_refuted.
