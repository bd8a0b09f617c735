(** C44, C45: packages that compile also do what their rules say, and load without a panic.

    [compiles sc] (GoType.v): the generated package compiles.  [go_apt sc] (GoFit.v): rules for Any, Duration and Timestamp are
    put on such fields, lengths of byte strings fit an int, and byte strings that are map values have no pattern.  [valid]
    (Spec.v): the message satisfies its rules. *)
From Coq Require Import Floats.SpecFloat Lia.
From Verif Require Import Base Num Rules Types Time Iface Checker GoIR GoGen GoSem Spec Wt WtDec WtMsgDec MainFacts GoType GoFit GoTypeFacts GoFieldFacts
  GoCompile GoIdent GoExact Setting Example Values JavaEx GoEx PropIdent.
Local Open Scope string_scope.

(** ** Code that compiles is right *)

Theorem go_compiled_exact : forall re_ok sc0 sc orc, package re_ok sc0 sc -> compiles sc -> go_apt sc -> oracle_ok orc ->
  forall n d m, message sc0 n d m -> forall all,
    (validate sc orc all n m = VNil <-> valid orc sc0 n m) /\
    ((exists e, validate sc orc all n m = VErr e) <-> ~ valid orc sc0 n m).
Proof.
  intros re_ok sc0 sc orc P C A O n d m M all. apply (run_verdict re_ok sc0 sc orc) with (d := d); [|exact M].
  constructor; [apply P|apply P|now apply (compiles_supported re_ok sc0)|exact O].
Qed.
Print Assumptions go_compiled_exact.
Lemma ex_apt : go_apt (checked ex_schema).
Proof.
  intros d Hd _ _. vm_compute in Hd. repeat (destruct Hd as [<-|Hd]; [|]); try contradiction;
    apply Forall_forall; intros f Hf; vm_compute in Hf; repeat (destruct Hf as [<-|Hf]; [|]); try contradiction; cbn; auto;
    repeat split; auto; intros n H; intuition discriminate.
Qed.
Example go_compiled_exact_ex :
  package re_any ex_schema (checked ex_schema) /\ compiles (checked ex_schema) /\ go_apt (checked ex_schema) /\
  message ex_schema "Person" ex_person ex_good /\ validate (checked ex_schema) ex_orc true "Person" ex_good = VNil /\
  message ex_schema "Person" ex_person ex_bad /\ ~ valid ex_orc ex_schema "Person" ex_bad.
Proof.
  assert (MB : message ex_schema "Person" ex_person ex_bad) by (constructor; [reflexivity|reflexivity|exact ex_bad_wt]).
  split; [exact ex_package|]. split; [exact go_supported_compiles_ex|]. split; [exact ex_apt|].
  split; [constructor; [reflexivity|reflexivity|exact ex_good_wt]|]. split; [vm_compute; reflexivity|]. split; [exact MB|].
  apply (go_compiled_exact re_any ex_schema (checked ex_schema) ex_orc ex_package go_supported_compiles_ex ex_apt ex_orc_ok
    "Person" ex_person ex_bad MB true).
  eexists. vm_compute. reflexivity.
Qed.

(** The byte-string clause of [go_apt] is needed: see [go_bytes_values_refuted].  So is the one about misplaced rules: a
    [duration] rule on a field of message type is accepted, compiles, and silences the rules of the embedded message. *)
Definition inner : msgdesc := mkMsg "Inner" [mkField "Name" (FOne TString) (s_rules (min_len 3))] [] false MBoth.
Definition dur_required : field_rules :=
  FR None (Some (RDuration (mkDurationRules (Some true) None None None None None [] []))).
Definition misplaced (fr : field_rules) : schema :=
  mkSchema [mkMsg "M" [mkField "F" (FOne (TMsg "Inner")) fr] [] false MBoth; inner] [] ["M"; "Inner"].
Definition short_inner : msgval := MV [("Name", VStr (bs "a"))] [].
Definition short_msg : msgval := one_value (VMsg (Some short_inner)).
Theorem go_misplaced_refuted :
  (package re_any (misplaced dur_required) (checked (misplaced dur_required)) /\ compiles (checked (misplaced dur_required)) /\
   message (misplaced dur_required) "M" (mkMsg "M" [mkField "F" (FOne (TMsg "Inner")) dur_required] [] false MBoth) short_msg /\
   validate (checked (misplaced dur_required)) lit_orc false "M" short_msg = VNil) /\
  (exists e, validate (checked (misplaced dur_required)) lit_orc false "Inner" short_inner = VErr e) /\
  exists e, validate (checked (misplaced (FR None None))) lit_orc false "M" short_msg = VErr e.
Proof.
  assert (P : package re_any (misplaced dur_required) (checked (misplaced dur_required))) by (apply checked_package; vm_compute; reflexivity).
  split; [|split; eexists; vm_compute; reflexivity].
  split; [exact P|]. split.
  - apply (compiles_iff _ _ _ P).
    assert (E : checked (misplaced dur_required) = misplaced dur_required) by (vm_compute; reflexivity). rewrite E. clear E P.
    intros d [<-|[<-|[]]]; intros _ _; (constructor; [|constructor]); unfold field_fit; cbn [fr_typ f_rules f_type dur_required s_rules].
    + split; [intros _; exact I|]. left. cbn. repeat split; auto.
    + split; [|split]; cbn; [split|split|repeat split]; auto; try discriminate; try (intros ? [= <-]; reflexivity).
  - split; [constructor; [reflexivity|reflexivity|apply (wt_msgb_sound _ 5); vm_compute; reflexivity]|vm_compute; reflexivity].
Qed.
Print Assumptions go_misplaced_refuted.

(** ** Loading the package

    Every pattern becomes a package variable that is initialised with [regexp.MustCompile] (msg.go:153-204), which panics on
    a pattern that does not compile.  [re_ok] is what the plugin's own [regexp.Compile] says (checker.go:481-487). *)
Theorem go_init_patterns : forall re_ok sc0 sc, check_schema re_ok sc0 = Some sc ->
  (forall d f, In d (sc_msgs sc) -> md_disabled d = true -> In f (all_fields d) -> fr_typ (f_rules f) = None) ->
  forall x p, In (x, DRegex p) (pkg_decls sc) -> re_ok p = true.
Proof. intros re_ok sc0 sc C D x p H. exact (init_regex re_ok sc0 sc C x p D H). Qed.
Print Assumptions go_init_patterns.

(** An engine that knows no "[". *)
Definition no_class (p : bytes) : bool := negb (contains p (bs "[")).
Definition patterns : schema :=
  mkSchema [mkMsg "M" [mkField "A" (FOne TString) (pattern_rules "a+"); mkField "B" (FRep TString) (list_of (pattern_rules "b"));
                       mkField "C" (FMap TString TString) (map_of (Some (pattern_rules "c")) None);
                       mkField "D" (FOne TBytes) (byt_pattern "d")] [] false MBoth] [] ["M"].
Example go_init_patterns_ex :
  check_schema no_class patterns = Some patterns /\
  map snd (filter (fun d => match snd d with DRegex _ => true | _ => false end) (pkg_decls patterns)) = map (fun p => DRegex (bs p)) ["a+"; "b"; "c"; "d"] /\
  check_schema no_class (one_schema (FRep TString) (list_of (pattern_rules "[a"))) = None.
Proof. vm_compute. repeat split. Qed.

(** Rules of disabled messages are not checked, but their patterns are still compiled when the package is loaded. *)
Definition disabled_pattern : schema := mkSchema [mkMsg "M" [mkField "F" (FOne TString) (pattern_rules "[a")] [] true MBoth] [] ["M"].
Theorem go_init_disabled_refuted :
  exists sc, check_schema no_class disabled_pattern = Some sc /\ wf_schema disabled_pattern /\
    exists x p, In (x, DRegex p) (pkg_decls sc) /\ no_class p = false.
Proof.
  exists disabled_pattern. split; [vm_compute; reflexivity|]. split; [apply wf_schemab_sound; vm_compute; reflexivity|].
  exists "_M_F_Pattern", (bs "[a"). split; [vm_compute; tauto|vm_compute; reflexivity].
Qed.
Print Assumptions go_init_disabled_refuted.
