(** C47: what one run of the plugin writes.  The path functions of protoc-gen-star and the Java class names are oracles. *)
From Coq Require Import Permutation.
From Verif Require Import Base Rules Types Checker Setting Lit BaseFacts Plugin PluginFacts Conflict Example JavaEx PropChecker.

(** A file, and the same file with the rules that the checker left. *)
Record kept (re_ok : bytes -> bool) (all : schema) (f f' : pfile) : Prop := {
  kept_name : fl_name f' = fl_name f;
  kept_deps : fl_deps f' = fl_deps f;
  kept_package : fl_package f' = fl_package f;
  kept_options : fl_options f' = fl_options f;
  kept_multi : fl_multi f' = fl_multi f;
  kept_java : fl_java_package f' = fl_java_package f;
  kept_top : Forall2 (fun m m' => check_msg re_ok all m = Some m') (fl_top f) (fl_top f');
  kept_nested : Forall2 (fun m m' => check_msg re_ok all m = Some m') (fl_nested f) (fl_nested f') }.

(** The files that the README promises for each target. *)
Section Wanted.
Variables (set_ext join : bytes -> bytes -> bytes) (go_path class_file : pfile -> bytes) (class_msg : string -> bytes).
Inductive wanted (lang module : bytes) (f : pfile) : artifact -> Prop :=
| wanted_go : lang = bs "go" ->
    wanted lang module f (mkArtifact (out_path (set_ext (go_path f) (bs ".validate.go")) module) (bs "go") (OnFile f))
| wanted_h : lang = bs "cc" ->
    wanted lang module f (mkArtifact (out_path (set_ext (fl_name f) (bs ".pb.validate.h")) module) (bs "h") (OnFile f))
| wanted_cc : lang = bs "cc" ->
    wanted lang module f (mkArtifact (out_path (set_ext (fl_name f) (bs ".pb.validate.cc")) module) (bs "cc") (OnFile f))
| wanted_java p : lang = bs "java" -> In (p ++ bs "validate.proto") (fl_deps f) -> ~ (fl_options f = true /\ fl_multi f = true) ->
    wanted lang module f (mkArtifact (out_path (join (java_dir f) (class_file f ++ bs "Validator.java")) module) (bs "java") (OnFile f))
| wanted_java_each p m : lang = bs "java" -> In (p ++ bs "validate.proto") (fl_deps f) -> fl_options f = true -> fl_multi f = true ->
    In m (fl_top f) ->
    wanted lang module f (mkArtifact (join (java_dir f) (class_msg (md_name m) ++ bs "Validator.java")) (bs "java") (OnMessage m)).
End Wanted.

Lemma check_file_kept re_ok all f f' : check_file re_ok all f = Some f' <-> kept re_ok all f f'.
Proof.
  unfold check_file. split.
  - destruct (map_opt _ (fl_top f)) eqn:T; [|discriminate]. destruct (map_opt _ (fl_nested f)) eqn:N; [|discriminate].
    intros [= <-]. constructor; auto; now apply ExecMsg.map_opt_forall2.
  - intros [A B C D E F T N]. apply forall2_map_opt in T, N. rewrite T, N. destruct f'; cbn in *. now subst.
Qed.

Lemma imports_in f : imports_pgv f = true <-> exists p, In (p ++ bs "validate.proto") (fl_deps f).
Proof.
  unfold imports_pgv. rewrite existsb_exists. split.
  - intros (d & Hd & E). apply BaseFacts.has_suffix_spec in E. destruct E as [p E]. exists p. now rewrite <- E.
  - intros (p & H). exists (p ++ bs "validate.proto"). split; auto. apply BaseFacts.has_suffix_spec. now exists p.
Qed.

Section Runs.
Variables (set_ext join : bytes -> bytes -> bytes) (go_path class_file : pfile -> bytes) (class_msg : string -> bytes) (re_ok : bytes -> bool) (all : schema).
Notation execute := (execute set_ext join go_path class_file class_msg re_ok all).
Notation file_artifacts := (file_artifacts set_ext join go_path class_file class_msg).
Notation wanted := (wanted set_ext join go_path class_file class_msg).

Lemma artifacts_wanted lang module tpls f a : templates_of lang = Some tpls ->
  (In a (file_artifacts lang module tpls f) <-> wanted lang module f a).
Proof using.
  intros T. assert (K : lang = bs "cc" \/ lang = bs "go" \/ lang = bs "java") by (apply templates_known; congruence).
  unfold Plugin.file_artifacts. destruct K as [K|[K|K]]; subst lang; vm_compute in T; injection T as <-; cbn [flat_map app].
  - change (file_path _ _ _ _ [104%N] f) with (Some (set_ext (fl_name f) (bs ".pb.validate.h"))).
    change (file_path _ _ _ _ [99%N; 99%N] f) with (Some (set_ext (fl_name f) (bs ".pb.validate.cc"))).
    change (bytes_eqb _ (bs "java")) with false. rewrite !andb_false_r. cbn [app In]. split.
    + intros [<-|[<-|[]]]; [now apply wanted_h|now apply wanted_cc].
    + intros W. inversion W; subst; try discriminate; auto.
  - change (file_path _ _ _ _ [103%N; 111%N] f) with (Some (set_ext (go_path f) (bs ".validate.go"))).
    change (bytes_eqb _ (bs "java")) with false. rewrite !andb_false_r. cbn [app In]. split.
    + intros [<-|[]]. now apply wanted_go.
    + intros W. inversion W; subst; try discriminate; auto.
  - change (file_path _ _ _ _ [106%N; 97%N; 118%N; 97%N] f)
      with (if imports_pgv f then Some (join (java_dir f) (class_file f ++ bs "Validator.java")) else None).
    change (bytes_eqb _ (bs "java")) with true. rewrite andb_true_r, app_nil_r. destruct (imports_pgv f) eqn:I.
    + apply imports_in in I. destruct I as [p I]. destruct (fl_options f && fl_multi f) eqn:O.
      * apply andb_true_iff in O. destruct O as [O M]. rewrite in_map_iff. split.
        -- intros (m & <- & Hm). eapply wanted_java_each; eauto.
        -- intros W. inversion W; subst; try discriminate; [exfalso; match goal with H : ~ _ |- _ => apply H; now split end|]. exists m. split; [reflexivity|assumption].
      * split.
        -- intros [<-|[]]. eapply wanted_java; eauto. intros [A B]. rewrite A, B in O. discriminate.
        -- intros W. inversion W; subst; try discriminate; cbn; auto. rewrite H1, H2 in O. discriminate O.
    + split; [intros []|]. intros W. inversion W; subst; try discriminate.
      * assert (X : imports_pgv f = true) by (apply imports_in; eauto). congruence.
      * assert (X : imports_pgv f = true) by (apply imports_in; eauto). congruence.
Qed.

(** Nothing is written iff the language is unknown or the checker rejects some message of some target. *)
Theorem plugin_fails_iff : forall lang module files, execute lang module files = None <->
  ~ In lang [bs "cc"; bs "go"; bs "java"] \/
  exists f m, In f files /\ In m (fl_top f ++ fl_nested f) /\ check_msg re_ok all m = None.
Proof using.
  intros. rewrite execute_none. cbn [In]. assert (E : forall x y : bytes, x = y <-> y = x) by (split; auto).
  rewrite (E lang (bs "cc")), (E lang (bs "go")), (E lang (bs "java")). tauto.
Qed.

(** A run that succeeds writes the promised files and no others, from the rules that the checker accepted. *)
Theorem plugin_writes : forall lang module files arts, execute lang module files = Some arts ->
  forall a, In a arts <-> exists f f', In f files /\ kept re_ok all f f' /\ wanted lang module f' a.
Proof using.
  intros lang module files arts E a. apply execute_some in E. destruct E as (tpls & fs & T & F & ->). rewrite in_flat_map.
  apply Forall2_in_both in F. destruct F as [F1 F2]. split.
  - intros (f' & Hf & Ha). destruct (F2 f' Hf) as (f & I & C). exists f, f'. repeat split; auto; try (now apply check_file_kept in C; apply C).
    now apply (artifacts_wanted lang module tpls).
  - intros (f & f' & Hf & K & W). destruct (F1 f Hf) as (g & I & C). apply check_file_kept in K.
    assert (f' = g) by congruence. subst g. exists f'. split; auto. now apply artifacts_wanted.
Qed.

(** Each file once, in the order in which the targets are visited. *)
Theorem plugin_go_paths : forall module files arts, (forall f f', kept re_ok all f f' -> go_path f' = go_path f) ->
  execute (bs "go") module files = Some arts ->
  map at_path arts = map (fun f => out_path (set_ext (go_path f) (bs ".validate.go")) module) files.
Proof using.
  intros module files arts G E. apply execute_some in E. destruct E as (tpls & fs & T & F & ->).
  vm_compute in T. injection T as <-. induction F as [|f f' l l' C _ IH]; auto. cbn [flat_map map]. rewrite map_app, IH.
  apply check_file_kept in C. rewrite <- (G f f' C). unfold Plugin.file_artifacts. cbn [flat_map].
  change (file_path _ _ _ _ [103%N; 111%N] f') with (Some (set_ext (go_path f') (bs ".validate.go"))).
  change (bytes_eqb _ (bs "java")) with false. rewrite andb_false_r. reflexivity.
Qed.
Theorem plugin_cc_paths : forall module files arts, execute (bs "cc") module files = Some arts ->
  map at_path arts = flat_map (fun f => [out_path (set_ext (fl_name f) (bs ".pb.validate.h")) module;
                                         out_path (set_ext (fl_name f) (bs ".pb.validate.cc")) module]) files.
Proof using.
  intros module files arts E. apply execute_some in E. destruct E as (tpls & fs & T & F & ->).
  vm_compute in T. injection T as <-. induction F as [|f f' l l' C _ IH]; auto. cbn [flat_map map]. rewrite map_app, IH.
  apply check_file_kept in C. rewrite <- (kept_name _ _ _ _ C). unfold Plugin.file_artifacts. cbn [flat_map].
  change (file_path _ _ _ _ [104%N] f') with (Some (set_ext (fl_name f') (bs ".pb.validate.h"))).
  change (file_path _ _ _ _ [99%N; 99%N] f') with (Some (set_ext (fl_name f') (bs ".pb.validate.cc"))).
  change (bytes_eqb _ (bs "java")) with false. rewrite !andb_false_r. reflexivity.
Qed.

(** The targets come from a Go map: in whichever order they are visited, the same files are written with the same content,
    or nothing is. *)
Theorem plugin_order : forall lang module files files', Permutation files files' ->
  match execute lang module files, execute lang module files' with
  | Some x, Some y => Permutation x y
  | None, None => True
  | _, _ => False
  end.
Proof using. exact (execute_perm _ _ _ _ _ _ _). Qed.

(** When the targets hold all the messages in sight, a run that succeeds vouches for all of their rules (C24, C25). *)
Theorem plugin_consistent : forall lang module files arts, header_patterns_ok re_ok ->
  execute lang module files = Some arts ->
  (forall m, In m (sc_msgs all) -> exists f, In f files /\ In m (fl_top f ++ fl_nested f)) -> consistent re_ok all.
Proof using.
  intros lang module files arts P E C. apply checker_sound; auto. unfold check_schema.
  destruct (map_opt (check_msg re_ok all) (sc_msgs all)) eqn:M; [discriminate|]. exfalso. apply map_opt_none in M. destruct M as (m & Hm & N).
  destruct (C m Hm) as (f & Hf & Im). assert (X : execute lang module files = None); [|congruence].
  apply execute_none. right. eauto.
Qed.
End Runs.
Print Assumptions plugin_fails_iff.
Print Assumptions plugin_writes.
Print Assumptions plugin_go_paths.
Print Assumptions plugin_cc_paths.
Print Assumptions plugin_order.
Print Assumptions plugin_consistent.

(** ** Examples.  Oracles for simple names: ".proto" is replaced, "/" joins. *)
Definition ex_ext (p e : bytes) : bytes := firstn (List.length p - 6) p ++ e.
Definition ex_join (a b : bytes) : bytes := a ++ bs "/" ++ b.
Definition ex_go (f : pfile) : bytes := bs "example.com/m/" ++ fl_name f.
Definition ex_class (f : pfile) : bytes := bs "Geo".
Notation ex_run := (execute ex_ext ex_join ex_go ex_class bs re_any).
Definition geo (top nested : list msgdesc) (deps : list bytes) (multi : bool) : pfile :=
  mkFile (bs "geo.proto") top nested deps (bs "geo.v1") true multi None.
Definition pgv_import := bs "validate/validate.proto".
Definition ex_person_file : pfile := geo (firstn 1 (sc_msgs ex_schema)) (skipn 1 (sc_msgs ex_schema)) [pgv_import] false.

Example plugin_ex :
  (exists f', ex_run ex_schema (bs "go") (bs "example.com/m") [ex_person_file] =
     Some [mkArtifact (bs "geo.validate.go") (bs "go") (OnFile f')]) /\
  (exists f', ex_run ex_schema (bs "cc") [] [ex_person_file] =
     Some [mkArtifact (bs "geo.pb.validate.h") (bs "h") (OnFile f'); mkArtifact (bs "geo.pb.validate.cc") (bs "cc") (OnFile f')]) /\
  (exists f', ex_run ex_schema (bs "java") [] [ex_person_file] =
     Some [mkArtifact (bs "geo/v1/GeoValidator.java") (bs "java") (OnFile f')]) /\
  ex_run ex_schema (bs "python") [] [ex_person_file] = None /\
  (forall f f', kept re_any ex_schema f f' -> ex_go f' = ex_go f) /\
  header_patterns_ok re_any /\
  (forall m, In m (sc_msgs ex_schema) -> exists f, In f [ex_person_file] /\ In m (fl_top f ++ fl_nested f)).
Proof.
  split; [vm_compute; eauto|]. split; [vm_compute; eauto|]. split; [vm_compute; eauto|]. split; [reflexivity|].
  split; [intros f f' K; unfold ex_go; now rewrite (kept_name _ _ _ _ K)|]. split; [repeat split|].
  intros m H. exists ex_person_file. split; [now left|]. cbn [ex_person_file geo fl_top fl_nested]. now rewrite firstn_skipn.
Qed.
(** A string with min_len 3 and max_len [n]. *)
Definition short_string (n : N) : msgdesc := one_field (FOne TString) (FR None (Some (RString
  (mkStringRules None None (Some 3%N) (Some n) None None None None None None None None [] [] None None None)))).
(** One rejected message, nested in whichever file, and there is no output for any. *)
Example plugin_fails_ex :
  ex_run (mkSchema [] [] []) (bs "go") [] [geo [short_string 5] [] [pgv_import] false; geo [] [short_string 5] [] true] <> None /\
  ex_run (mkSchema [] [] []) (bs "go") [] [geo [short_string 5] [] [pgv_import] false; geo [] [short_string 2] [] true] = None /\
  ex_run (mkSchema [] [] []) [] [] [] = None.
Proof. split; [vm_compute; discriminate|]. split; reflexivity. Qed.

(** Files with rules do not always get a validator: a Java target that sees validate.proto through a public import of
    another file is passed over in silence, while Go and C++ validate it. *)
Theorem plugin_java_import_refuted : exists all f m r,
  In m (fl_top f) /\ In (mkField "F" (FOne TString) r) (md_fields m) /\ fr_typ r <> None /\
  ex_run all (bs "java") [] [f] = Some [] /\
  (exists a, ex_run all (bs "go") [] [f] = Some [a]) /\ exists a b, ex_run all (bs "cc") [] [f] = Some [a; b].
Proof.
  exists (mkSchema [] [] []), (geo [short_string 5] [] [bs "common.proto"] false), (short_string 5),
    (FR None (Some (RString (mkStringRules None None (Some 3%N) (Some 5%N) None None None None None None None None [] [] None None None)))).
  split; [now left|]. split; [now left|]. split; [discriminate|]. split; [reflexivity|]. split; vm_compute; eauto.
Qed.

(** The module parameter is removed from the path of a Java file, but not with java_multiple_files. *)
Theorem plugin_java_module_refuted : exists all m module s t p,
  ex_run all (bs "java") module [geo [m] [] [pgv_import] false] = Some [mkArtifact (bs "v1/GeoValidator.java") t s] /\
  ex_run all (bs "java") module [geo [m] [] [pgv_import] true] = Some [mkArtifact (module ++ p) t (OnMessage m)] /\ module <> [].
Proof.
  exists (mkSchema [] [] []), (short_string 5), (bs "geo/"), (OnFile (geo [short_string 5] [] [pgv_import] false)), (bs "java"),
    (bs "v1/MValidator.java").
  split; [reflexivity|]. split; [reflexivity|discriminate].
Qed.
Print Assumptions plugin_java_import_refuted.
Print Assumptions plugin_java_module_refuted.
