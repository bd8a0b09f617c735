(** C51: what a run of the conformance suite certifies.

    The programs in HarnessMain.v validate the message of a case and answer; the executor (Harness.v, PropHarness.v) compares the
    answers with what the case expects and counts. *)
From Coq Require Import Permutation.
From Verif Require Import Base Utf8 Num Rules Types Iface Checker GoSem Spec SpecErr LitSpec Wt WtDec WtMsgDec Setting MainFacts ErrText ErrTextFacts RuleFacts Outcome
  Harness HarnessSpec HarnessFacts HarnessRun HarnessMain HarnessMainSpec HarnessMainFacts
  Java JavaSpec Cc CcSpec Py PySpec AllSpec AllFacts Example JavaEx CcEx PyEx AllEx PropErr PropHarness.

(** ** One answer *)

(** Whatever the texts and the order of maps, and whatever else may happen: a harness that answers tells whether the message
    is valid.  It never allows the executor to skip the case, nor asks it to compare the number of failures. *)
Theorem harness_answer_right : forall re_ok sc0 sc orc jl cl pl pn sprint ix_text plain_text ignored t h x,
  fit sc0 sc orc cl pl pn ignored re_ok h -> covered sc0 sc orc jl cl pl ignored t h ->
  runs sc0 sc orc jl cl pl pn sprint ix_text plain_text ignored t h x ->
  x = None \/ exists v e k, x = Some (Answer v e k false false) /\ (v = true <-> valid orc sc0 (c_type t) (c_msg t)).
Proof. exact answers. Qed.
Print Assumptions harness_answer_right.

(** Without accidents it answers, and reports no error of its own. *)
Theorem harness_answers : forall re_ok sc0 sc orc jl cl pl pn sprint ix_text plain_text ignored t h x,
  (h = LGo -> no_legacy sc0) -> fit sc0 sc orc cl pl pn ignored re_ok h -> covered sc0 sc orc jl cl pl ignored t h ->
  smooth sc0 sc orc jl cl pl pn sprint ix_text plain_text ignored t h x ->
  exists v k, x = Some (Answer v false k false false) /\ (v = true <-> valid orc sc0 (c_type t) (c_msg t)).
Proof. exact smooth_answers. Qed.
Print Assumptions harness_answers.

(** The reasons that the Go program answers are the texts of the violations that ValidateAll found, one each. *)
Theorem go_harness_reasons : forall re_ok sc0 sc orc, setting re_ok sc0 sc orc -> forall sprint ix_text plain_text ignored n d m,
  message sc0 n d m -> md_methods d = MBoth -> ignored n = false -> no_legacy sc0 -> ~ valid orc sc0 n m ->
  (forall g, validate sc orc true n m = VErr g -> Forall (fun e => valid_utf8 (error_text sprint ix_text plain_text e)) (leaves g)) ->
  exists g, validate sc orc true n m = VErr g /\
    go_main sprint ix_text plain_text ignored sc orc n m m =
      Some (TestResult false false (map (error_text sprint ix_text plain_text) (leaves g)) false false).
Proof.
  intros re_ok sc0 sc orc st sprint ix_text plain_text ignored n d m M B Ig NL NV U.
  destruct (go_smooth re_ok sc0 sc orc st sprint ix_text plain_text ignored n d m M B Ig NL NV U) as (g & G & Q & _). eauto.
Qed.
Print Assumptions go_harness_reasons.

(** A type with the option [ignored]: Go answers "valid", Java and C++ that the case may be skipped. *)
Theorem ignored_answers : forall sprint ix_text plain_text ignored sc orc n m1 m2 o text what,
  ignored n = true -> (forall d, find_msg sc n = Some d -> md_methods d = MNone) -> valid_utf8 text ->
  go_harness sprint ix_text plain_text ignored sc orc n m1 m2 = Some (Answer true false 0 false false) /\
  java_harness (ignored n) o text = Some (Answer false false 1 true false) /\
  cc_harness (negb (ignored n)) o text what = Some (Answer false false 1 true false).
Proof.
  intros sprint ix_text plain_text ignored sc orc n m1 m2 o text what I NM U. rewrite I. split; [|split]; [|reflexivity..].
  unfold go_harness, go_main. rewrite I. destruct (find_msg sc n) as [d|]; [rewrite (NM d eq_refl)|]; reflexivity.
Qed.
Print Assumptions ignored_answers.

(** Only a validator that has passed is reported so: no other end of it, and no crash, is answered with "valid".  This needs
    no assumptions about the schema or the message. *)
Theorem valid_answer_means_passed : forall o reason what known ign e k a b,
  (java_harness ign o reason = Some (Answer true e k a b) -> o = Passes /\ ign = false) /\
  (cc_harness known o reason what = Some (Answer true e k a b) -> o = Passes /\ known = true) /\
  (py_harness o reason = Some (Answer true e k a b) -> o = Passes).
Proof.
  intros o reason what known ign e k a b. split; [|split].
  - unfold java_harness, java_main. destruct ign, o; cbn; try discriminate. auto.
  - unfold cc_harness, cc_main, deliver. destruct known, o; cbn; try discriminate; try (destruct (_ && _); discriminate). auto.
  - unfold py_harness, py_main. destruct o; try discriminate; auto. destruct (utf8b _); discriminate.
Qed.
Print Assumptions valid_answer_means_passed.
Theorem go_valid_answer_means_passed : forall sprint ix_text plain_text ignored sc orc n m1 m2 e k a b,
  go_harness sprint ix_text plain_text ignored sc orc n m1 m2 = Some (Answer true e k a b) ->
  if ignored n then match find_msg sc n with Some d => md_methods d = MNone | None => True end
  else validate sc orc false n m1 = VNil /\ validate sc orc true n m2 = VNil.
Proof.
  intros sprint ix_text plain_text ignored sc orc n m1 m2 e k a b. unfold go_harness, go_main, deliver.
  destruct (ignored n).
  - destruct (find_msg sc n) as [d|]; auto. destruct (md_methods d); cbn; auto; discriminate.
  - destruct (match find_msg sc n with Some d => md_methods d | None => MNone end); cbn [check_valid]; try discriminate.
    destruct (validate sc orc false n m1) as [|e1|], (validate sc orc true n m2) as [|e2|]; cbn [go_error check_valid]; auto; try discriminate.
    destruct e2; cbn [go_error check_valid]; try discriminate. destruct (flat_map _ _); [discriminate|]. destruct (bytes_eqb _ _); [|discriminate].
    destruct (forallb _ _); discriminate.
Qed.
Print Assumptions go_valid_answer_means_passed.
Example valid_answer_means_passed_ex :
  java_harness false Passes [] = Some (Answer true false 0 false false) /\ java_harness false Crashes [] = Some (Answer false true 1 false false) /\
  cc_harness true Passes [] [] = Some (Answer true false 1 false false) /\ cc_harness true Crashes [] [] = None /\
  py_harness Passes [] = Some (Answer true false 0 false false) /\ py_harness Crashes [] = None.
Proof. repeat split; vm_compute; reflexivity. Qed.

(** ** A whole run *)

(** If [run] reports no failure, every expectation agrees with the rules, and nothing was skipped. *)
Theorem green_run_certifies : forall re_ok sc0 sc orc jl cl pl pn sprint ix_text plain_text ignored encodes hs parallelism ts s s' a c,
  start tcase lang hs parallelism ts = Some s ->
  steps tcase lang encodes c_failures (runs sc0 sc orc jl cl pl pn sprint ix_text plain_text ignored) hs s s' ->
  s_main _ _ s' = MRet a 0 c ->
  (forall h, In h hs -> fit sc0 sc orc cl pl pn ignored re_ok h) ->
  (forall t h, In t ts -> In h hs -> covered sc0 sc orc jl cl pl ignored t h) ->
  Forall (right_case sc0 orc) ts /\ c = 0 /\ a = List.length ts * List.length hs.
Proof.
  intros re_ok sc0 sc orc jl cl pl pn sprint ix_text plain_text ignored encodes hs parallelism ts s s' a c St Ss E F C.
  destruct (r_counts _ _ _ _ _ _ _ _ _ _ _ _ _ St Ss E) as ((l & R & A & B & K) & _).
  assert (NH : hs <> []).
  { intros ->. unfold start in St. destruct (parallelism <=? 0)%Z; discriminate. }
  subst a c. destruct (report_green re_ok sc0 sc orc jl cl pl pn sprint ix_text plain_text ignored encodes hs ts l NH R B F C) as (Q & S1 & S2). auto.
Qed.
Print Assumptions green_run_certifies.

(** If every expectation is right, messages can be encoded and no accidents happen, [run] reports only successes. *)
Theorem no_false_alarm : forall re_ok sc0 sc orc jl cl pl pn sprint ix_text plain_text ignored encodes hs parallelism ts s s' a b c,
  start tcase lang hs parallelism ts = Some s ->
  steps tcase lang encodes c_failures (smooth sc0 sc orc jl cl pl pn sprint ix_text plain_text ignored) hs s s' ->
  s_main _ _ s' = MRet a b c ->
  Forall (right_case sc0 orc) ts -> (forall t, In t ts -> encodes t = true) -> (In LGo hs -> no_legacy sc0) ->
  (forall h, In h hs -> fit sc0 sc orc cl pl pn ignored re_ok h) ->
  (forall t h, In t ts -> In h hs -> covered sc0 sc orc jl cl pl ignored t h) ->
  a = List.length ts * List.length hs /\ b = 0 /\ c = 0.
Proof.
  intros re_ok sc0 sc orc jl cl pl pn sprint ix_text plain_text ignored encodes hs parallelism ts s s' a b c St Ss E R En NL F C.
  destruct (r_counts _ _ _ _ _ _ _ _ _ _ _ _ _ St Ss E) as ((l & Rp & <- & <- & <-) & _).
  exact (report_smooth re_ok sc0 sc orc jl cl pl pn sprint ix_text plain_text ignored encodes hs ts l Rp R En NL F C).
Qed.
Print Assumptions no_false_alarm.

(** ** An example: a good and a bad order, on all four harnesses *)
Definition none : string -> bool := fun _ => false.
Definition ex_ix (i : ixval) : bytes := match i with IxV (VStr s) => s | _ => bs "0" end.
Definition ex_plain : GoSem.plain -> bytes := fun _ => bs "bad".
Definition ex_cases : list tcase := [Case "Order" ex5_good 0; Case "Order" ex5_bad 1].
Definition ex_langs : list lang := [LGo; LCc; LJava; LPython].
Notation ex_runs := (runs ex5_schema ex5_schema ex_orc ex_jl ex_cl ex_pl ex_pn ex_sprint ex_ix ex_plain none).
Notation ex_smooth := (smooth ex5_schema ex5_schema ex_orc ex_jl ex_cl ex_pl ex_pn ex_sprint ex_ix ex_plain none).

Example ex_fit : forall h, fit ex5_schema ex5_schema ex_orc ex_cl ex_pl ex_pn none re_any h.
Proof. assert (S := ex5_setting). intros []; cbn [fit]; eauto using co_go, co_java, co_cc, co_py. Qed.
Example ex_covered : forall t h, In t ex_cases -> covered ex5_schema ex5_schema ex_orc ex_jl ex_cl ex_pl none t h.
Proof.
  intros t h It. split; [reflexivity|]. exists ex5_order. destruct It as [<-|[<-|[]]]; cbn [c_type c_msg].
  - destruct (co_values _ _ _ _ _ _ ex5_setting "Order" ex5_good ex5_good_values ex_jl ex_cl) as (VJ & VC & VP).
    split; [exact ex5_good_msg|]. destruct h; auto.
  - destruct (co_values _ _ _ _ _ _ ex5_setting "Order" ex5_bad ex5_bad_values ex_jl ex_cl) as (VJ & VC & VP).
    split; [exact ex5_bad_msg|]. destruct h; auto.
Qed.
Lemma ex_no_legacy : no_legacy ex5_schema.
Proof.
  intros k x F. unfold find_msg in F. apply find_some in F. destruct F as [I _]. cbn [sc_msgs ex5_schema] in I.
  in_fields I; discriminate.
Qed.
(** What each program answers. *)
Definition ex_answer (t : tcase) (h : lang) : execution :=
  let m := c_msg t in let n := c_type t in let k := S (mheight m) in
  match h with
  | LGo => go_harness ex_sprint ex_ix ex_plain none ex5_schema ex_orc n m m
  | LCc => cc_harness true (cc_validate_f ex_cl ex5_schema k n m) (bs "bad") []
  | LJava => java_harness false (assert_valid_f ex_jl ex5_schema none k n m) (bs "bad")
  | LPython => py_harness (py_validate_f ex_pl ex_pn ex5_schema k n m) (bs "bad")
  end.
Example ex_answers :
  ex_answer (Case "Order" ex5_good 0) LGo = Some (Answer true false 0 false false) /\
  ex_answer (Case "Order" ex5_bad 1) LGo = Some (Answer false false 1 false false) /\
  ex_answer (Case "Order" ex5_bad 1) LPython = Some (Answer false false 1 false false).
Proof. vm_compute. auto. Qed.
Lemma ex_answer_runs t h x : x = ex_answer t h -> ex_runs t h x.
Proof.
  intros ->. right. destruct h; cbn [ex_answer]; repeat eexists; try apply same_msg_refl; auto.
Qed.
Lemma ex_answer_smooth t h x : In t ex_cases -> x = ex_answer t h -> ex_smooth t h x.
Proof.
  intros It ->. assert (U : valid_utf8 (bs "bad")) by (apply ascii_utf8; vm_compute; reflexivity).
  destruct h; cbn [ex_answer smooth].
  - exists (c_msg t). split; [apply same_msg_refl|]. split; [|reflexivity]. intros g Hg. destruct It as [<-|[<-|[]]].
    + assert (K : validate ex5_schema ex_orc true "Order" ex5_good = VNil) by (vm_compute; reflexivity). cbn [c_type c_msg] in Hg. rewrite K in Hg. discriminate Hg.
    + cbn [c_type c_msg] in Hg. vm_compute in Hg. injection Hg as <-. cbn [leaves]. repeat (apply Forall_cons; [apply ascii_utf8; vm_compute; reflexivity|]). apply Forall_nil.
  - exists (c_msg t). do 3 eexists. split; [apply same_msg_refl|]. split; [apply Nat.lt_succ_diag_r|]. split; [exact U|reflexivity].
  - exists (c_msg t). do 2 eexists. split; [apply same_msg_refl|]. split; [apply Nat.lt_succ_diag_r|reflexivity].
  - exists (c_msg t). do 2 eexists. split; [apply same_msg_refl|]. split; [apply Nat.lt_succ_diag_r|]. split; [exact U|]. split; [|reflexivity].
    vm_compute. repeat constructor.
Qed.
(** A run with two workers that ends with eight successes. *)
Example ex_green : exists s s', start tcase lang ex_langs 2 ex_cases = Some s /\
  steps tcase lang (fun _ => true) c_failures ex_runs ex_langs s s' /\ s_main _ _ s' = MRet 8 0 0.
Proof.
  set (ex := fun t h x => x = ex_answer t h).
  destruct (start tcase lang ex_langs 2 ex_cases) as [s|] eqn:St; [|discriminate].
  destruct (run_returns tcase lang (fun _ => true) c_failures ex ex_langs (fun t h => ex_intro _ _ eq_refl) 2 ex_cases s s St (steps_refl _ _ _ _ _ _ s))
    as (s' & a & b & c & Ss & E).
  exists s, s'. split; [reflexivity|]. split; [exact (steps_mono _ _ _ _ _ _ _ ex_answer_runs s s' Ss)|]. rewrite E.
  destruct (r_counts _ _ _ _ _ _ _ _ _ _ _ _ _ St Ss E) as ((l & [P F] & <- & <- & <-) & _).
  assert (R : report tcase lang (fun _ => true) c_failures ex_smooth ex_langs ex_cases l).
  { split; [exact P|]. rewrite Forall_forall in F |- *. intros [[t [h|]] r] I; assert (Q := F _ I); [|exact Q].
    destruct Q as (e & X & ->). exists e. split; [|reflexivity]. apply ex_answer_smooth; [|exact X].
    assert (K : In (t, Some h) (map fst l)) by (apply in_map_iff; exists ((t, Some h), verdict (c_failures t) e); auto).
    apply (Permutation_in _ P) in K. apply in_flat_map in K. destruct K as (t' & It & Ij). cbn [jobs] in Ij. unfold jobs in Ij.
    apply in_map_iff in Ij. destruct Ij as (h' & [= <- <-] & _). exact It. }
  destruct (report_smooth re_any _ _ _ _ _ _ _ _ _ _ _ _ _ _ _ R) as (-> & -> & ->).
  - repeat (apply Forall_cons; [|]); [| |apply Forall_nil]; unfold right_case; cbn [c_failures c_type c_msg].
    + split; [intros _|reflexivity]. apply (proj1 (run_verdict _ _ _ _ (ex_fit LGo) _ _ true _ ex5_good_msg)). vm_compute. reflexivity.
    + split; [discriminate|]. intros V. apply (proj2 (proj1 (run_verdict _ _ _ _ (ex_fit LGo) _ _ true _ ex5_bad_msg))) in V. vm_compute in V. discriminate V.
  - reflexivity.
  - intros _. exact ex_no_legacy.
  - intros h _. apply ex_fit.
  - intros t h It _. now apply ex_covered.
  - reflexivity.
Qed.


(** ** Where a harness reports a failure although the expectation is right *)

(** Python: the answer is lost if [repr] of the exception has 128 bytes or more (up to 16383: the length then takes two bytes): harness.py
    decodes the encoded TestResult as UTF-8, which it is not. *)
Theorem py_long_reason_lost : forall reason, (128 <= N.of_nat (List.length reason) < 16384)%N -> py_harness Rejects reason = None.
Proof. exact py_loses. Qed.
Print Assumptions py_long_reason_lost.
Theorem py_harness_reports_refuted : exists t reason,
  covered ex5_schema ex5_schema ex_orc ex_jl ex_cl ex_pl none t LPython /\ right_case ex5_schema ex_orc t /\ valid_utf8 reason /\
  verdict (c_failures t) (py_harness (py_validate_f ex_pl ex_pn ex5_schema (S (mheight (c_msg t))) (c_type t) (c_msg t)) reason) = Result false false.
Proof.
  exists (Case "Order" ex5_bad 1), (repeat 97%N 200). split; [apply ex_covered; right; left; reflexivity|]. split; [|split].
  - split; [discriminate|]. intros V. apply (proj2 (proj1 (run_verdict _ _ _ _ (ex_fit LGo) _ _ true _ ex5_bad_msg))) in V. vm_compute in V. discriminate V.
  - apply ascii_utf8. vm_compute. reflexivity.
  - vm_compute. reflexivity.
Qed.
Print Assumptions py_harness_reports_refuted.

(** Go: Validate and ValidateAll may visit a map in different orders, and then find different first violations. *)
Definition ex_map (l : list string) : msgval := MV [("P"%string, VMap (map (fun k => (VStr (bs k), VNum (NI 1))) l))] [].
Definition ex_pairs : schema := mkSchema [mkMsg "M" [mkField "P" (FMap TString (TNum KInt32)) (FR None (Some (RMap
    (mkMapRules None None None (Some (s_rules (min_len 2))) None None))))] [] false MBoth] [] ["M"%string].
Theorem go_map_order_refuted : exists sc0 sc n d m m',
  setting re_any sc0 sc ex_orc /\ no_legacy sc0 /\ message sc0 n d m /\ md_methods d = MBoth /\ same_msg m m' /\ ~ valid ex_orc sc0 n m /\
  verdict 1 (go_harness ex_sprint ex_ix ex_plain none sc ex_orc n m m) = Result true false /\
  verdict 1 (go_harness ex_sprint ex_ix ex_plain none sc ex_orc n m m') = Result false false.
Proof.
  assert (S : setting re_any ex_pairs (checked_of' ex_pairs) ex_orc) by in_setting'.
  assert (M : message ex_pairs "M" (hd ex_person (sc_msgs ex_pairs)) (ex_map ["a"; "b"]%string)).
  { constructor; [reflexivity|reflexivity|]. apply (wt_msgb_sound _ 3). vm_compute. reflexivity. }
  exists ex_pairs, (checked_of' ex_pairs), "M"%string. do 3 eexists. split; [exact S|]. split; [|split; [exact M|]].
  - intros k x F. unfold find_msg in F. apply find_some in F. destruct F as [[<-|[]] _]. discriminate.
  - split; [reflexivity|]. split; [|split; [|split]].
    + apply (same_mv _ [("P"%string, VMap (map (fun k => (VStr (bs k), VNum (NI 1))) ["b"; "a"]%string))] _ []); [|constructor].
      constructor; [|constructor]. constructor. eapply same_map; [apply perm_swap|]. repeat constructor.
    + intros V. apply (proj2 (proj1 (run_verdict _ _ _ _ S _ _ true _ M))) in V. vm_compute in V. discriminate V.
    + vm_compute. reflexivity.
    + vm_compute. reflexivity.
Qed.
Print Assumptions go_map_order_refuted.

(** Go: a violation inside a message inside a message whose code is older than ValidateAll.  checkValid compares the innermost error of
    Validate with the error of the older message. *)
Definition ex_pos : field_rules := FR None (Some (RNum KInt32 (mkNumRules None None None (Some (NI 0)) None [] [] None))).
Definition ex_old : schema := mkSchema
  [mkMsg "Outer" [mkField "In" (FOne (TMsg "Old")) fr_none] [] false MBoth;
   mkMsg "Old" [mkField "Leaf" (FOne (TMsg "Leaf")) fr_none] [] false MLegacy;
   mkMsg "Leaf" [mkField "X" (FOne (TNum KInt32)) ex_pos] [] false MBoth] [] ["Outer"; "Old"; "Leaf"]%string.
Definition ex_old_bad : msgval :=
  MV [("In", VMsg (Some (MV [("Leaf", VMsg (Some (MV [("X", VNum (NI 0))] [])))] [])))]%string [].
Theorem go_legacy_refuted : exists sc0 sc n d m,
  setting re_any sc0 sc ex_orc /\ message sc0 n d m /\ md_methods d = MBoth /\ ~ valid ex_orc sc0 n m /\
  verdict 1 (go_harness ex_sprint ex_ix ex_plain none sc ex_orc n m m) = Result false false.
Proof.
  assert (S : setting re_any ex_old (checked_of' ex_old) ex_orc) by in_setting'.
  assert (M : message ex_old "Outer" (hd ex_person (sc_msgs ex_old)) ex_old_bad).
  { constructor; [reflexivity|reflexivity|]. apply (wt_msgb_sound _ 4). vm_compute. reflexivity. }
  exists ex_old, (checked_of' ex_old), "Outer"%string. do 2 eexists. split; [exact S|]. split; [exact M|]. split; [reflexivity|]. split.
  - intros V. apply (proj2 (proj1 (run_verdict _ _ _ _ S _ _ true _ M))) in V. vm_compute in V. discriminate V.
  - vm_compute. reflexivity.
Qed.
Print Assumptions go_legacy_refuted.

(** The number of failures a case expects is never checked: only whether it is 0. *)
Theorem failure_count_unchecked : forall re_ok sc0 sc orc jl cl pl pn sprint ix_text plain_text ignored t h x k k',
  fit sc0 sc orc cl pl pn ignored re_ok h -> covered sc0 sc orc jl cl pl ignored t h ->
  runs sc0 sc orc jl cl pl pn sprint ix_text plain_text ignored t h x -> k <> 0%Z -> k' <> 0%Z -> verdict k x = verdict k' x.
Proof.
  intros re_ok sc0 sc orc jl cl pl pn sprint ix_text plain_text ignored t h x k k' F C R K K'.
  destruct (answers re_ok sc0 sc orc jl cl pl pn sprint ix_text plain_text ignored t h x F C R) as [->|(v & e & j & -> & _)]; [reflexivity|].
  unfold verdict. cbn. destruct e; [reflexivity|]. apply Z.eqb_neq in K, K'. now rewrite K, K'.
Qed.
Print Assumptions failure_count_unchecked.
Example failure_count_unchecked_ex : forall h, verdict 1 (ex_answer (Case "Order" ex5_bad 1) h) = Result true false /\
  verdict 7 (ex_answer (Case "Order" ex5_bad 7) h) = Result true false.
Proof. intros []; vm_compute; auto. Qed.
