(** C01-C04, C17 (order), C28: what Validate and ValidateAll return, for whole messages. *)
From Verif Require Import Base Num Rules Types Iface Checker GoGen GoSem Spec SpecErr Meaning Wt Setting MainFacts FieldFacts Example.

Lemma ex_setting : setting re_any ex_schema ex_checked ex_orc.
Proof. constructor; [exact ex_check|exact ex_wf|exact ex_sup|exact ex_orc_ok]. Qed.
Lemma ex_good_msg : message ex_schema "Person" ex_person ex_good.
Proof. constructor; [reflexivity|reflexivity|exact ex_good_wt]. Qed.
Lemma ex_bad_msg : message ex_schema "Person" ex_person ex_bad.
Proof. constructor; [reflexivity|reflexivity|exact ex_bad_wt]. Qed.

(** C01: the generated Validate returns nil on exactly the valid messages and an error on
    all others; in particular it never panics. *)
Theorem go_validate_exact : forall re_ok sc0 sc orc, setting re_ok sc0 sc orc ->
  forall n d m, message sc0 n d m ->
    (validate sc orc false n m = VNil <-> valid orc sc0 n m) /\
    ((exists e, validate sc orc false n m = VErr e) <-> ~ valid orc sc0 n m).
Proof. intros re_ok sc0 sc orc st n d m. exact (run_verdict re_ok sc0 sc orc st n d false m). Qed.
Print Assumptions go_validate_exact.

(** A valid and an invalid message of one schema. *)
Example go_validate_exact_ex : valid ex_orc ex_schema "Person" ex_good /\ ~ valid ex_orc ex_schema "Person" ex_bad.
Proof.
  split.
  - apply (go_validate_exact _ _ _ _ ex_setting _ _ _ ex_good_msg). vm_compute. reflexivity.
  - apply (go_validate_exact _ _ _ _ ex_setting _ _ _ ex_bad_msg). eexists. vm_compute. reflexivity.
Qed.

(** C01 again, with the rule-by-rule reading of validate.proto (Meaning.v): Validate and
    ValidateAll return nil exactly when the message and all messages it includes obey each
    of their rules. *)
Theorem go_validate_meant : forall re_ok sc0 sc orc, setting re_ok sc0 sc orc ->
  forall all n d m, message sc0 n d m -> (validate sc orc all n m = VNil <-> meant orc sc0 n m).
Proof. exact run_meant. Qed.
Print Assumptions go_validate_meant.
Example go_validate_meant_ex : meant ex_orc ex_schema "Person" ex_good /\ ~ meant ex_orc ex_schema "Person" ex_bad.
Proof.
  split.
  - apply (go_validate_meant _ _ _ _ ex_setting false _ _ _ ex_good_msg). vm_compute. reflexivity.
  - rewrite <- (go_validate_meant _ _ _ _ ex_setting false _ _ _ ex_bad_msg). vm_compute. discriminate.
Qed.

(** The same of ValidateAll. *)
Theorem go_validate_all_exact : forall re_ok sc0 sc orc, setting re_ok sc0 sc orc ->
  forall n d m, message sc0 n d m ->
    (validate sc orc true n m = VNil <-> valid orc sc0 n m) /\
    ((exists e, validate sc orc true n m = VErr e) <-> ~ valid orc sc0 n m).
Proof. intros re_ok sc0 sc orc st n d m. exact (run_verdict re_ok sc0 sc orc st n d true m). Qed.
Print Assumptions go_validate_all_exact.
Example go_validate_all_exact_ex : exists e, validate ex_checked ex_orc true "Person" ex_bad = VErr e.
Proof. eexists. vm_compute. reflexivity. Qed.

(** A nil message is accepted by both methods. *)
Theorem go_validate_nil : forall sc orc all n, validate_ptr sc orc all n None = VNil.
Proof. reflexivity. Qed.
Print Assumptions go_validate_nil.

(** C02: Validate and ValidateAll agree, whatever the order in which each visits maps. *)
Theorem go_validate_all_same_verdict : forall re_ok sc0 sc orc, setting re_ok sc0 sc orc ->
  forall n d m m', message sc0 n d m -> same_msg m m' ->
    (validate sc orc false n m = VNil <-> validate sc orc true n m' = VNil).
Proof. intros re_ok sc0 sc orc st n d m m'. exact (run_two_orders re_ok sc0 sc orc st n d false true m m'). Qed.
Print Assumptions go_validate_all_same_verdict.
Example go_validate_all_same_verdict_ex :
  same_msg ex_good ex_good' /\ ex_good <> ex_good' /\
  validate ex_checked ex_orc false "Person" ex_good = VNil /\ validate ex_checked ex_orc true "Person" ex_good' = VNil /\
  same_msg ex_bad ex_bad'.
Proof.
  split; [exact ex_good_same|]. split; [discriminate|]. split; [vm_compute; reflexivity|].
  split; [vm_compute; reflexivity|exact ex_bad_same].
Qed.

(** C02/C17: neither verdict depends on the order. *)
Theorem go_verdict_order_independent : forall re_ok sc0 sc orc, setting re_ok sc0 sc orc ->
  forall all n d m m', message sc0 n d m -> same_msg m m' ->
    (validate sc orc all n m = VNil <-> validate sc orc all n m' = VNil).
Proof. intros re_ok sc0 sc orc st all n d m m'. exact (run_two_orders re_ok sc0 sc orc st n d all all m m'). Qed.
Print Assumptions go_verdict_order_independent.

(** C03: the innermost cause of what Validate returns is the first leaf of what ValidateAll
    returns (same map order). *)
Theorem go_validate_first_of_all : forall re_ok sc0 sc orc, setting re_ok sc0 sc orc ->
  forall n d m e, message sc0 n d m -> validate sc orc false n m = VErr e ->
    exists g t, validate sc orc true n m = VErr g /\ leaves g = innermost e :: t.
Proof. intros re_ok sc0 sc orc st n d m e. exact (run_first re_ok sc0 sc orc st n d m e). Qed.
Print Assumptions go_validate_first_of_all.
Example go_validate_first_of_all_ex :
  exists e g, validate ex_checked ex_orc false "Person" ex_bad = VErr e /\
    validate ex_checked ex_orc true "Person" ex_bad = VErr g /\ List.length (leaves g) = 9.
Proof. do 2 eexists. split; [vm_compute; reflexivity|split; [vm_compute; reflexivity|vm_compute; reflexivity]]. Qed.

(** C04: ValidateAll has one error for each violated requirement, in order, and no others. *)
Theorem go_validate_all_complete : forall re_ok sc0 sc orc, setting re_ok sc0 sc orc ->
  forall n d m, message sc0 n d m -> md_disabled d = false ->
    (validate sc orc true n m = VNil /\ explains_list orc sc0 n (full_reqs orc sc0 d m) []) \/
    (exists es, es <> [] /\ validate sc orc true n m = VErr (GMulti n es) /\
       explains_list orc sc0 n (full_reqs orc sc0 d m) es).
Proof. intros re_ok sc0 sc orc st n d m. exact (run_all_list re_ok sc0 sc orc st n d m). Qed.
Print Assumptions go_validate_all_complete.
Example go_validate_all_complete_ex :
  exists es, validate ex_checked ex_orc true "Person" ex_bad = VErr (GMulti "Person" es) /\ List.length es = 9.
Proof. eexists. split; vm_compute; reflexivity. Qed.

(** C28: the error of Validate names the message type, the field, the index and the reason of
    the first violated requirement; its cause is right; Key() is never set. *)
Theorem go_validate_error_names_rule : forall re_ok sc0 sc orc, setting re_ok sc0 sc orc ->
  forall n d m e, message sc0 n d m -> validate sc orc false n m = VErr e ->
    exists l1 f ix r l2 c,
      full_reqs orc sc0 d m = l1 ++ (f, (ix, r)) :: l2 /\
      Forall (fun i => rq_holds (snd (snd i))) l1 /\ ~ rq_holds r /\
      e = GErr n f ix (rq_reason r) c false /\ explains_cause orc sc0 false (rq_cause r) c.
Proof. intros re_ok sc0 sc orc st n d m e. exact (run_first_error re_ok sc0 sc orc st n d m e). Qed.
Print Assumptions go_validate_error_names_rule.
Example go_validate_error_names_rule_ex :
  exists c, validate ex_checked ex_orc false "Person" ex_bad =
    VErr (GErr "Person" "Id" None [PStr "value must not be in list "; PNums [NI 1234]] c false).
Proof. eexists. vm_compute. reflexivity. Qed.

(** C17: what ValidateAll returns does not depend on map iteration order, up to the order of
    the errors in each list.  Embedded messages whose code predates ValidateAll are
    excluded: only their first error is known. *)
Theorem go_validate_all_order_independent : forall re_ok sc0 sc orc, setting re_ok sc0 sc orc ->
  (forall k x, find_msg sc0 k = Some x -> md_methods x <> MLegacy) ->
  forall n d m m', message sc0 n d m -> same_msg m m' ->
    (validate sc orc true n m = VNil /\ validate sc orc true n m' = VNil) \/
    (exists e e', validate sc orc true n m = VErr e /\ validate sc orc true n m' = VErr e' /\ same_err e e').
Proof. intros re_ok sc0 sc orc st NL n d m m'. exact (run_all_same re_ok sc0 sc orc st n d m m' NL). Qed.
Print Assumptions go_validate_all_order_independent.
Example go_validate_all_order_independent_ex :
  (forall k x, find_msg ex_schema k = Some x -> md_methods x <> MLegacy) /\ same_msg ex_bad ex_bad' /\
  validate ex_checked ex_orc true "Person" ex_bad <> validate ex_checked ex_orc true "Person" ex_bad'.
Proof.
  split; [|split; [exact ex_bad_same|vm_compute; discriminate]].
  intros k x H. apply find_some in H. destruct H as [[<-|[<-|[]]] _]; discriminate.
Qed.
