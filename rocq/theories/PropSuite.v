(** C52: the conformance suite of the repository (tests/harness/executor/cases.go), and what the generated code makes of it. *)
From Coq Require Import Lia Permutation SpecFloat.
From Verif Require Import Base Utf8 Num Rules Types Iface Time Checker GoSem Spec SpecErr LitSpec Wt Setting MainFacts ErrText TimeFacts Outcome
  Harness HarnessMain HarnessMainSpec HarnessMainFacts Java Cc Py SuiteData Suite SuiteFacts SuiteLangs JavaEx PropErr.
Local Open Scope Z_scope.

(** The suite, as started at the second [t0]. *)
Example suite_size : forall t0, List.length (suite t0) = 1015%nat.
Proof. intros t0. vm_compute. reflexivity. Qed.
(** The types with the option [ignored] have no Validate. *)
Example suite_ignored_cases : forall t0, map (fun t => (c_type t, c_failures t)) (filter (fun t => suite_ignored (c_type t)) (suite t0)) =
  [("MessageIgnored", 0); ("MessageIgnored", 0)]%string.
Proof. intros t0. vm_compute. reflexivity. Qed.

(** The plugin accepts the files of the suite, and they are in the part of the language that the theorems about Go cover. *)
Theorem suite_accepted : forall now, setting suite_re_ok suite_schema suite_checked (suite_orc now).
Proof. exact suite_setting. Qed.
Print Assumptions suite_accepted.

(** Every expectation agrees with the rules, if the case is validated less than half an hour after the start. *)
Theorem suite_right : forall t0 now t, running t0 now -> In t (suite t0) -> suite_ignored (c_type t) = false ->
  right_case suite_schema (suite_orc now) t.
Proof.
  intros t0 now t R I Ig. assert (T := all_typed t0 (proj1 R)). assert (C := all_counted t0 now R). rewrite Forall_forall in T, C.
  apply counted_right; auto.
Qed.
Print Assumptions suite_right.
Example suite_right_ex : running 1600000000 1600000001500000000 /\ In (ts_case "TimestampGTNowWithin" (Some 1600001800) 0) (suite 1600000000).
Proof.
  split; [unfold running; lia|]. apply (filter_In clocked). rewrite clocked_list. unfold clocked_cases. cbn [In]. tauto.
Qed.

(** Not later: the expectation on TimestampGTNowWithin, 30 minutes ahead of the start, is then wrong. *)
Theorem suite_right_late_refuted : forall t0 now, 7200 <= t0 <= 253402290000 -> (t0 + 1800) * 1000000000 <= now ->
  exists t, In t (suite t0) /\ suite_ignored (c_type t) = false /\ ~ right_case suite_schema (suite_orc now) t.
Proof.
  intros t0 now R L. exists (ts_case "TimestampGTNowWithin" (Some (t0 + 1800)) 0).
  assert (J : In (ts_case "TimestampGTNowWithin" (Some (t0 + 1800)) 0) (clocked_cases t0)).
  { unfold clocked_cases. cbn [In]. tauto. }
  assert (T := clocked_typed t0 R). rewrite Forall_forall in T. destruct (typed_message _ (T _ J)) as (d & M & _).
  rewrite <- clocked_list in J. apply filter_In in J. split; [apply J|]. split; [reflexivity|].
  intros [V _]. specialize (V eq_refl). cbn [c_type c_msg ts_case] in M, V. exact (late_case t0 now R L d M V).
Qed.
Print Assumptions suite_right_late_refuted.
Example suite_right_late_ex : exists t, In t (suite 1600000000) /\ ~ right_case suite_schema (suite_orc 1600001800000000000) t.
Proof. destruct (suite_right_late_refuted 1600000000 1600001800000000000) as (t & I & _ & H); [lia|lia|eauto]. Qed.

(** ValidateAll finds as many violations as the case expects. *)
Theorem suite_failures : forall t0 now t, running t0 now -> In t (suite t0) -> suite_ignored (c_type t) = false ->
  match validate suite_checked (suite_orc now) true (c_type t) (c_msg t) with
  | VNil => c_failures t = 0
  | VErr g => c_failures t <> 0 /\ Z.of_nat (List.length (leaves g)) = c_failures t
  | VStuck => False
  end.
Proof.
  intros t0 now t R I Ig. assert (C := all_counted t0 now R). rewrite Forall_forall in C. specialize (C t I Ig). unfold counted in C.
  destruct (validate _ _ _ _ _) as [|g|]; [now apply Z.eqb_eq| |discriminate].
  apply andb_prop in C. destruct C as [A B]. apply Z.eqb_eq in B. apply negb_true_iff, Z.eqb_neq in A. auto.
Qed.
Print Assumptions suite_failures.
Example suite_failures_ex : exists t, In t (suite 1600000000) /\ c_failures t = 2.
Proof.
  destruct (find (fun t => c_failures t =? 2) (suite 1600000000)) as [t|] eqn:F.
  - apply find_some in F. destruct F as [I E]. exists t. split; auto. now apply Z.eqb_eq.
  - vm_compute in F. discriminate.
Qed.

(** ** Go *)

(** The executor counts every case as a success, provided that Validate and ValidateAll visit maps in the same order. *)
Theorem suite_go_green : forall sprint ix_text plain_text jl cl pl pn t0 now t x, running t0 now -> In t (suite t0) ->
  smooth suite_schema suite_checked (suite_orc now) jl cl pl pn sprint ix_text plain_text suite_ignored t LGo x ->
  verdict (c_failures t) x = Result true false.
Proof.
  intros sprint ix_text plain_text jl cl pl pn t0 now t x R I S. destruct (suite_ignored (c_type t)) eqn:Ig.
  - destruct S as (m1 & _ & _ & ->).
    assert (Q : c_failures t = 0 /\ match find_msg suite_checked (c_type t) with Some d => md_methods d | None => MNone end = MNone).
    { assert (H := static_ignored t0). rewrite forallb_forall in H. specialize (H t I). rewrite Ig in H. cbn [negb orb] in H.
      apply andb_prop in H. destruct H as [A B]. apply Z.eqb_eq in A. split; auto. destruct (match find_msg _ _ with Some d => _ | None => _ end); congruence. }
    destruct Q as [Q1 Q2]. unfold go_harness, go_main. rewrite Ig, Q1, Q2. reflexivity.
  - assert (T := all_typed t0 (proj1 R)). rewrite Forall_forall in T. destruct (typed_message t (T t I Ig)) as (d & M & B).
    destruct (smooth_answers suite_re_ok suite_schema suite_checked (suite_orc now) jl cl pl pn sprint ix_text plain_text suite_ignored t LGo x
      (fun _ => suite_no_legacy) (suite_setting now) (conj Ig (ex_intro _ d (conj M B))) S) as (v & k & -> & V).
    apply plain_success. rewrite V. symmetry. exact (suite_right t0 now t R I Ig).
Qed.
Print Assumptions suite_go_green.

(** Not in any order: case 1168 expects two violations in a map with two entries.  If ValidateAll visits them in another order than
    Validate, the program reports an error.  [ix_text] has to print a string as it is, as [%v] does. *)
Definition ex_ix_text (i : ixval) : bytes := match i with IxV (VStr s) => s | _ => bs "0" end.
Definition two_pairs (a b : string) : msgval :=
  MV [("Val"%string, VMap (map (fun k => (VStr (bs (fst k)), VStr (bs (snd k)))) (if String.eqb a "a" then [(a, "A"); (b, "B")] else [(a, "B"); (b, "A")])%string))] [].
Theorem suite_go_green_refuted : forall sprint ix_text plain_text t0 now,
  (forall s, ix_text (IxV (VStr s)) = s) ->
  exists t m1, In t (suite t0) /\ same_msg (c_msg t) m1 /\
    verdict (c_failures t) (go_harness sprint ix_text plain_text suite_ignored suite_checked (suite_orc now) (c_type t) (c_msg t) m1) = Result false false.
Proof.
  intros sprint ix_text plain_text t0 now T. exists (Case "MapValues" (two_pairs "a" "b") 2), (two_pairs "b" "a"). split; [|split].
  - apply find_two.
  - apply (same_mv _ [("Val"%string, VMap [(VStr (bs "b"), VStr (bs "B")); (VStr (bs "a"), VStr (bs "A"))])] _ []); [|constructor].
    constructor; [|constructor]. constructor. eapply same_map; [apply perm_swap|]. repeat constructor.
  - cbn [c_type c_msg c_failures].
    assert (Q : go_main sprint ix_text plain_text suite_ignored suite_checked (suite_orc now) "MapValues" (two_pairs "a" "b") (two_pairs "b" "a") = Some internal_error).
    { unfold go_main. replace (suite_ignored "MapValues") with false by reflexivity.
      replace (match find_msg suite_checked "MapValues" with Some d => md_methods d | None => MNone end) with MBoth by (vm_compute; reflexivity).
      let a := eval vm_compute in (validate suite_checked (suite_orc now) false "MapValues" (two_pairs "a" "b")) in
      let b := eval vm_compute in (validate suite_checked (suite_orc now) true "MapValues" (two_pairs "b" "a")) in
      replace (validate suite_checked (suite_orc now) false "MapValues" (two_pairs "a" "b")) with a by (vm_compute; reflexivity);
      replace (validate suite_checked (suite_orc now) true "MapValues" (two_pairs "b" "a")) with b by (vm_compute; reflexivity).
      cbn. rewrite !T. reflexivity. }
    unfold go_harness. rewrite Q. reflexivity.
Qed.
Print Assumptions suite_go_green_refuted.
Example suite_go_green_ex : running 1600000000 1600000001500000000 /\ (forall s, ex_ix_text (IxV (VStr s)) = s) /\
  smooth suite_schema suite_checked (suite_orc 1600000001500000000) (suite_jl 0) suite_cl (suite_pl (S754_zero false)) suite_pn ex_sprint ex_ix_text (fun _ => bs "bad") suite_ignored
    (Case "MapValues" (two_pairs "a" "b") 2) LGo
    (go_harness ex_sprint ex_ix_text (fun _ => bs "bad") suite_ignored suite_checked (suite_orc 1600000001500000000) "MapValues" (two_pairs "a" "b") (two_pairs "a" "b")).
Proof.
  split; [unfold running; lia|]. split; [reflexivity|]. eexists. split; [apply same_msg_refl|]. split; [|reflexivity].
  intros g G. vm_compute in G. injection G as <-. cbn [leaves flat_map app].
  repeat first [apply Forall_nil|apply Forall_cons; [apply JavaEx.ascii_utf8; vm_compute; repeat constructor|]].
Qed.

(** ** Java, C++ and Python *)

(** Java gives the expected verdict, except on MapNoSparse, which it does not implement. *)
Theorem suite_java : forall t0 ms t, 7200 <= t0 <= 9000000000 -> t0 * 1000 <= ms < (t0 + 1800) * 1000 ->
  In t (suite t0) -> suite_ignored (c_type t) = false ->
  java_on ms t = (if c_failures t =? 0 then Passes else Rejects) \/ java_on ms t = Unimplemented /\ c_type t = "MapNoSparse"%string.
Proof.
  intros t0 ms t R N I Ig. destruct (all_java t0 ms t R N I Ig) as [H|[H [E|[]]]]; [left; exact H|right; auto].
Qed.
Print Assumptions suite_java.
(** So does C++, except on 22 types. *)
Theorem suite_cc : forall t0 t, In t (suite t0) -> suite_ignored (c_type t) = false ->
  cc_on t = (if c_failures t =? 0 then Passes else Rejects) \/ cc_on t = Unimplemented /\ In (c_type t) cc_missing.
Proof. exact all_cc. Qed.
Print Assumptions suite_cc.
(** Python gives the expected verdict everywhere where it does not read the clock. *)
Theorem suite_python : forall t0 now t, In t (suite t0) -> clocked t = false ->
  py_on now t = if c_failures t =? 0 then Passes else Rejects.
Proof. exact all_py. Qed.
Print Assumptions suite_python.
(** At one instant also where it does. *)
Example suite_python_clocked : forall t, In t (clocked_cases 1600000000) ->
  py_on (S754_finite false 6710886402097152 (-22)) t = if c_failures t =? 0 then Passes else Rejects.
Proof.
  apply Forall_forall. unfold clocked_cases. repeat (apply Forall_cons; [vm_compute; reflexivity|]). apply Forall_nil.
Qed.
Example suite_clocked : forall t0, filter clocked (suite t0) = clocked_cases t0.
Proof. exact clocked_list. Qed.

(** An answer "not implemented" counts as a success if the case expects violations (verdict: not valid, as expected): the
    executor does not skip these cases, although the C++ code has not looked at the value. *)
Definition unseen (t : tcase) : bool :=
  outcome_eqb (cc_on t) Unimplemented && negb (c_failures t =? 0).
Theorem suite_cc_unseen : forall t0 t err what, In t (suite t0) -> unseen t = true -> valid_utf8 what ->
  verdict (c_failures t) (cc_harness true (cc_on t) err what) = Result true false.
Proof.
  intros t0 t err what _ U W. apply andb_prop in U. destruct U as [U N]. apply outcome_eqb_eq in U. rewrite U.
  unfold cc_harness, cc_main. rewrite (deliver_utf8 _ _ _ _ _ (Forall_cons _ W (Forall_nil _))). unfold verdict. cbn [a_error a_multi a_valid negb].
  destruct (c_failures t =? 0); [discriminate|reflexivity].
Qed.
Print Assumptions suite_cc_unseen.
(** There are 38 of them. *)
Example suite_cc_unseen_ex : forall t0, List.length (filter unseen (suite t0)) = 38%nat.
Proof. intros t0. vm_compute. reflexivity. Qed.
