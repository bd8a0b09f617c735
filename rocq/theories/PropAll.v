(** C40: validation in Go, Java, C++ and Python gives one verdict. *)
From Verif Require Import Base Utf8 Num Rules Types Iface Checker GoGen GoSem Spec Wt Setting MainFacts Values Outcome
  Java JavaSpec Cc CcSpec Py PySpec PropJava PropCc PropPy GoFit AllSpec AllFacts Example JavaEx CcEx PyEx AllEx.

(** In the intersection of what the four support. *)
Theorem four_agree : forall re_ok sc0 sc orc jl ignored cl pl pn,
  setting re_ok sc0 sc orc -> java_setting re_ok sc0 sc orc ignored -> cc_setting re_ok sc0 sc orc cl -> py_setting re_ok sc0 sc orc pl pn ->
  forall n d m, message sc0 n d m ->
  java_message sc orc jl ignored n m -> cc_values sc orc cl n m -> py_values sc orc pl n m ->
  forall all fuel, mheight m < fuel ->
    one_verdict (valid orc sc0 n m) (validate sc orc all n m)
      (assert_valid_f jl sc ignored fuel n m) (cc_validate_f cl sc fuel n m) (py_validate_f pl pn sc0 fuel n m).
Proof.
  intros re_ok sc0 sc orc jl ignored cl pl pn G J C P n d m M VJ VC VP all fuel H.
  destruct (run_verdict _ _ _ _ G n d all m M) as [Go1 Go2].
  destruct (java_assert_valid_exact _ _ _ _ jl _ J n d m M VJ fuel H) as [J1 J2].
  destruct (cc_validate_exact _ _ _ _ _ C n d m M VC fuel H) as [C1 C2].
  destruct (py_validate_exact _ _ _ _ _ _ P n d m M VP fuel H) as [P1 P2].
  destruct (run_ok _ _ _ _ G n d all m M) as (NS & _).
  destruct (validate sc orc all n m) as [|e|] eqn:E; [left|right|congruence].
  - assert (V : valid orc sc0 n m) by now apply Go1. tauto.
  - assert (V : ~ valid orc sc0 n m) by (apply Go2; eauto). split; [exact V|]. split; [eauto|]. tauto.
Qed.
Print Assumptions four_agree.

(** On the common fragment. *)
Theorem one_verdict_on_common : forall re_ok sc0 sc orc pl pn, common_setting re_ok sc0 sc orc pl pn ->
  forall n d m, message sc0 n d m -> common_values sc n m ->
  forall jl cl all fuel, mheight m < fuel ->
    one_verdict (valid orc sc0 n m) (validate sc orc all n m)
      (assert_valid_f jl sc (fun _ => false) fuel n m) (cc_validate_f cl sc fuel n m) (py_validate_f pl pn sc0 fuel n m).
Proof.
  intros re_ok sc0 sc orc pl pn S n d m M V jl cl all fuel H.
  destruct (co_values _ _ _ _ _ _ S n m V jl cl) as (VJ & VC & VP).
  eapply four_agree; eauto using co_go, co_java, co_cc, co_py.
Qed.
Print Assumptions one_verdict_on_common.

(** A valid message, and one with a violation in the second item of a list of messages. *)
Example ex_one_verdict :
  one_verdict (valid ex_orc ex5_schema "Order" ex5_good) (validate ex5_schema ex_orc true "Order" ex5_good)
    (assert_valid_f ex_jl ex5_schema (fun _ => false) 9 "Order" ex5_good) (cc_validate_f ex_cl ex5_schema 9 "Order" ex5_good)
    (py_validate_f ex_pl ex_pn ex5_schema 9 "Order" ex5_good) /\
  one_verdict (valid ex_orc ex5_schema "Order" ex5_bad) (validate ex5_schema ex_orc true "Order" ex5_bad)
    (assert_valid_f ex_jl ex5_schema (fun _ => false) 9 "Order" ex5_bad) (cc_validate_f ex_cl ex5_schema 9 "Order" ex5_bad)
    (py_validate_f ex_pl ex_pn ex5_schema 9 "Order" ex5_bad).
Proof.
  split; eapply one_verdict_on_common; eauto using ex5_setting, ex5_good_msg, ex5_bad_msg, ex5_good_values, ex5_bad_values.
  all: vm_compute; repeat constructor.
Qed.
Example ex_four :
  (validate ex5_schema ex_orc false "Order" ex5_good = VNil /\ py_validate_f ex_pl ex_pn ex5_schema 9 "Order" ex5_good = Passes) /\
  cc_validate_f ex_cl ex5_schema 9 "Order" ex5_bad = Rejects /\
  assert_valid_f ex_jl ex5_schema (fun _ => false) 9 "Order" ex5_bad = Rejects.
Proof. vm_compute. auto. Qed.

(** The example also meets the assumptions of [four_agree]. *)
Example ex_four_agree :
  setting re_any ex5_schema ex5_schema ex_orc /\ java_setting re_any ex5_schema ex5_schema ex_orc (fun _ => false) /\
  cc_setting re_any ex5_schema ex5_schema ex_orc ex_cl /\ py_setting re_any ex5_schema ex5_schema ex_orc ex_pl ex_pn /\
  message ex5_schema "Order" ex5_order ex5_bad /\ java_message ex5_schema ex_orc ex_jl (fun _ => false) "Order" ex5_bad /\
  cc_values ex5_schema ex_orc ex_cl "Order" ex5_bad /\ py_values ex5_schema ex_orc ex_pl "Order" ex5_bad.
Proof.
  assert (S := ex5_setting). assert (V := co_values _ _ _ _ _ _ S "Order" ex5_bad ex5_bad_values ex_jl ex_cl).
  eauto 10 using co_go, co_java, co_cc, co_py, ex5_bad_msg.
Qed.
