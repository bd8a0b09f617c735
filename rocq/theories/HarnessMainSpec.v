(** When the verdict of the conformance suite on a case is right. *)
From Verif Require Import Base Rules Types Iface GoSem Spec SpecErr LitSpec ErrText Outcome Harness HarnessMain Wt Setting
  Java JavaSpec Cc CcSpec Py PySpec.

(** A test case (tests/harness/executor/cases.go:15-19): a message and how many failures are expected. *)
Record tcase := Case { c_type : string; c_msg : msgval; c_failures : Z }.
(** The harnesses of the repository (executor/harness.go:18-37); not the external one. *)
Inductive lang := LGo | LCc | LJava | LPython.

Section Conform.
Variables (sc0 sc : schema) (orc : oracles).
Variables (jl : java_libs) (cl : cc_libs) (pl : py_libs) (pn : py_names).
Variables (sprint : list piece -> bytes) (ix_text : ixval -> bytes) (plain_text : GoSem.plain -> bytes).
(** The types with the option [ignored]. *)
Variable ignored : string -> bool.

(** The expectation agrees with the rules. *)
Definition right_case (t : tcase) : Prop := c_failures t = 0%Z <-> valid orc sc0 (c_type t) (c_msg t).

(** What running a harness on a case can give: no answer (a time-out, for example), or what its program answers.
    Maps may be visited in any order; the texts of C++, Java and Python can be any. *)
Definition runs (t : tcase) (h : lang) (x : execution) : Prop :=
  x = None \/
  match h with
  | LGo => exists m1 m2, same_msg (c_msg t) m1 /\ same_msg (c_msg t) m2 /\
      x = go_harness sprint ix_text plain_text ignored sc orc (c_type t) m1 m2
  | LCc => exists m1 fuel err what, same_msg (c_msg t) m1 /\ mheight m1 < fuel /\
      x = cc_harness (negb (ignored (c_type t))) (cc_validate_f cl sc fuel (c_type t) m1) err what
  | LJava => exists m1 fuel reason, same_msg (c_msg t) m1 /\ mheight m1 < fuel /\
      x = java_harness (ignored (c_type t)) (assert_valid_f jl sc ignored fuel (c_type t) m1) reason
  | LPython => exists m1 fuel reason, same_msg (c_msg t) m1 /\ mheight m1 < fuel /\
      x = py_harness (py_validate_f pl pn sc0 fuel (c_type t) m1) reason
  end.

(** The same without accidents: every harness answers; the two runs in Go visit maps in the same
    order; texts are UTF-8, and those of Python shorter than 128 bytes. *)
Definition smooth (t : tcase) (h : lang) (x : execution) : Prop :=
  match h with
  | LGo => exists m1, same_msg (c_msg t) m1 /\
      (forall g, validate sc orc true (c_type t) m1 = VErr g -> Forall (fun e => valid_utf8 (error_text sprint ix_text plain_text e)) (leaves g)) /\
      x = go_harness sprint ix_text plain_text ignored sc orc (c_type t) m1 m1
  | LCc => exists m1 fuel err what, same_msg (c_msg t) m1 /\ mheight m1 < fuel /\ valid_utf8 err /\
      x = cc_harness (negb (ignored (c_type t))) (cc_validate_f cl sc fuel (c_type t) m1) err what
  | LJava => exists m1 fuel reason, same_msg (c_msg t) m1 /\ mheight m1 < fuel /\
      x = java_harness (ignored (c_type t)) (assert_valid_f jl sc ignored fuel (c_type t) m1) reason
  | LPython => exists m1 fuel reason, same_msg (c_msg t) m1 /\ mheight m1 < fuel /\ valid_utf8 reason /\ List.length reason < 128 /\
      x = py_harness (py_validate_f pl pn sc0 fuel (c_type t) m1) reason
  end.

(** The schema is one for which the code in the language [h] is exact (PropMain.v, PropCc.v, PropJava.v, PropPy.v)... *)
Definition fit (re_ok : bytes -> bool) (h : lang) : Prop :=
  match h with
  | LGo => setting re_ok sc0 sc orc
  | LCc => cc_setting re_ok sc0 sc orc cl
  | LJava => java_setting re_ok sc0 sc orc ignored
  | LPython => py_setting re_ok sc0 sc orc pl pn
  end.
(** ... and so is the message of the case; its type is not [ignored]. *)
Definition covered (t : tcase) (h : lang) : Prop :=
  ignored (c_type t) = false /\
  exists d, message sc0 (c_type t) d (c_msg t) /\
  match h with
  | LGo => md_methods d = MBoth
  | LCc => cc_values sc orc cl (c_type t) (c_msg t)
  | LJava => java_message sc orc jl ignored (c_type t) (c_msg t)
  | LPython => py_values sc orc pl (c_type t) (c_msg t)
  end.
End Conform.

(** No generated code is older than ValidateAll. *)
Definition no_legacy (sc : schema) : Prop := forall k x, find_msg sc k = Some x -> md_methods x <> MLegacy.
