(** What a failed validation in Java, C++ or Python tells about its cause, and how the reports of the
    parts of a validation combine. *)
From Verif Require Import Base Outcome.

(** What an error names. *)
Inductive cause :=
| FieldOf (m f : string)     (** the field [f] of the message type [m] *)
| OneofOf (m o : string)     (** its oneof [o] *)
| Garbled (m f : string).    (** a Go value printed into the generated code: not a name *)

(** [Fault p] is a rejection, with names [C].  Java: the string that [ValidationException.getField]
    returns, the only element of [p].  C++: the fields that the text of the error names, from the
    outside to the inside ("caused by").  Python: what the text of [ValidationFailed] starts with,
    the only element of [p].  The other endings are those of [outcome]. *)
Inductive report_of (C : Type) := Fine | Fault (p : list C) | Missing | Broken.
Arguments Fine {C}.
Arguments Fault {C} p.
Arguments Missing {C}.
Arguments Broken {C}.
Notation report := (report_of cause).

Section Reports.
Context {C : Type}.
(** The verdict. *)
Definition verdict (r : report_of C) : outcome :=
  match r with Fine => Passes | Fault _ => Rejects | Missing => Unimplemented | Broken => Crashes end.
(** A check whose error names [c]. *)
Definition names (c : C) (o : outcome) : report_of C :=
  match o with Passes => Fine | Rejects => Fault [c] | Unimplemented => Missing | Crashes => Broken end.

(** One statement after another: the first that does not pass ends it. *)
Definition rthen (a b : report_of C) : report_of C := match a with Fine => b | x => x end.
Fixpoint rall (l : list (report_of C)) : report_of C := match l with [] => Fine | a :: t => rthen a (rall t) end.
Definition rif (b : bool) (a : report_of C) : report_of C := if b then a else Fine.
End Reports.
