(** How a validation in Java, Python or C++ ends, and how the outcomes of the parts of such a
    validation combine. *)
From Verif Require Import Base.

(** The value passes; it is rejected (Java: a ValidationException, Python: ValidationFailed, C++:
    [false]); the rule is not supported by the runtime (an UnimplementedException in Java and
    Python; C++ throws pgv::UnimplementedException); or the code fails in
    another way (Java: NullPointerException, IllegalArgumentException or ArithmeticException;
    Python: AttributeError and the like). *)
Inductive outcome := Passes | Rejects | Unimplemented | Crashes.

(** One statement after another: the first that does not pass ends it. *)
Definition andthen (a b : outcome) : outcome := match a with Passes => b | x => x end.
Fixpoint in_order (l : list outcome) : outcome := match l with [] => Passes | a :: t => andthen a (in_order t) end.
Definition throw_unless (b : bool) : outcome := if b then Passes else Rejects.
Definition on_some {A} (o : option A) (f : A -> outcome) : outcome := match o with Some a => f a | None => Passes end.
Definition only_if (b : bool) (a : outcome) : outcome := if b then a else Passes.
