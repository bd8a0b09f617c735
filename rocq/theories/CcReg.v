(** The registry of C++ validators: validate/validate.h:41-72 and templates/cc/file.go:24-32.

    A generated translation unit has a static [pgv::Validator<T>] for each of its messages that is neither ignored nor
    disabled; its constructor puts a pointer to itself into a process-wide unordered_map.  The code for an embedded message
    does not call the Validate function of its type: it looks that type up in the map. *)
From Verif Require Import Base Rules Types Outcome GoSem Cc.

(** [std::unordered_map<std::type_index, BaseValidator*>].  Message types are named as in the schema.  [None] is the null
    pointer; [Some t] a pointer to the [Validator<t>]. *)
Definition registry := list (string * option string).

(** The pointer that [validators()[t]] evaluates to: a missing entry is created, null. *)
Definition pointer (r : registry) (t : string) : option string := match assoc t r with Some p => p | None => None end.
(** The map afterwards. *)
Definition subscript (r : registry) (t : string) : registry := match assoc t r with Some _ => r | None => (t, None) :: r end.
(** The constructor, validate.h:53-56. *)
Definition construct (r : registry) (t : string) : registry := (t, Some t) :: filter (fun e => negb (String.eqb t (fst e))) r.

(** file.go:24-32: the messages that get a static validator. *)
Definition registers (d : msgdesc) : bool :=
  match md_methods d with MNone => false | _ => negb (md_disabled d) end.
(** The static initialiser for one message, if it has one. *)
Definition init (d : msgdesc) (r : registry) : registry := if registers d then construct r (md_name d) else r.

(** The states of the map over all histories of a process: static initialisers run, at the start or by dlopen, in any
    order, and validations, in any thread, look types up.  [ds]: the messages whose initialisers have run.  (Destructors do
    not remove entries.) *)
Inductive history : list msgdesc -> registry -> Prop :=
| start : history [] []
| inits ds r d : history ds r -> history (d :: ds) (init d r)
| looks ds r t : history ds r -> history ds (subscript r t).

Section Run.
Variable cl : cc_libs.
Variable sc : schema.
(** The states of the map while a validation runs. *)
Variable now : registry -> Prop.

(** Validator<n>::CheckMessage(m, err), validate.h:58-65: [check n m o] says that it can end with [o].  Every embedded message
    is looked up in the state of the map at that time. *)
Inductive check : string -> msgval -> outcome -> Prop :=
| no_validator n m r : now r -> pointer r n = None -> check n m Passes
| has_validator n m r t d inner : now r -> pointer r n = Some t -> find_msg sc t = Some d ->
    (forall n' m', mheight m' < mheight m -> check n' m' (inner n' m')) -> check n m (cc_msg cl sc inner d m).

(** The function Validate(m, err) that is declared for the message type [n], called by the user. *)
Inductive call : string -> msgval -> outcome -> Prop :=
| called n m d inner : find_msg sc n = Some d -> md_methods d <> MNone ->
    (forall n' m', mheight m' < mheight m -> check n' m' (inner n' m')) -> call n m (cc_msg cl sc inner d m).
End Run.
