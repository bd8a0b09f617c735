(** What the returned errors say.  Only the datatype [gerr] of error values is taken from
    the execution model. *)
From Coq Require Import Sorting.Permutation.
From Verif Require Import Base Num Rules Types Iface GoSem Spec.

Section Explains.
Variable orc : oracles.
Variable sc : schema.

(** The requirements of a message, those on embedded messages being their validity. *)
Definition full_reqs (d : msgdesc) (m : msgval) := msg_reqs orc sc (valid orc sc) d m.

(** ValidateAll exists on the Go type of an embedded message. *)
Definition has_all (n : string) : bool :=
  match find_msg sc n with
  | Some d => match md_methods d with MBoth => true | _ => false end
  | None => false
  end.

(** [explains all n m e]: [e] is a correct result of ValidateAll ([all]) or Validate on the
    invalid message [m] of type [n].

    Validate names the first violated requirement: the message type, the field, the index
    or map key if there is one, the reason, and as cause the error of the embedded message
    or of a library.  ValidateAll has one such error for each violated requirement, in
    order, and none for the others. *)
Inductive explains : bool -> string -> msgval -> gerr -> Prop :=
| explains_first n m d l1 f ix r l2 c :
    find_msg sc n = Some d -> md_disabled d = false ->
    full_reqs d m = l1 ++ (f, (ix, r)) :: l2 ->
    (forall f' ix' r', In (f', (ix', r')) l1 -> rq_holds r') -> ~ rq_holds r ->
    explains_cause false (rq_cause r) c ->
    explains false n m (GErr n f ix (rq_reason r) c false)
| explains_all n m d es :
    find_msg sc n = Some d -> md_disabled d = false -> es <> [] ->
    explains_list n (full_reqs d m) es ->
    explains true n m (GMulti n es)
with explains_list : string -> list (string * (option ixval * req)) -> list gerr -> Prop :=
| explains_nil n : explains_list n [] []
| explains_ok n f ix r l es : rq_holds r -> explains_list n l es -> explains_list n ((f, (ix, r)) :: l) es
| explains_bad n f ix r l c es : ~ rq_holds r -> explains_cause true (rq_cause r) c -> explains_list n l es ->
    explains_list n ((f, (ix, r)) :: l) (GErr n f ix (rq_reason r) c false :: es)
with explains_cause : bool -> cause_kind -> option gerr -> Prop :=
| cause_none all : explains_cause all NoCause None
| cause_lib all p : explains_cause all LibCause (Some (GPlain p))
| cause_embedded all n m e : explains (all && has_all n) n m e -> explains_cause all (Embedded n m) (Some e).
End Explains.

(** * Map iteration order

    A [value] lists the entries of a map in the order in which [range] visits them.
    [same v w]: [v] and [w] are the same value, except that maps, at any depth, may be visited
    in another order. *)
Inductive same : value -> value -> Prop :=
| same_refl v : same v v
| same_embedded m m' : same_msg m m' -> same (VMsg (Some m)) (VMsg (Some m'))
| same_list l l' : Forall2 same l l' -> same (VList l) (VList l')
| same_map l l1 l' : Permutation l l1 -> Forall2 same_entry l1 l' -> same (VMap l) (VMap l')
with same_entry : value * value -> value * value -> Prop :=
| same_ent k v v' : same v v' -> same_entry (k, v) (k, v')
with same_field : string * value -> string * value -> Prop :=
| same_fld f v v' : same v v' -> same_field (f, v) (f, v')
with same_oneof : string * option (string * value) -> string * option (string * value) -> Prop :=
| same_unset o : same_oneof (o, None) (o, None)
| same_set o f v v' : same v v' -> same_oneof (o, Some (f, v)) (o, Some (f, v'))
with same_msg : msgval -> msgval -> Prop :=
| same_mv fs fs' os os' : Forall2 same_field fs fs' -> Forall2 same_oneof os os' -> same_msg (MV fs os) (MV fs' os').

(** Equal errors, except that lists of errors may be permuted. *)
Inductive same_err : gerr -> gerr -> Prop :=
| se_plain p : same_err (GPlain p) (GPlain p)
| se_leaf n f ix ix' r k : same_index ix ix' -> same_err (GErr n f ix r None k) (GErr n f ix' r None k)
| se_err n f ix ix' r c c' k : same_index ix ix' -> same_err c c' ->
    same_err (GErr n f ix r (Some c) k) (GErr n f ix' r (Some c') k)
| se_multi n l l1 l' : Permutation l l1 -> Forall2 same_err l1 l' -> same_err (GMulti n l) (GMulti n l')
with same_index : option ixval -> option ixval -> Prop :=
| si_none : same_index None None
| si_pos i : same_index (Some (IxN i)) (Some (IxN i))
| si_key v v' : same v v' -> same_index (Some (IxV v)) (Some (IxV v')).

(** * The tree of errors *)

(** The innermost cause of an error. *)
Fixpoint innermost (e : gerr) : gerr :=
  match e with
  | GErr _ _ _ _ (Some c) _ => innermost c
  | GMulti _ (c :: _) => innermost c
  | _ => e
  end.

(** The errors at the leaves, in order: what flattening the lists and following the causes
    gives. *)
Fixpoint leaves (e : gerr) : list gerr :=
  match e with
  | GErr _ _ _ _ (Some c) _ => leaves c
  | GMulti _ es => flat_map leaves es
  | _ => [e]
  end.
