(** The cache of the Python validator: [@lru_cache()] on _validate_inner, validator.py:29-64.

    A function is generated for the descriptor of a message and stored under its full name; [lru_cache] without
    arguments keeps the 128 functions that were used last.  A program may have several descriptor pools (the
    default pool and pools of its own, as with dynamic messages): [pool i] has the message types of the pool [i].
    The names of message types are those of the schema; [pn_full pn] gives their full names.  The options [ignored] and
    the full names are taken to be the same in all pools. *)
From Verif Require Import Base Rules Types Outcome GoSem Py.

(** The generated function, as the pool and the descriptor that it was generated from. *)
Definition source := (nat * msgdesc)%type.
(** Most recently used first. *)
Definition cache := list (string * source).
Definition max_size : nat := 128.

(** ValidatingMessage.__eq__, 43-47: the key is the full name. *)
Fixpoint cached (key : string) (c : cache) : option source :=
  match c with
  | [] => None
  | (k, s) :: t => if String.eqb key k then Some s else cached key t
  end.
(** A hit makes the entry the most recent one (functools, _lru_cache_wrapper). *)
Definition touch (key : string) (s : source) (c : cache) : cache :=
  (key, s) :: filter (fun e => negb (String.eqb key (fst e))) c.
(** After a miss the new function is the most recent one; the least recent one goes if there are too many. *)
Definition store (key : string) (s : source) (c : cache) : cache := firstn max_size ((key, s) :: c).

Section Run.
Variable pl : py_libs.
Variable pn : py_names.
Variable pool : nat -> schema.

(** [exec(func)] succeeds; a call that raises is not stored. *)
Definition generates (i : nat) (d : msgdesc) : bool := is_some (py_body pl (pool i) (fun _ _ => Passes) pn d).

(** The states of the cache over all histories of calls, from any number of threads.  Two threads may both miss; the
    second then finds the key and stores nothing. *)
Inductive history : cache -> Prop :=
| start : history []
| hit c key s : history c -> cached key c = Some s -> history (touch key s c)
| miss c i n d : history c -> find_msg (pool i) n = Some d -> generates i d = true -> cached (pn_full pn n) c = None ->
    history (store (pn_full pn n) (i, d) c).

(** _validate_inner, 53-64, when the cache is [c]: the function for a message of the type [n] in the pool [i]. *)
Definition inner_of (c : cache) (i : nat) (n : string) (d : msgdesc) : source :=
  match cached (pn_full pn n) c with Some s => s | None => (i, d) end.

(** validate, 49-50: [verdict i n m o] says that validating the message [m] of the type [n] in the pool [i] can end
    with [o].  The function is looked up in whatever state the cache is then; it calls [validate] on the messages inside
    [m], each in the state of the cache at that time. *)
Inductive verdict (i : nat) : string -> msgval -> outcome -> Prop :=
| other n m : find_msg (pool i) n = None -> verdict i n m Passes
| called n m d c j d' inner : find_msg (pool i) n = Some d -> history c -> inner_of c i n d = (j, d') ->
    (forall n' m', mheight m' < mheight m -> verdict i n' m' (inner n' m')) ->
    verdict i n m (py_msg pl (pool j) inner pn d' m).
End Run.
