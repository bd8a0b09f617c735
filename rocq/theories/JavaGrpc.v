(** The Java gRPC interceptors (java/pgv-java-grpc) and the validator indexes (java/pgv-java-stub), as
    machines that consume a history of calls.

    Paths are relative to java/pgv-java-grpc/src/main/java/io/envoyproxy/pgv/grpc (the interceptors) and
    java/pgv-java-stub/src/main/java/io/envoyproxy/pgv (the indexes). *)
From Verif Require Import Base Outcome.

(** ValidationException.java:6-28.  UnimplementedException is one of them; its value is the text "UNIMPLEMENTED".
    The constructor's [value.toString()] is [ex_value]. *)
Record exc := mkExc { ex_field : bytes; ex_value : bytes; ex_reason : bytes }.
Definition exc_message (e : exc) : bytes := ex_field e ++ bs ": " ++ ex_reason e ++ bs " - Got " ++ ex_value e.

(** How [index.validatorFor(message.getClass()).assertValid(message)] ends: normally, with a
    ValidationException, or with another exception (unchecked). *)
Inductive checked := Fine | Thrown (e : exc) | Broken.

(** Validator.isValid, Validator.java:23-30: the other exceptions leave it. *)
Definition is_valid (c : checked) : option bool :=
  match c with Fine => Some true | Thrown _ => Some false | Broken => None end.

(** A gRPC status with the BadRequest detail: code, message, and (field, description) of each violation. *)
Record status := mkStatus { st_code : N; st_message : bytes; st_violations : list (bytes * bytes) }.
(** com.google.rpc.Code, not in /repo. *)
Definition invalid_argument : N := 3.
(** asStatusRuntimeException, ValidationExceptions.java:27-37. *)
Definition as_status (e : exc) : status := mkStatus invalid_argument (exc_message e) [(ex_field e, ex_reason e)].

Section Interceptors.
Context {M : Type}.
Variable check : M -> checked.

(** ** The server *)

(** The calls of gRPC to a ServerCall.Listener. *)
Inductive event := Message (m : M) | HalfClose | Cancel | Complete | Ready.
(** What the interceptor does: call the handler's listener, close the call, or let an exception leave
    onMessage. *)
Inductive effect := Deliver (e : event) | Close (s : status) | Throws.

(** onMessage and onHalfClose, ValidatingServerInterceptor.java:26-44, on the field [aborted]; the others are
    forwarded (ForwardingServerCallListener).  The handler's own onMessage throws no ValidationException:
    that exception is checked and not declared there. *)
Definition on_event (aborted : bool) (e : event) : bool * list effect :=
  match e with
  | Message m =>
      match check m with
      | Fine => (aborted, [Deliver e])
      | Thrown x => (true, [Close (as_status x)])
      | Broken => (aborted, [Throws])
      end
  | HalfClose => (aborted, if aborted then [] else [Deliver e])
  | _ => (aborted, [Deliver e])
  end.

Fixpoint serve (aborted : bool) (h : list event) : list effect :=
  match h with
  | [] => []
  | e :: t => let (a, l) := on_event aborted e in l ++ serve a t
  end.

(** ** The client *)

(** The calls of the application to a ClientCall, and what reaches the channel's call or the caller. *)
Inductive request := Send (m : M) | Other (what : N).
Inductive reply := Forward (r : request) | Raise (s : status) | Raises.

(** sendMessage, ValidatingClientInterceptor.java:21-29; the others are forwarded. *)
Definition on_request (r : request) : reply :=
  match r with
  | Send m => match check m with Fine => Forward r | Thrown x => Raise (as_status x) | Broken => Raises end
  | Other _ => Forward r
  end.
Definition requests (h : list request) : list reply := map on_request h.
End Interceptors.
Arguments event : clear implicits. Arguments effect : clear implicits.
Arguments request : clear implicits. Arguments reply : clear implicits.

(** ** Indexes *)
Section Indexes.
Context {C M : Type}.
Variable eqc : C -> C -> bool.
(** [getClass]. *)
Variable class : M -> C.

(** A ValidatorImpl runs checks of its own and validates embedded messages through the index it is given,
    in some order. *)
Definition impl : Type := M -> list (outcome + M).

(** What reflection finds for a class (reflectiveValidatorFor, ReflectiveValidatorIndex.java:42-53): [None] when it
    throws ReflectiveOperationException.  A null impl is one that crashes on every message. *)
Variable loads : C -> option impl.

(** ConcurrentHashMap, most recent binding first.  computeIfAbsent is atomic, so a history of calls is a
    sequence. *)
Fixpoint get {V} (c : C) (l : list (C * V)) : option V :=
  match l with [] => None | (k, v) :: t => if eqc c k then Some v else get c t end.

(** A Validator: one of the constants of Validator.java:32-38, or the lambda made by the index at the given depth in
    the chain of fallbacks (ReflectiveValidatorIndex.java:52, ExplicitValidatorIndex.java:36-37). *)
Inductive validator := VAlways (o : outcome) | VReflective (depth : nat) (i : impl) | VExplicit (depth : nat) (c : C).

(** An index and its fallback, with their maps: ValidatorIndex.ALWAYS_VALID and ALWAYS_INVALID, a
    ReflectiveValidatorIndex, or an ExplicitValidatorIndex. *)
Inductive index :=
| Always (o : outcome)
| Reflective (cache : list (C * validator)) (fallback : index)
| Explicit (impls : list (C * impl)) (cache : list (C * validator)) (fallback : index).

(** validatorFor, ReflectiveValidatorIndex.java:31-39 and ExplicitValidatorIndex.java:34-38, of the index [x] at depth [d]. *)
Fixpoint validator_for (d : nat) (x : index) (c : C) : index * validator :=
  match x with
  | Always o => (x, VAlways o)
  | Reflective cache fb =>
      match get c cache with
      | Some v => (x, v)
      | None =>
          match loads c with
          | Some i => let v := VReflective d i in (Reflective ((c, v) :: cache) fb, v)
          | None => let (fb', v) := validator_for (S d) fb c in (Reflective ((c, v) :: cache) fb', v)
          end
      end
  | Explicit impls cache fb =>
      match get c cache with
      | Some v => (x, v)
      | None => let v := VExplicit d c in (Explicit impls ((c, v) :: cache) fb, v)
      end
  end.

(** The index at depth [d], and its replacement. *)
Fixpoint at_depth (d : nat) (x : index) : option index :=
  match d, x with
  | O, _ => Some x
  | S k, Reflective _ fb | S k, Explicit _ _ fb => at_depth k fb
  | S _, Always _ => None
  end.
Fixpoint put_depth (d : nat) (x y : index) : index :=
  match d, x with
  | O, _ => y
  | S k, Reflective c fb => Reflective c (put_depth k fb y)
  | S k, Explicit i c fb => Explicit i c (put_depth k fb y)
  | S _, Always _ => x
  end.
Definition validator_at (d : nat) (x : index) (c : C) : index * validator :=
  match at_depth d x with
  | Some y => let (y', v) := validator_for d y c in (put_depth d x y', v)
  | None => (x, VAlways Crashes)
  end.

(** A loop over the steps of an impl, threading the state. *)
Section Steps.
Variable embedded : index -> M -> index * outcome.
Fixpoint steps (x : index) (l : list (outcome + M)) : index * outcome :=
  match l with
  | [] => (x, Passes)
  | s :: t =>
      let (x', o) := match s with inl o => (x, o) | inr m => embedded x m end in
      match o with Passes => steps x' t | _ => (x', o) end
  end.
End Steps.

(** assertValid of the validator [v].  An explicit index looks the impl up when the validator runs; without
    one it runs [(p, i) -> fallbackIndex.validatorFor(c)], which asks the fallback for a validator and drops it.
    The fuel bounds the nesting of messages. *)
Fixpoint assert_valid (fuel : nat) (x : index) (v : validator) (m : M) : index * outcome :=
  match fuel with
  | O => (x, Crashes)
  | S k =>
      let run d i := steps (fun x m' => let (x', v') := validator_at d x (class m') in assert_valid k x' v' m') x (i m) in
      match v with
      | VAlways o => (x, o)
      | VReflective d i => run d i
      | VExplicit d c =>
          match at_depth d x with
          | Some (Explicit impls _ _) =>
              match get c impls with
              | Some i => run d i
              | None => (fst (validator_at (S d) x c), Passes)
              end
          | _ => (x, Crashes)
          end
      end
  end.

(** add, ExplicitValidatorIndex.java:28-31, on the index at depth [d]. *)
Definition add (d : nat) (x : index) (c : C) (i : impl) : index :=
  match at_depth d x with
  | Some (Explicit impls cache fb) => put_depth d x (Explicit ((c, i) :: impls) cache fb)
  | _ => x
  end.

(** ** Histories: look a validator up in the index at some depth, run the n-th validator obtained so far, add an impl. *)
Inductive call := Lookup (d : nat) (c : C) | Run (n : nat) (m : M) | Add (d : nat) (c : C) (i : impl).

Fixpoint play (fuel : nat) (x : index) (got : list validator) (h : list call) : list outcome :=
  match h with
  | [] => []
  | Lookup d c :: t => let (x', v) := validator_at d x c in play fuel x' (got ++ [v]) t
  | Run n m :: t =>
      match nth_error got n with
      | Some v => let (x', o) := assert_valid fuel x v m in o :: play fuel x' got t
      | None => play fuel x got t
      end
  | Add d c i :: t => play fuel (add d x c i) got t
  end.
End Indexes.
