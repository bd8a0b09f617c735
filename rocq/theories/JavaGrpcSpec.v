(** What the Java validator indexes are to do: the same without any caching. *)
From Verif Require Import Base Outcome JavaGrpc.

Section Spec.
Context {C M : Type}.
Variable eqc : C -> C -> bool.
Variable class : M -> C.
Variable loads : C -> option (@impl M).

(** A chain of indexes without maps. *)
Inductive plain :=
| PAlways (o : outcome)
| PReflective (fallback : plain)
| PExplicit (impls : list (C * @impl M)) (fallback : plain).

Fixpoint plain_of (x : @index C M) : plain :=
  match x with
  | Always o => PAlways o
  | Reflective _ fb => PReflective (plain_of fb)
  | Explicit impls _ fb => PExplicit impls (plain_of fb)
  end.

(** All maps of validators are empty. *)
Fixpoint fresh (x : @index C M) : Prop :=
  match x with
  | Always _ => True
  | Reflective cache fb => cache = [] /\ fresh fb
  | Explicit _ cache fb => cache = [] /\ fresh fb
  end.

Fixpoint plain_at (d : nat) (p : plain) : option plain :=
  match d, p with
  | O, _ => Some p
  | S k, PReflective fb | S k, PExplicit _ fb => plain_at k fb
  | S _, PAlways _ => None
  end.

(** The checks of an impl, in order, embedded messages being validated by [embedded]. *)
Fixpoint all_pass (embedded : M -> outcome) (l : list (outcome + M)) : outcome :=
  match l with
  | [] => Passes
  | s :: t => andthen (match s with inl o => o | inr m => embedded m end) (all_pass embedded t)
  end.

(** Validate [m] as a [c].  The last case is the behaviour of the code, not what its documentation says:
    "a fallback validator will be used". *)
Fixpoint checks (fuel : nat) (p : plain) (c : C) (m : M) : outcome :=
  match fuel with
  | O => Crashes
  | S k =>
      (fix go (p : plain) : outcome :=
         let run i := all_pass (fun m' => checks k p (class m') m') (i m) in
         match p with
         | PAlways o => o
         | PReflective fb => match loads c with Some i => run i | None => go fb end
         | PExplicit impls fb => match get eqc c impls with Some i => run i | None => Passes end
         end) p
  end.

Fixpoint plain_add (d : nat) (p : plain) (c : C) (i : @impl M) : plain :=
  match d, p with
  | O, PExplicit impls fb => PExplicit ((c, i) :: impls) fb
  | S k, PReflective fb => PReflective (plain_add k fb c i)
  | S k, PExplicit impls fb => PExplicit impls (plain_add k fb c i)
  | _, _ => p
  end.

(** The verdicts of a history; of a validator only the place and class it was asked for are remembered. *)
Fixpoint verdicts (fuel : nat) (p : plain) (got : list (nat * C)) (h : list (@call C M)) : list outcome :=
  match h with
  | [] => []
  | Lookup d c :: t => verdicts fuel p (got ++ [(d, c)]) t
  | Run n m :: t =>
      match nth_error got n with
      | Some (d, c) =>
          match plain_at d p with Some q => checks fuel q c m | None => Crashes end :: verdicts fuel p got t
      | None => verdicts fuel p got t
      end
  | Add d c i :: t => verdicts fuel (plain_add d p c i) got t
  end.
End Spec.

(** The messages in a history of calls, those the handler or the channel gets, and those that pass. *)
Section Messages.
Context {M : Type}.
Definition arrived (h : list (event M)) : list M := flat_map (fun e => match e with Message m => [m] | _ => [] end) h.
Definition delivered (l : list (effect M)) : list M := flat_map (fun e => match e with Deliver (Message m) => [m] | _ => [] end) l.
Definition is_fine (check : M -> checked) (m : M) : bool := match check m with Fine => true | _ => false end.
Definition sent (h : list (request M)) : list M := flat_map (fun e => match e with Send m => [m] | _ => [] end) h.
Definition forwarded (l : list (reply M)) : list M := flat_map (fun e => match e with Forward (Send m) => [m] | _ => [] end) l.
End Messages.
