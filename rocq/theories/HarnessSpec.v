(** What the executor is meant to report, independently of goroutines. *)
From Coq Require Import Permutation.
From Verif Require Import Base Harness.

(** The answer agrees with the number of failures the case expects. *)
Definition agrees (failures : Z) (a : answer) : Prop :=
  if a_multi a then a_reasons a = failures else (a_valid a = true <-> failures = 0%Z).
(** How one execution is to be counted. *)
Inductive counted := Success | Failure | Skip.
Definition counts_as (r : result) (c : counted) : Prop :=
  match c with
  | Success => r_skipped r = false /\ r_ok r = true
  | Failure => r_skipped r = false /\ r_ok r = false
  | Skip => r_skipped r = true
  end.
Definition should_count (failures : Z) (x : execution) (c : counted) : Prop :=
  match c with
  | Success => exists a, x = Some a /\ a_error a = false /\ agrees failures a
  | Skip => exists a, x = Some a /\ a_error a = false /\ ~ agrees failures a /\ a_allow a = true
  | Failure => x = None \/ exists a, x = Some a /\ (a_error a = true \/ ~ agrees failures a /\ a_allow a = false)
  end.

Section Spec.
Variables case harness : Type.
Variable encodes : case -> bool.
Variable failures : case -> Z.
Variable exec : case -> harness -> execution -> Prop.
Variable hs : list harness.

(** The executions a list of cases calls for: each case on each harness, or once without a harness if
    its message cannot be encoded. *)
Definition job : Type := case * option harness.
Definition jobs (t : case) : list job := if encodes t then map (fun h => (t, Some h)) hs else [(t, None)].

(** A result a job may have. *)
Definition possible (x : job * result) : Prop :=
  match x with
  | ((t, Some h), r) => exists e, exec t h e /\ r = verdict (failures t) e
  | ((t, None), r) => r = Result false false
  end.

Definition successes (l : list (job * result)) : nat := List.length (filter (fun x => negb (r_skipped (snd x)) && r_ok (snd x)) l).
Definition failed (l : list (job * result)) : nat := List.length (filter (fun x => negb (r_skipped (snd x)) && negb (r_ok (snd x))) l).
Definition skips (l : list (job * result)) : nat := List.length (filter (fun x => r_skipped (snd x)) l).

(** [l] reports on each job of the cases [ts] once, with a possible result. *)
Definition report (ts : list case) (l : list (job * result)) : Prop :=
  Permutation (map fst l) (flat_map jobs ts) /\ Forall possible l.
End Spec.
