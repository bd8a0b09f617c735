(** C38, C39: the conformance-test executor. *)
From Coq Require Import Permutation.
From Verif Require Import Base Harness HarnessSpec HarnessFacts HarnessRun.

(** ** C38: [run], under every schedule.

    [start hs parallelism ts] is the state in which [run] begins with harnesses [hs], [steps] is any number of steps of
    any goroutines, [exec] says what running a harness may return. *)
(** A worker count and a harness suffice to start. *)
Theorem run_starts : forall case harness (hs : list harness) parallelism (ts : list case),
  start case harness hs parallelism ts = None <-> (parallelism <= 0)%Z \/ hs = [].
Proof. exact (fun case harness => r_starts case harness (fun _ => true) (fun _ => 0%Z) (fun _ _ _ => True)). Qed.
Print Assumptions run_starts.

(** No send on a closed channel, no double close, no negative WaitGroup. *)
Theorem run_no_panic :
  forall case harness (encodes : case -> bool) (failures : case -> Z) (exec : case -> harness -> execution -> Prop) (hs : list harness)
    parallelism ts s s',
  start case harness hs parallelism ts = Some s -> steps case harness encodes failures exec hs s s' ->
  ~ step case harness encodes failures exec hs s' None.
Proof. exact r_no_panic. Qed.
Print Assumptions run_no_panic.

(** No deadlock: if running a harness always returns something, then until [run] has returned some goroutine can go on. *)
Theorem run_no_deadlock :
  forall case harness (encodes : case -> bool) (failures : case -> Z) (exec : case -> harness -> execution -> Prop) (hs : list harness)
    (exec_total : forall t h, exists x, exec t h x) parallelism ts s s',
  start case harness hs parallelism ts = Some s -> steps case harness encodes failures exec hs s s' ->
  (exists a b c, s_main _ _ s' = MRet a b c) \/ exists s'', step case harness encodes failures exec hs s' (Some s'').
Proof. exact r_no_deadlock. Qed.
Print Assumptions run_no_deadlock.

(** Every schedule comes to an end. *)
Theorem run_terminates :
  forall case harness (encodes : case -> bool) (failures : case -> Z) (exec : case -> harness -> execution -> Prop) (hs : list harness)
    parallelism ts s,
  start case harness hs parallelism ts = Some s ->
  exists bound, forall sched : nat -> Harness.state case harness, sched 0 = s ->
    (forall i, i <= bound -> step case harness encodes failures exec hs (sched i) (Some (sched (S i)))) -> False.
Proof. exact r_terminates. Qed.
Print Assumptions run_terminates.

(** From every state it gets into, [run] can return (so, with the two theorems above, it does). *)
Theorem run_returns :
  forall case harness (encodes : case -> bool) (failures : case -> Z) (exec : case -> harness -> execution -> Prop) (hs : list harness)
    (exec_total : forall t h, exists x, exec t h x) parallelism ts s s',
  start case harness hs parallelism ts = Some s -> steps case harness encodes failures exec hs s s' ->
  exists s'' a b c, steps case harness encodes failures exec hs s' s'' /\ s_main _ _ s'' = MRet a b c.
Proof. exact r_returns. Qed.
Print Assumptions run_returns.

(** When [run] returns, its counts are those of a report with one possible result for each case and harness (one
    failure for a case that cannot be encoded), and every other goroutine has ended. *)
Theorem run_counts :
  forall case harness (encodes : case -> bool) (failures : case -> Z) (exec : case -> harness -> execution -> Prop) (hs : list harness)
    parallelism ts s s' a b c,
  start case harness hs parallelism ts = Some s -> steps case harness encodes failures exec hs s s' -> s_main _ _ s' = MRet a b c ->
  (exists l, report case harness encodes failures exec hs ts l /\ successes _ _ l = a /\ failed _ _ l = b /\ skips _ _ l = c) /\
  (forall u, In u (s_pool _ _ s') -> u = WEnd \/ u = KEnd).
Proof. exact r_counts. Qed.
Print Assumptions run_counts.

(** The total: cases times harnesses if every message can be encoded. *)
Theorem run_total :
  forall case harness (encodes : case -> bool) (failures : case -> Z) (exec : case -> harness -> execution -> Prop) (hs : list harness)
    parallelism ts s s' a b c,
  start case harness hs parallelism ts = Some s -> steps case harness encodes failures exec hs s s' -> s_main _ _ s' = MRet a b c ->
  (forall t, In t ts -> encodes t = true) ->
  a + b + c = List.length ts * List.length hs.
Proof. exact r_total. Qed.
Print Assumptions run_total.

(** An example: two cases, two harnesses, two workers; the second case expects one failure, and the second harness
    always answers "valid". *)
Definition ex_exec (t : nat) (h : nat) (x : execution) : Prop :=
  x = Some (Answer (if Nat.eqb h 1 then true else Nat.eqb t 0) false 0 false false).
Example ex_exec_total : forall t h, exists x, ex_exec t h x.
Proof. intros. eexists. reflexivity. Qed.
Example ex_starts : exists s, start nat nat [0; 1] 2 [0; 1] = Some s.
Proof. eexists. reflexivity. Qed.
(** The only report: three successes and one failure. *)
Example ex_report : report nat nat (fun _ => true) Z.of_nat ex_exec [0; 1] [0; 1]
  [((0, Some 0), Result true false); ((0, Some 1), Result true false); ((1, Some 0), Result true false); ((1, Some 1), Result false false)].
Proof. split; [reflexivity|]. repeat constructor; eexists; split; reflexivity. Qed.

(** A case that cannot be encoded is reported once, not once per harness. *)
Theorem run_total_refuted : exists (encodes : nat -> bool) failures exec s s' a b c,
  start nat nat [0; 1] 1 [0] = Some s /\
  steps nat nat encodes failures exec [0; 1] s s' /\ s_main _ _ s' = MRet a b c /\
  a + b + c <> List.length [0] * List.length [0; 1].
Proof. exact one_failure. Qed.
Print Assumptions run_total_refuted.

(** How one execution is counted. *)
Theorem run_verdict_right : forall failures x c, counts_as (verdict failures x) c <-> should_count failures x c.
Proof. exact verdict_right. Qed.
Print Assumptions run_verdict_right.
Example run_verdict_right_ex :
  should_count 1 (Some (Answer true false 1 false true)) Success /\ should_count 1 (Some (Answer true false 0 true true)) Skip /\
  should_count 0 (Some (Answer false false 7 false false)) Failure.
Proof.
  repeat split; cbn.
  - eexists. repeat split.
  - eexists. repeat split. cbn. discriminate.
  - right. eexists. split; [reflexivity|]. right. split; [|reflexivity]. cbn. intros [_ H]. specialize (H eq_refl). discriminate.
Qed.

(** ** C39: sharding.  [shard l k i] is what index [i] of [k] runs; [None] is a panic. *)
Theorem shards_cover : forall A (l : list A) k, small l -> (0 < k < 2 ^ 53)%Z ->
  flat_map (fun i => match shard l k (Z.of_nat i) with Some s => s | None => [] end) (seq 0 (Z.to_nat k)) = l.
Proof. exact @shards_all. Qed.
Print Assumptions shards_cover.
Theorem shard_panics_iff : forall A (l : list A) k i, small l -> (0 < k < 2 ^ 53)%Z -> (0 <= i)%Z ->
  shard l k i = None <-> (Z.of_nat (List.length l) < i * ((Z.of_nat (List.length l) + k - 1) / k))%Z.
Proof. exact @shard_panics. Qed.
Print Assumptions shard_panics_iff.
Example shards_ex : shard [1; 2; 3; 4; 5; 6; 7] 3 0 = Some [1; 2; 3] /\ shard [1; 2; 3; 4; 5; 6; 7] 3 1 = Some [4; 5; 6] /\
  shard [1; 2; 3; 4; 5; 6; 7] 3 2 = Some [7].
Proof. repeat split; vm_compute; reflexivity. Qed.
(** Five cases in four shards: the last one panics. *)
Theorem shard_no_panic_refuted : exists (l : list nat) k i, small l /\ (0 < k)%Z /\ (0 <= i < k)%Z /\ shard l k i = None.
Proof. exists [1; 2; 3; 4; 5], 4%Z, 3%Z. repeat split; vm_compute; congruence. Qed.
Print Assumptions shard_no_panic_refuted.
