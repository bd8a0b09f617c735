(** The conformance-test executor (tests/harness/executor/executor.go, worker.go): sharding of the test cases,
    the verdict on one harness answer, and the goroutines of [run] under every schedule. *)
From Verif Require Import Base.
Local Open Scope Z_scope.

(** ** Sharding: executor.go:41-71 *)

(** The float64 quotient [float64(n) / float64(k)] of integers [0 <= n < 2^53], [0 < k < 2^53], as [m / 2^e]:
    both conversions are exact, and the IEEE quotient is the multiple of [2^-e] nearest to [n/k], ties to even,
    where [2^(52-e) <= n/k < 2^(53-e)]. *)
Definition quotient_exp (n k : Z) : Z :=
  let l := Z.log2 n - Z.log2 k in
  52 - (if 2 ^ (Z.log2 k) * n <? 2 ^ (Z.log2 n) * k then l - 1 else l).
(** [round(a / b)], ties to even. *)
Definition round_even (a b : Z) : Z :=
  let q := a / b in
  let r := a mod b in
  if 2 * r <? b then q else if b <? 2 * r then q + 1 else if Z.even q then q else q + 1.
(** [int(math.Ceil(float64(n) / float64(k)))]: executor.go:64. *)
Definition shard_length (n k : Z) : Z :=
  if n =? 0 then 0
  else let e := quotient_exp n k in
       - ((- round_even (n * 2 ^ e) k) / 2 ^ e).

(** executor.go:64-70, once both environment variables are read and the status file is created; [None] is the
    run-time panic of the slice expression. *)
Definition shard {A} (l : list A) (k i : Z) : option (list A) :=
  let n := Z.of_nat (List.length l) in
  let len := shard_length n k in
  let start := i * len in
  let end_ := (i + 1) * len in
  let end_ := if n <=? end_ then n else end_ in
  if (0 <=? start) && (start <=? end_) then Some (firstn (Z.to_nat (end_ - start)) (skipn (Z.to_nat start) l))
  else None.

(** ** The verdict on one answer: worker.go:48-92 *)

(** [harness.TestResult] (tests/harness/harness.proto); of the reasons only their number matters. *)
Record answer := Answer { a_valid : bool; a_error : bool; a_reasons : Z; a_allow : bool; a_multi : bool }.
(** What [h.Exec] returns: [None] is an error (the process failed, or its output is no TestResult). *)
Definition execution := option answer.
(** [TestResult{OK, Skipped}]: cases.go:21-23. *)
Record result := Result { r_ok : bool; r_skipped : bool }.

Definition verdict (failures : Z) (x : execution) : result :=
  match x with
  | None => Result false false
  | Some a =>
      if a_error a then Result false false
      else if negb (a_multi a) then
        let valid := failures =? 0 in
        if negb (Bool.eqb (a_valid a) valid) then
          if a_allow a then Result false true else Result false false
        else Result true false
      else if negb (a_reasons a =? failures) then
        if a_allow a then Result false true else Result false false
      else Result true false
  end.

(** ** The goroutines *)
Section Run.
Variables case harness : Type.
(** [anypb.New] and [proto.Marshal] both succeed on the case's message (worker.go:24-36). *)
Variable encodes : case -> bool.
Variable failures : case -> Z.
(** [exec t h x]: running harness [h] on [t] may return [x].  It is a relation: processes can time out.
    That [h.Exec] returns at all is an assumption, met by the ten-second context. *)
Variable exec : case -> harness -> execution -> Prop.

(** A worker goroutine, and one harness goroutine of [execTestCase]; [w] is the number of a WaitGroup. *)
Inductive thread :=
| WRecv                                          (* worker.go:17: for tc := range in *)
| WStart (t : case)                              (* :23: execTestCase begins *)
| WErr (t : case)                                (* :27, :34: out <- TestResult{false,false} *)
| WSpawn (t : case) (w : nat) (hs : list harness) (* :44: the loop over harnesses *)
| WWait (w : nat)                                (* :95: wg.Wait() *)
| WExit                                          (* :20: wg.Done() *)
| WEnd
| KExec (w : nat) (t : case) (h : harness)       (* :48-49: h.Exec *)
| KSend (w : nat) (t : case) (h : harness) (r : result) (* out <- ... *)
| KDone (w : nat)                                (* :47: the deferred wg.Done() *)
| KEnd.

(** The goroutine of [run]: executor.go:73-114. *)
Inductive main_pc :=
| MSpawn (k : nat) (ts : list case)              (* :87-89, k workers to start *)
| MSend (ts : list case)                         (* :104-107 *)
| MWait                                          (* :109 *)
| MCloseOut                                      (* :110 *)
| MWaitDone                                      (* :111 *)
| MRet (successes failures skips : nat).         (* :113 *)
(** The collecting goroutine: executor.go:91-102. *)
Inductive coll_pc := CNone | CRecv | CHave (r : result) | CClose | CEnd.

(** The shared state: WaitGroup counters (number 0 is [run]'s own), whether the three unbuffered channels are
    closed, and the three counters (without wrap-around). *)
Record state := State {
  s_main : main_pc; s_coll : coll_pc; s_pool : list thread; s_wgs : list nat;
  s_in : bool; s_out : bool; s_done : bool; s_succ : nat; s_fail : nat; s_skip : nat }.

Variable hs : list harness.

Fixpoint set_nth (n : nat) (x : nat) (l : list nat) : list nat :=
  match n, l with
  | _, [] => []
  | O, _ :: t => x :: t
  | S n, y :: t => y :: set_nth n x t
  end.

(** A goroutine about to send on [out], the value, and how it goes on. *)
Inductive sends : thread -> result -> thread -> Prop :=
| sends_err t : sends (WErr t) (Result false false) WRecv
| sends_kid w t h r : sends (KSend w t h r) r (KDone w).

(** A goroutine about to call [Done] on a WaitGroup, and how it goes on. *)
Inductive dones : thread -> nat -> thread -> Prop :=
| dones_worker : dones WExit 0 WEnd
| dones_kid w : dones (KDone w) w KEnd.

(** One step of one goroutine, or the meeting of a sender and a receiver; [None] is a panic. *)
Inductive step : state -> option state -> Prop :=
| st_spawn k ts c p g i o d a b s :
    step (State (MSpawn (S k) ts) c p g i o d a b s) (Some (State (MSpawn k ts) c (p ++ [WRecv]) g i o d a b s))
| st_collect ts c p g i o d a b s :
    step (State (MSpawn 0 ts) c p g i o d a b s) (Some (State (MSend ts) CRecv p g i o d a b s))
| st_send t ts c p1 p2 g o d a b s :
    step (State (MSend (t :: ts)) c (p1 ++ WRecv :: p2) g false o d a b s)
         (Some (State (MSend ts) c (p1 ++ WStart t :: p2) g false o d a b s))
| st_send_closed t ts c p g o d a b s :
    step (State (MSend (t :: ts)) c p g true o d a b s) None
| st_close_in c p g i o d a b s :
    step (State (MSend []) c p g i o d a b s) (if i then None else Some (State MWait c p g true o d a b s))
| st_recv_closed m c p1 p2 g o d a b s :
    step (State m c (p1 ++ WRecv :: p2) g true o d a b s) (Some (State m c (p1 ++ WExit :: p2) g true o d a b s))
| st_encode_err m c t p1 p2 g i o d a b s : encodes t = false ->
    step (State m c (p1 ++ WStart t :: p2) g i o d a b s) (Some (State m c (p1 ++ WErr t :: p2) g i o d a b s))
| st_encode m c t p1 p2 g i o d a b s : encodes t = true ->
    step (State m c (p1 ++ WStart t :: p2) g i o d a b s)
         (Some (State m c (p1 ++ WSpawn t (List.length g) hs :: p2) (g ++ [List.length hs]) i o d a b s))
| st_go m c t w h l p1 p2 g i o d a b s :
    step (State m c (p1 ++ WSpawn t w (h :: l) :: p2) g i o d a b s)
         (Some (State m c (p1 ++ WSpawn t w l :: p2 ++ [KExec w t h]) g i o d a b s))
| st_gone m c t w p1 p2 g i o d a b s :
    step (State m c (p1 ++ WSpawn t w [] :: p2) g i o d a b s) (Some (State m c (p1 ++ WWait w :: p2) g i o d a b s))
| st_wait m c w p1 p2 g i o d a b s : nth w g 0%nat = 0%nat ->
    step (State m c (p1 ++ WWait w :: p2) g i o d a b s) (Some (State m c (p1 ++ WRecv :: p2) g i o d a b s))
| st_exec m c w t h x p1 p2 g i o d a b s : exec t h x ->
    step (State m c (p1 ++ KExec w t h :: p2) g i o d a b s)
         (Some (State m c (p1 ++ KSend w t h (verdict (failures t) x) :: p2) g i o d a b s))
| st_out m r u u' p1 p2 g i d a b s : sends u r u' ->
    step (State m CRecv (p1 ++ u :: p2) g i false d a b s)
         (Some (State m (CHave r) (p1 ++ u' :: p2) g i false d a b s))
| st_out_closed m c r u u' p1 p2 g i d a b s : sends u r u' ->
    step (State m c (p1 ++ u :: p2) g i true d a b s) None
| st_done m c w u u' n p1 p2 g i o d a b s : dones u w u' -> nth w g 0%nat = S n ->
    step (State m c (p1 ++ u :: p2) g i o d a b s)
         (Some (State m c (p1 ++ u' :: p2) (set_nth w n g) i o d a b s))
| st_done_neg m c w u u' p1 p2 g i o d a b s : dones u w u' -> nth w g 0%nat = 0%nat ->
    step (State m c (p1 ++ u :: p2) g i o d a b s) None
| st_count m r p g i o d a b s :
    step (State m (CHave r) p g i o d a b s)
         (Some (if r_skipped r then State m CRecv p g i o d a b (S s)
                else if r_ok r then State m CRecv p g i o d (S a) b s
                else State m CRecv p g i o d a (S b) s))
| st_drained m p g i d a b s :
    step (State m CRecv p g i true d a b s) (Some (State m CClose p g i true d a b s))
| st_close_done m p g i o d a b s :
    step (State m CClose p g i o d a b s) (if d then None else Some (State m CEnd p g i o true a b s))
| st_waited c p g i o d a b s : nth 0 g 0%nat = 0%nat ->
    step (State MWait c p g i o d a b s) (Some (State MCloseOut c p g i o d a b s))
| st_close_out c p g i o d a b s :
    step (State MCloseOut c p g i o d a b s) (if o then None else Some (State MWaitDone c p g i true d a b s))
| st_return c p g i o a b s :
    step (State MWaitDone c p g i o true a b s) (Some (State (MRet a b s) c p g i o true a b s)).

(** executor.go:73-81: [None] is the panic on bad arguments. *)
Definition start (parallelism : Z) (ts : list case) : option state :=
  if parallelism <=? 0 then None
  else match hs with
       | [] => None
       | _ => let k := Z.to_nat parallelism in Some (State (MSpawn k ts) CNone [] [k] false false false 0 0 0)
       end.

(** Any number of steps. *)
Inductive steps : state -> state -> Prop :=
| steps_refl s : steps s s
| steps_next s s' s'' : steps s s' -> step s' (Some s'') -> steps s s''.
End Run.

Arguments WRecv {case harness}. Arguments WExit {case harness}. Arguments WEnd {case harness}.
Arguments KEnd {case harness}. Arguments WWait {case harness}. Arguments KDone {case harness}.
Arguments MWait {case}. Arguments MCloseOut {case}. Arguments MWaitDone {case}. Arguments MRet {case}.
