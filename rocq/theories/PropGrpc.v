(** C32, C33, C34: the Java gRPC interceptors and validator indexes, over all histories of calls.

    [check m] is how validating [m] ends.  [serve check false h] is what the server interceptor does when gRPC makes the
    calls [h]; [requests check h] what the client interceptor does. *)
From Coq Require Import Lia.
From Verif Require Import Base Rules Types Iface Checker GoGen GoSem Spec Wt Setting Values Outcome Java JavaSpec JavaEx
  Example JavaGrpc JavaGrpcSpec JavaGrpcFacts PropJava.

(** Numbers as messages: odd ones are invalid, 0 breaks the validator. *)
Definition why (n : nat) : exc := mkExc (bs "n") (bs "odd") (bs "must be even").
Definition even_only (n : nat) : checked := match n with O => Broken | _ => if Nat.even n then Fine else Thrown (why n) end.

(** ** C32 *)

(** The handler gets exactly the messages that pass, in the order of their arrival. *)
Theorem server_delivers_exactly_fine : forall M (check : M -> checked) h,
  delivered (serve check false h) = filter (is_fine check) (arrived h).
Proof. intros M check h. exact (serve_delivered check h false). Qed.
Print Assumptions server_delivers_exactly_fine.
Example server_delivers_ex : delivered (serve even_only false [Ready; Message 4; Message 0; Message 3; Message 8; HalfClose]) = [4; 8].
Proof. reflexivity. Qed.

(** The first message that is rejected closes the call, with INVALID_ARGUMENT, the exception's text and the violated field;
    nothing closes it before. *)
Theorem server_closes_on_first_rejection : forall M (check : M -> checked) a m b e,
  (forall m', In (Message m') a -> forall e', check m' <> Thrown e') -> check m = Thrown e ->
  exists rest, serve check false (a ++ Message m :: b) = serve check false a ++ Close (as_status e) :: rest /\
  (forall s, ~ In (Close s) (serve check false a)) /\
  as_status e = mkStatus 3 (ex_field e ++ bs ": " ++ ex_reason e ++ bs " - Got " ++ ex_value e) [(ex_field e, ex_reason e)].
Proof.
  intros M check a m b e N E. apply any_rejected_false in N. rewrite serve_app, N. cbn [orb serve on_event]. rewrite E.
  eexists. split; [reflexivity|]. split; [exact (serve_no_close check a N false)|reflexivity].
Qed.
Print Assumptions server_closes_on_first_rejection.
Example server_closes_ex : serve even_only false [Message 4; Message 3; HalfClose] =
  [Deliver (Message 4); Close (mkStatus 3 (bs "n: must be even - Got odd") [(bs "n", bs "must be even")])].
Proof. reflexivity. Qed.

(** Once a message was rejected the handler gets no half-close. *)
Theorem server_no_half_close_after_rejection : forall M (check : M -> checked) a m e b,
  In (Message m) a -> check m = Thrown e ->
  exists rest, serve check false (a ++ b) = serve check false a ++ rest /\ ~ In (Deliver HalfClose) rest.
Proof.
  intros M check a m e b I E. rewrite serve_app, (any_rejected_true check a m e I E). eexists. split; [reflexivity|apply serve_closed].
Qed.
Print Assumptions server_no_half_close_after_rejection.

(** Before, it gets each of them, and at any time all other events. *)
Theorem server_forwards : forall M (check : M -> checked) a e b,
  match e with
  | Message m => check m = Fine
  | HalfClose => forall m, In (Message m) a -> forall x, check m <> Thrown x
  | _ => True
  end ->
  exists rest, serve check false (a ++ e :: b) = serve check false a ++ Deliver e :: rest.
Proof.
  intros M check a e b H. rewrite serve_app. destruct e as [m| | | |]; cbn [serve on_event];
    try (eexists; reflexivity).
  - rewrite H. eexists; reflexivity.
  - apply any_rejected_false in H. rewrite H. eexists; reflexivity.
Qed.
Print Assumptions server_forwards.

(** But the call may be closed twice, and messages that follow a rejected one reach the handler of a closed call. *)
Theorem server_close_once_refuted : exists h, serve even_only false h =
  [Close (as_status (why 1)); Close (as_status (why 3))].
Proof. exists [Message 1; Message 3]. reflexivity. Qed.
Theorem server_silent_after_close_refuted : exists h, serve even_only false h = [Close (as_status (why 1)); Deliver (Message 2)].
Proof. exists [Message 1; Message 2]. reflexivity. Qed.
Print Assumptions server_close_once_refuted.
Print Assumptions server_silent_after_close_refuted.

(** Validators that fail with another exception neither deliver the message nor close the call. *)
Theorem server_broken_validator : forall M (check : M -> checked) a m b, check m = Broken ->
  exists rest, serve check false (a ++ Message m :: b) = serve check false a ++ Throws :: rest.
Proof. intros M check a m b H. rewrite serve_app. cbn [serve on_event]. rewrite H. eexists; reflexivity. Qed.
Print Assumptions server_broken_validator.

(** With the generated validators: the handler gets exactly the valid messages.  [text] is the exception of a
    message, whatever it is. *)
Definition generated (jl : java_libs) (sc : schema) (ignored : string -> bool) (text : string * msgval -> exc) (x : string * msgval) : checked :=
  match assert_valid_f jl sc ignored (S (mheight (snd x))) (fst x) (snd x) with
  | Passes => Fine
  | Rejects | Unimplemented => Thrown (text x)
  | Crashes => Broken
  end.

Theorem server_delivers_exactly_valid : forall re_ok sc0 sc orc jl ignored text, java_setting re_ok sc0 sc orc ignored ->
  forall h, (forall n m, In (Message (n, m)) h -> (exists d, message sc0 n d m) /\ java_message sc orc jl ignored n m) ->
  exists keep, delivered (serve (generated jl sc ignored text) false h) = filter keep (arrived h) /\
  forall n m, In (Message (n, m)) h -> (keep (n, m) = true <-> valid orc sc0 n m).
Proof.
  intros re_ok sc0 sc orc jl ignored text S h H. eexists. split; [apply serve_delivered|].
  intros n m I. destruct (H n m I) as [[d D] J].
  destruct (java_assert_valid_exact _ _ _ _ _ _ S n d m D J _ (le_n _)) as [A B].
  unfold is_fine, generated. cbn [fst snd]. rewrite <- A. destruct (assert_valid_f jl sc ignored _ n m); split; intros; congruence.
Qed.
Print Assumptions server_delivers_exactly_valid.
Example server_delivers_valid_ex :
  delivered (serve (generated ex_jl ex2_checked (fun _ => false) (fun _ => why 0)) false
    [Message ("Person"%string, ex_bad); Message ("Person"%string, ex_good)]) = [("Person"%string, ex_good)].
Proof. vm_compute. reflexivity. Qed.

(** ** C33 *)

(** The channel gets exactly the messages that pass, in order. *)
Theorem client_sends_exactly_fine : forall M (check : M -> checked) h, forwarded (requests check h) = filter (is_fine check) (sent h).
Proof. intros M check h. exact (requests_forwarded check h). Qed.
Print Assumptions client_sends_exactly_fine.
Example client_sends_ex : requests even_only [Send 4; Send 3; Send 0; Other 1%N] =
  [Forward (Send 4); Raise (as_status (why 3)); Raises; Forward (Other 1%N)].
Proof. reflexivity. Qed.

(** A rejected one raises INVALID_ARGUMENT; each call is answered on its own. *)
Theorem client_raises : forall M (check : M -> checked) a m b e, check m = Thrown e ->
  requests check (a ++ Send m :: b) = requests check a ++ Raise (as_status e) :: requests check b /\ st_code (as_status e) = 3%N.
Proof. intros M check a m b e E. unfold requests. rewrite map_app. cbn [map on_request]. rewrite E. split; reflexivity. Qed.
Print Assumptions client_raises.

(** ** C34 *)

(** Two classes of messages; a message is its class and an embedded one.  Class true has a generated validator that validates the
    embedded message. *)
Inductive toy := Toy (c : bool) (inside : option toy).
Definition toy_class (t : toy) : bool := let (c, _) := t in c.
Definition toy_impl (t : toy) : list (outcome + toy) := let (_, i) := t in match i with Some x => [inl Passes; inr x] | None => [] end.
Definition toy_loads (c : bool) : option impl := if c then Some toy_impl else None.
Definition reject_all : @impl toy := fun _ => [inl Rejects].

(** Caching never shows: for every chain of indexes and every history of lookups, validations and registrations,
    each validator, however old, decides what a lookup without caches would decide now.  [verdicts] never caches
    (JavaGrpcSpec.v). *)
Theorem index_caching_transparent : forall C M (eqc : C -> C -> bool) class loads, (forall a b, eqc a b = true <-> a = b) ->
  forall (x : @index C M) h fuel, fresh x -> 0 < fuel ->
  play eqc class loads fuel x [] h = verdicts eqc class loads fuel (plain_of x) [] h.
Proof. intros C M eqc class loads E x h fuel F H. exact (play_exact eqc E class loads fuel x h F H). Qed.
Print Assumptions index_caching_transparent.
Example index_caching_ex :
  play Bool.eqb toy_class toy_loads 5 (Reflective [] (Explicit [] [] (Always Rejects))) []
    [Lookup 0 true; Run 0 (Toy true (Some (Toy false None))); Add 1 false reject_all; Run 0 (Toy true (Some (Toy false None)))]
  = [Passes; Rejects].
Proof. reflexivity. Qed.

(** A class without a generated validator is validated by the fallback of a reflective index, at any time. *)
Theorem reflective_fallback : forall C M (eqc : C -> C -> bool) class loads fuel p c (m : M), loads c = None ->
  checks eqc class loads fuel (PReflective p) c m = checks eqc class loads fuel p c m.
Proof. intros C M eqc class loads [|k] p c m H; [reflexivity|]. cbn. rewrite H. destruct p; reflexivity. Qed.
Print Assumptions reflective_fallback.

(** With one, by that one, whatever the fallback. *)
Theorem reflective_found : forall C M (eqc : C -> C -> bool) class loads k p c (m : M) i, loads c = Some i ->
  checks eqc class loads (S k) (PReflective p) c m = all_pass (fun m' => checks eqc class loads k (PReflective p) (class m') m') (i m).
Proof. intros. cbn. rewrite H. reflexivity. Qed.
Print Assumptions reflective_found.

(** An explicit index uses the latest impl registered for the class. *)
Theorem explicit_latest : forall C M (eqc : C -> C -> bool) class loads k impls fb c (m : M) i, (forall a b, eqc a b = true <-> a = b) ->
  let p := plain_add 0 (PExplicit impls fb) c i in
  checks eqc class loads (S k) p c m = all_pass (fun m' => checks eqc class loads k p (class m') m') (i m).
Proof. intros C M eqc class loads k impls fb c m i E p. subst p. cbn. rewrite (proj2 (E c c) eq_refl). reflexivity. Qed.
Print Assumptions explicit_latest.

(** A class without an explicit validator passes, whatever the fallback: it is asked for a validator, which is not used. *)
Theorem explicit_unregistered_passes : forall C M (eqc : C -> C -> bool) class loads k impls fb c (m : M), get eqc c impls = None ->
  checks eqc class loads (S k) (PExplicit impls fb) c m = Passes.
Proof. intros C M eqc class loads k impls fb c m H. cbn. rewrite H. reflexivity. Qed.
Print Assumptions explicit_unregistered_passes.

Theorem explicit_fallback_refuted : exists (x : @index bool toy) m,
  play Bool.eqb toy_class toy_loads 5 (Explicit [] [] x) [] [Lookup 0 false; Run 0 m] = [Passes] /\
  play Bool.eqb toy_class toy_loads 5 x [] [Lookup 0 false; Run 0 m] = [Rejects].
Proof. exists (Always Rejects), (Toy false None). split; reflexivity. Qed.
Print Assumptions explicit_fallback_refuted.

(** [isValid] answers for ValidationException and lets others through. *)
Theorem is_valid_exact : forall c, (is_valid c = Some true <-> c = Fine) /\ (is_valid c = Some false <-> exists e, c = Thrown e).
Proof. intros []; cbn; split; split; intros H; try discriminate; try (destruct H; discriminate); eauto. Qed.
Print Assumptions is_valid_exact.
