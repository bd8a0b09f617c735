(** C48: embedded messages in C++ are validated through a process-wide map from types to validators.

    [call cl sc now n m o] (CcReg.v): the Validate function of the message type [n], called on [m] while the map is in
    whatever states [now] allows (other threads look types up meanwhile), can return [o].  [history ds r]: the map can be [r] when
    the static initialisers of the messages [ds] have run. *)
From Coq Require Import Lia.
From Verif Require Import Base Rules Types Iface Checker GoSem Spec Wt WtDec WtMsgDec Setting Outcome Cc CcSpec CcReg CcRegSpec CcRegFacts
  Example Values JavaEx CcEx PropCc PropExact.
Local Open Scope string_scope.

(** With the initialisers of [ds] run, in whatever order and with whatever lookups between them, Validate treats exactly the
    messages outside of [ds] as if they had no rules. *)
Theorem cc_registry_exact : forall cl sc ds (now : registry -> Prop), wf_schema sc -> part_of ds sc -> (forall r, now r -> history ds r) -> (exists r, now r) ->
  forall n d m o fuel, find_msg sc n = Some d -> In d ds -> md_methods d <> MNone -> mheight m < fuel ->
    (call cl sc now n m o <-> o = cc_validate_f cl (restrict ds sc) fuel n m).
Proof.
  intros cl sc ds now W P H N n d m o fuel F D M L.
  apply (call_run cl (restrict ds sc) sc now) with (d := d); auto.
  - intros n' d' R. now apply (restrict_from ds).
  - intros r n' R. apply restrict_pointers; auto.
  - exact (wf_keys sc W).
  - now apply restrict_linked.
Qed.
Print Assumptions cc_registry_exact.

(** When all initialisers have run, Validate is the function that the theorems on C++ are about: whatever happens later. *)
Theorem cc_registry_complete : forall cl sc (now : registry -> Prop), wf_schema sc ->
  (forall r, now r -> exists ds, history ds r /\ part_of ds sc /\ forall n d, find_msg sc n = Some d -> In d ds) -> (exists r, now r) ->
  forall n d m o fuel, find_msg sc n = Some d -> md_methods d <> MNone -> mheight m < fuel ->
    (call cl sc now n m o <-> o = cc_validate_f cl sc fuel n m).
Proof.
  intros cl sc now W H N n d m o fuel F M L. apply (call_run cl sc sc now) with (d := d); auto.
  - intros r n' R. destruct (H r R) as (ds & A & B & C). now apply (complete_pointers ds).
  - exact (wf_keys sc W).
Qed.
Print Assumptions cc_registry_complete.

(** Then it returns true exactly on the valid messages. *)
Theorem cc_registry_valid : forall re_ok sc0 sc orc cl (now : registry -> Prop), cc_setting re_ok sc0 sc orc cl ->
  (forall r, now r -> exists ds, history ds r /\ part_of ds sc /\ forall n d, find_msg sc n = Some d -> In d ds) -> (exists r, now r) ->
  forall n d m, message sc0 n d m -> cc_values sc orc cl n m ->
    (call cl sc now n m Passes <-> valid orc sc0 n m) /\ (call cl sc now n m Rejects <-> ~ valid orc sc0 n m).
Proof.
  intros re_ok sc0 sc orc cl now C H N n d m M V.
  destruct (cc_validate_exact _ _ _ _ _ C n d m M V (S (mheight m)) (Nat.lt_succ_diag_r _)) as [A B].
  destruct C as [C W _ _]. destruct M as [F K _]. destruct (LangFacts.ck_find _ _ _ _ _ C F) as (d' & F' & X & _).
  destruct (Main.check_msg_name _ _ _ _ X) as (_ & Y & _).
  assert (R : forall o, call cl sc now n m o <-> o = cc_validate_f cl sc (S (mheight m)) n m).
  { intros o. apply (call_run cl sc sc now) with (d := d'); auto.
    - intros r n' R. destruct (H r R) as (ds & P & Q & T). now apply (complete_pointers ds).
    - exact (ck_keys _ _ _ C W).
    - rewrite Y. unfold has_methods in K. destruct (md_methods d); [discriminate..|]. discriminate K. }
  split; rewrite R; [rewrite <- A|rewrite <- B]; split; auto.
Qed.
Print Assumptions cc_registry_valid.

(** A run: initialisers of all messages, a lookup before and one after. *)
Definition started (sc : schema) : registry := fold_right init (subscript [] "Nobody") (sc_msgs sc).
Lemma started_history sc : history (sc_msgs sc) (started sc).
Proof.
  unfold started. induction (sc_msgs sc) as [|d l IH]; cbn [fold_right]; [apply looks, start|]. now apply inits.
Qed.
Lemma all_found sc n d : find_msg sc n = Some d -> In d (sc_msgs sc).
Proof. intros F. now apply find_some in F. Qed.
Example cc_registry_ex :
  let now := fun r => r = started ex3_checked \/ r = subscript (started ex3_checked) "Nowhere" in
  wf_schema ex3_checked /\
  (forall r, now r -> history (sc_msgs ex3_checked) r) /\ part_of (sc_msgs ex3_checked) ex3_checked /\ (exists r, now r) /\
  call ex_cl ex3_checked now "Account" ex3_good Passes /\ call ex_cl ex3_checked now "Account" ex3_bad Rejects.
Proof.
  intros now. assert (H : forall r, now r -> history (sc_msgs ex3_checked) r).
  { intros r [-> | ->]; [|apply looks]; apply started_history. }
  assert (P : part_of (sc_msgs ex3_checked) ex3_checked).
  { intros d Hd. vm_compute in Hd. repeat (destruct Hd as [<-|Hd]; [vm_compute; reflexivity|]). contradiction. }
  assert (N : exists r, now r) by (exists (started ex3_checked); now left).
  assert (W : forall r, now r -> exists ds, history ds r /\ part_of ds ex3_checked /\ forall n d, find_msg ex3_checked n = Some d -> In d ds)
    by (intros r R; exists (sc_msgs ex3_checked); repeat split; auto; intros n d F; exact (all_found _ n d F)).
  split; [apply wf_schemab_sound; vm_compute; reflexivity|]. split; [exact H|]. split; [exact P|]. split; [exact N|].
  destruct cc_validate_exact_ex as (_ & _ & G & B). split.
  - now apply (cc_registry_valid _ _ _ _ _ now ex3_cset W N _ _ _ ex3_good_msg ex3_good_cc).
  - now apply (cc_registry_valid _ _ _ _ _ now ex3_cset W N _ _ _ ex3_bad_msg ex3_bad_cc).
Qed.

(** A type whose translation unit was not linked in, or not initialised yet, is not validated, silently.  No symbol of it is
    referenced, so a linker drops it from a static library. *)
Definition outer : msgdesc := mkMsg "M" [mkField "F" (FOne (TMsg "Inner")) (FR None None)] [] false MBoth.
Definition two_units : schema := misplaced (FR None None).
Theorem cc_registry_unlinked_refuted : exists cl sc ds r n m, wf_schema sc /\ part_of ds sc /\ history ds r /\
  (forall o, call cl sc (history ds) n m o <-> o = Passes) /\
  (forall o, call cl sc (history (sc_msgs sc)) n m o <-> o = Rejects).
Proof.
  assert (W : wf_schema two_units) by (apply wf_schemab_sound; vm_compute; reflexivity).
  assert (P : part_of (sc_msgs two_units) two_units).
  { intros d Hd. vm_compute in Hd. repeat (destruct Hd as [<-|Hd]; [vm_compute; reflexivity|]). contradiction. }
  assert (P1 : part_of [outer] two_units) by (intros d [<-|[]]; reflexivity).
  exists ex_cl, two_units, [outer], (init outer []), "M", short_msg.
  split; [exact W|]. split; [exact P1|]. split; [apply inits, start|]. split; intros o.
  - rewrite (cc_registry_exact ex_cl two_units [outer] (history [outer]) W P1 (fun r H => H)
      (ex_intro _ _ (inits _ _ outer start)) "M" outer short_msg o 5); [vm_compute; tauto|reflexivity|now left|discriminate|vm_compute; lia].
  - rewrite (cc_registry_exact ex_cl two_units (sc_msgs two_units) (history (sc_msgs two_units)) W P (fun r H => H)
      (ex_intro _ _ (started_history two_units)) "M" outer short_msg o 5); [vm_compute; tauto|reflexivity|now left|discriminate|vm_compute; lia].
Qed.
Print Assumptions cc_registry_unlinked_refuted.

(** ** Threads

    The map has no lock: concurrent lookups are only safe if they do not write.  A lookup leaves the map as it is if and only if the
    type has an entry; types with an initialiser do, from then on. *)
Theorem cc_lookup_reads : forall ds r t, history ds r ->
  (subscript r t = r <-> In t (map fst r)) /\
  (forall d, In d ds -> registers d = true -> In (md_name d) (map fst r)) /\ In t (map fst (subscript r t)).
Proof.
  intros ds r t H. assert (A : forall t (r : registry), assoc t r = None <-> ~ In t (map fst r)).
  { clear. intros t r. induction r as [|[k p] r IH]; cbn; [tauto|]. destruct (String.eqb t k) eqn:E.
    - apply String.eqb_eq in E. subst. split; [discriminate|]. intros X. exfalso. auto.
    - apply String.eqb_neq in E. rewrite IH. intuition. }
  split; [|split].
  - unfold subscript. destruct (assoc t r) eqn:E.
    + split; auto. intros _. destruct (in_dec string_dec t (map fst r)) as [I|I]; auto. apply A in I. congruence.
    + split; [|intros I; apply A in E; contradiction]. intros X. exfalso. apply (f_equal (@List.length _)) in X. cbn in X. lia.
  - intros d D R. destruct (in_dec string_dec (md_name d) (map fst r)) as [I|I]; auto. exfalso. apply A in I.
    assert (P := pointer_history ds r H (md_name d)). unfold pointer in P. rewrite I in P.
    assert (X : existsb (fun d' => String.eqb (md_name d) (md_name d') && registers d') ds = true)
      by (apply existsb_exists; exists d; now rewrite String.eqb_refl, R).
    rewrite X in P. discriminate.
  - unfold subscript. destruct (assoc t r) eqn:E; [|now left]. destruct (in_dec string_dec t (map fst r)) as [I|I]; auto. apply A in I. congruence.
Qed.
Print Assumptions cc_lookup_reads.

(** Even with all initialisers run, validating a message can write: an embedded message whose validation is disabled has no
    entry until the first lookup.  Two threads that validate such messages for the first time race. *)
Definition quiet : schema := mkSchema [outer; mkMsg "Inner" [] [] true MBoth] [] ["M"; "Inner"].
Theorem cc_lookup_race_refuted : exists sc r d f,
  history (sc_msgs sc) r /\ In d (sc_msgs sc) /\ In f (md_fields d) /\ f_type f = FOne (TMsg "Inner") /\ f_rules f = FR None None /\
  subscript r "Inner" <> r.
Proof.
  exists quiet, (fold_right init [] (sc_msgs quiet)), outer, (mkField "F" (FOne (TMsg "Inner")) (FR None None)).
  split; [cbn [sc_msgs quiet fold_right]; repeat constructor|]. split; [now left|]. split; [now left|]. split; [reflexivity|]. split; [reflexivity|].
  vm_compute. discriminate.
Qed.
Print Assumptions cc_lookup_race_refuted.
