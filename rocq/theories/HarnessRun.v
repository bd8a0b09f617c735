(** The goroutines of the executor: an invariant, absence of panics and of deadlock, termination, and the count. *)
From Coq Require Import Lia Permutation.
From Verif Require Import Base Harness HarnessSpec.

(** Equality of concatenations up to order. *)
Lemma pull_here {A} (a z : list A) : Permutation (a ++ z) (a ++ z).
Proof. reflexivity. Qed.
Lemma pull_end {A} (a : list A) : Permutation a (a ++ []).
Proof. now rewrite app_nil_r. Qed.
Lemma pull_later {A} (a y z z' : list A) : Permutation z (a ++ z') -> Permutation (y ++ z) (a ++ y ++ z').
Proof. intros H. rewrite H. apply Permutation_app_swap_app. Qed.
Lemma pull_cancel {A} (a b r r' : list A) : Permutation r (a ++ r') -> Permutation b r' -> Permutation (a ++ b) r.
Proof. intros -> H. now apply Permutation_app_head. Qed.
Lemma pull_last {A} (a r r' : list A) : Permutation r (a ++ r') -> Permutation [] r' -> Permutation a r.
Proof. intros -> H. rewrite <- H. now rewrite app_nil_r. Qed.
Ltac pull := first [apply pull_here | apply pull_end | apply pull_later; pull].
Ltac perm := rewrite <- ?app_assoc; rewrite ?app_nil_r;
  repeat first [reflexivity | eapply pull_cancel; [pull|]]; try (eapply pull_last; [pull|reflexivity]).

Section Sum.
Context {A : Type}.
Fixpoint sumf (f : A -> nat) (l : list A) : nat := match l with [] => 0 | x :: t => f x + sumf f t end.
Lemma sumf_app f l l' : sumf f (l ++ l') = sumf f l + sumf f l'.
Proof. induction l; cbn; lia. Qed.
Lemma sumf_pos f l : 0 < sumf f l -> exists x, In x l /\ 0 < f x.
Proof.
  induction l as [|x l IH]; cbn; [lia|]. intros H. destruct (Nat.eq_dec (f x) 0) as [E|E].
  - destruct IH as (y & I & P); [lia|]. exists y. auto.
  - exists x. split; [auto|lia].
Qed.
Lemma sumf_zero f l : sumf f l = 0 -> forall x, In x l -> f x = 0.
Proof. induction l as [|y l IH]; cbn; [tauto|]. intros H x [->|I]; [lia|]. apply IH; auto; lia. Qed.
End Sum.

Lemma nth_set_nth w v g : w < List.length g -> forall x, nth x (set_nth w v g) 0 = if Nat.eqb x w then v else nth x g 0.
Proof.
  revert w. induction g as [|y g IH]; intros [|w] L x; cbn in L; try lia.
  - destruct x; reflexivity.
  - cbn [set_nth]. destruct x as [|x]; cbn [nth Nat.eqb]; [reflexivity|]. rewrite IH by lia. reflexivity.
Qed.
Lemma length_set_nth w v g : List.length (set_nth w v g) = List.length g.
Proof. revert w; induction g as [|y g IH]; intros [|w]; cbn; auto. Qed.

Section Run.
Variables case harness : Type.
Variable encodes : case -> bool.
Variable failures : case -> Z.
Variable exec : case -> harness -> execution -> Prop.
Variable hs : list harness.
Variables (par : nat) (cases : list case).
Hypothesis par_pos : 0 < par.
Hypothesis exec_total : forall t h, exists x, exec t h x.

Notation thread := (thread case harness).
Notation state := (state case harness).
Notation step := (step case harness encodes failures exec hs).
Notation steps := (steps case harness encodes failures exec hs).
Notation jobs := (jobs case harness encodes hs).
Notation possible := (possible case harness failures exec).
Notation job := (job case harness).

(** What each goroutine has still to deliver. *)
Definition pend (u : thread) : list job :=
  match u with
  | WStart _ _ t => jobs t
  | WErr _ _ t => [(t, None)]
  | WSpawn _ _ t _ l => map (fun h => (t, Some h)) l
  | KExec _ _ _ t h => [(t, Some h)]
  | KSend _ _ _ t h _ => [(t, Some h)]
  | _ => []
  end.
Definition pend_main (m : main_pc case) : list job :=
  match m with
  | MSpawn _ _ ts => flat_map jobs ts
  | MSend _ ts => flat_map jobs ts
  | _ => []
  end.

(** What each goroutine owes WaitGroup [w]. *)
Definition owes (w : nat) (u : thread) : nat :=
  match u with
  | WEnd | KEnd => 0
  | WRecv | WStart _ _ _ | WErr _ _ _ | WWait _ | WExit => if Nat.eqb w 0 then 1 else 0
  | WSpawn _ _ _ w' l => (if Nat.eqb w 0 then 1 else 0) + (if Nat.eqb w w' then List.length l else 0)
  | KExec _ _ w' _ _ | KSend _ _ w' _ _ _ | KDone w' => if Nat.eqb w w' then 1 else 0
  end.
Definition owes_main (w : nat) (m : main_pc case) : nat :=
  match m with MSpawn _ k _ => if Nat.eqb w 0 then k else 0 | _ => 0 end.

Definition is_worker (u : thread) : nat :=
  match u with KExec _ _ _ _ _ | KSend _ _ _ _ _ _ | KDone _ | KEnd => 0 | _ => 1 end.
Definition spawning (m : main_pc case) : nat := match m with MSpawn _ k _ => k | _ => 0 end.

(** The goroutine keeps [execTestCase] with WaitGroup [w] open. *)
Definition keeps (w : nat) (u : thread) : Prop := match u with WSpawn _ _ _ w' _ | WWait w' => w = w' | _ => False end.

Definition thread_ok (in_closed : bool) (g : nat) (u : thread) : Prop :=
  match u with
  | WSpawn _ _ _ w _ | WWait w => 0 < w < g
  | KExec _ _ w _ _ => 0 < w < g
  | KSend _ _ w t h r => 0 < w < g /\ possible ((t, Some h), r)
  | KDone w => 0 < w < g
  | WExit | WEnd => in_closed = true
  | _ => True
  end.

Definition inflight (c : coll_pc) : list result := match c with CHave r => [r] | _ => [] end.
Definition n_succ (l : list result) := List.length (filter (fun r => negb (r_skipped r) && r_ok r) l).
Definition n_fail (l : list result) := List.length (filter (fun r => negb (r_skipped r) && negb (r_ok r)) l).
Definition n_skip (l : list result) := List.length (filter (fun r => r_skipped r) l).

Definition live (c : coll_pc) : Prop := match c with CRecv | CHave _ => True | _ => False end.
Definition control (s : state) : Prop :=
  match s_main _ _ s with
  | MSpawn _ _ _ => s_coll _ _ s = CNone /\ s_in _ _ s = false /\ s_out _ _ s = false /\ s_done _ _ s = false
  | MSend _ _ => live (s_coll _ _ s) /\ s_in _ _ s = false /\ s_out _ _ s = false /\ s_done _ _ s = false
  | MWait => live (s_coll _ _ s) /\ s_in _ _ s = true /\ s_out _ _ s = false /\ s_done _ _ s = false
  | MCloseOut => live (s_coll _ _ s) /\ s_in _ _ s = true /\ s_out _ _ s = false /\ s_done _ _ s = false /\
      nth 0 (s_wgs _ _ s) 0 = 0
  | MWaitDone => s_coll _ _ s <> CNone /\ s_in _ _ s = true /\ s_out _ _ s = true /\
      (s_done _ _ s = true <-> s_coll _ _ s = CEnd) /\ nth 0 (s_wgs _ _ s) 0 = 0
  | MRet a b c => s_coll _ _ s = CEnd /\ s_in _ _ s = true /\ s_out _ _ s = true /\ s_done _ _ s = true /\
      nth 0 (s_wgs _ _ s) 0 = 0 /\ a = s_succ _ _ s /\ b = s_fail _ _ s /\ c = s_skip _ _ s
  end.

Record inv (s : state) : Prop := {
  i_jobs : exists l : list (job * result),
    Permutation (map fst l ++ pend_main (s_main _ _ s) ++ flat_map pend (s_pool _ _ s)) (flat_map jobs cases) /\
    Forall possible l /\
    successes _ _ l = s_succ _ _ s + n_succ (inflight (s_coll _ _ s)) /\
    failed _ _ l = s_fail _ _ s + n_fail (inflight (s_coll _ _ s)) /\
    skips _ _ l = s_skip _ _ s + n_skip (inflight (s_coll _ _ s));
  i_threads : Forall (thread_ok (s_in _ _ s) (List.length (s_wgs _ _ s))) (s_pool _ _ s);
  i_wgs : s_wgs _ _ s <> [];
  i_owes : forall w, owes_main w (s_main _ _ s) + sumf (owes w) (s_pool _ _ s) = nth w (s_wgs _ _ s) 0;
  i_keeps : forall w, 0 < w -> nth w (s_wgs _ _ s) 0 <> 0 -> exists u, In u (s_pool _ _ s) /\ keeps w u;
  i_workers : spawning (s_main _ _ s) + sumf is_worker (s_pool _ _ s) = par;
  i_control : control s }.

Lemma flat_map_mid {A B} (f : A -> list B) l x l' : flat_map f (l ++ x :: l') = flat_map f l ++ f x ++ flat_map f l'.
Proof. rewrite flat_map_app. reflexivity. Qed.

Lemma thread_ok_mono i i' g g' u : (i = true -> i' = true) -> g <= g' -> thread_ok i g u -> thread_ok i' g' u.
Proof. intros I G. destruct u; cbn; intuition lia. Qed.

Lemma threads_mid i g p1 u p2 : Forall (thread_ok i g) (p1 ++ u :: p2) <->
  Forall (thread_ok i g) p1 /\ thread_ok i g u /\ Forall (thread_ok i g) p2.
Proof. rewrite Forall_app. split; [intros [? H]; inversion H; auto|intros (? & ? & ?); split; auto]. Qed.

(** The bookkeeping of a step that changes one goroutine of the pool. *)
Lemma keeps_same g p1 u u' p2 : (forall w, keeps w u -> keeps w u' \/ nth w g 0 = 0) ->
  (forall w, 0 < w -> nth w g 0 <> 0 -> exists v, In v (p1 ++ u :: p2) /\ keeps w v) ->
  forall w, 0 < w -> nth w g 0 <> 0 -> exists v, In v (p1 ++ u' :: p2) /\ keeps w v.
Proof.
  intros K H w W N. destruct (H w W N) as (v & I & Kv). apply in_app_or in I. destruct I as [I|[<-|I]].
  - exists v. split; auto. apply in_or_app. auto.
  - destruct (K w Kv) as [K'|K']; [|contradiction]. exists u'. split; auto. apply in_or_app. right; now left.
  - exists v. split; auto. apply in_or_app. right; now right.
Qed.

Ltac norm := cbn [s_main s_coll s_pool s_wgs s_in s_out s_done s_succ s_fail s_skip] in *.

(** A pool step without effect on what is shared. *)
Lemma inv_pool m c p1 u u' p2 g i o d a b s :
  inv (State _ _ m c (p1 ++ u :: p2) g i o d a b s) ->
  pend u' = pend u -> (forall w, owes w u' = owes w u) -> is_worker u' = is_worker u ->
  (forall w, keeps w u -> keeps w u' \/ nth w g 0 = 0) ->
  (thread_ok i (List.length g) u -> thread_ok i (List.length g) u') ->
  inv (State _ _ m c (p1 ++ u' :: p2) g i o d a b s).
Proof.
  intros [J T W O K N C] Hp Ho Hw Hk Ht. constructor; norm; auto.
  - rewrite flat_map_mid in *. now rewrite Hp.
  - rewrite threads_mid in *. tauto.
  - intros w. rewrite <- (O w), !sumf_app. cbn [sumf]. now rewrite Ho.
  - eapply keeps_same; eauto.
  - rewrite !sumf_app in *. cbn [sumf] in *. now rewrite Hw.
Qed.

Lemma inv_step s s' : inv s -> step s (Some s') -> inv s'.
Proof.
  intros I St. remember (Some s') as q eqn:Q. destruct St; try discriminate; try (injection Q as <-).
  - (* spawn *)
    destruct I as [J T W O K N C]; constructor; norm; auto.
    + rewrite flat_map_app. cbn. rewrite app_nil_r. exact J.
    + apply Forall_app. split; [auto|]. repeat constructor.
    + intros w. rewrite <- (O w), sumf_app. cbn. destruct (Nat.eqb w 0); lia.
    + intros w W0 Nz. destruct (K w W0 Nz) as (u & I & Ku). exists u. split; auto. apply in_or_app. auto.
    + rewrite sumf_app. cbn in *. lia.
  - (* the collector starts *)
    destruct I as [J T W O K N C]; constructor; norm; auto.
    + cbn in C. decompose [and] C. subst. exact J.
    + intros w. rewrite <- (O w). cbn. destruct (Nat.eqb w 0); lia.
    + cbn in *. tauto.
  - (* a case is handed to a worker *)
    destruct I as [J T W O K N C]; constructor; norm; auto.
    + destruct J as (l & P & R). exists l. split; [|auto]. rewrite <- P. rewrite !flat_map_mid. cbn. perm.
    + rewrite threads_mid in *. cbn in *. tauto.
    + intros w. rewrite <- (O w), !sumf_app. cbn. lia.
    + eapply keeps_same; [|exact K]. cbn. tauto.
    + rewrite sumf_app in *. cbn in *. lia.
  - (* close(in) *)
    destruct i; [discriminate|]. injection Q as <-.
    destruct I as [J T W O K N C]; constructor; norm; auto.
    + eapply Forall_impl; [|exact T]. intros u. apply thread_ok_mono; auto.
    + cbn in *. tauto.
  - (* a worker sees the end *)
    eapply inv_pool; [exact I|..]; cbn; auto; try tauto.
  - (* not encodable *)
    eapply inv_pool; [exact I|..]; cbn; auto; try tauto. unfold HarnessSpec.jobs. now rewrite H.
  - (* a new WaitGroup *)
    destruct I as [J T W O K N C]; constructor; norm; auto.
    + rewrite flat_map_mid in *. cbn [pend] in *. unfold HarnessSpec.jobs in J. rewrite H in J. exact J.
    + rewrite threads_mid in *. rewrite app_length. cbn in *. destruct T as (T1 & _ & T2).
      repeat split; try lia.
      * eapply Forall_impl; [|exact T1]. intros u. apply thread_ok_mono; auto; lia.
      * destruct g; [contradiction|cbn; lia].
      * eapply Forall_impl; [|exact T2]. intros u. apply thread_ok_mono; auto; lia.
    + intros E. apply app_eq_nil in E. destruct E. discriminate.
    + intros w. pose proof (O w) as Ow. rewrite sumf_app in *. cbn in *.
      destruct (Nat.eqb_spec w (List.length g)) as [->|Ne].
      * rewrite nth_overflow in Ow by lia. rewrite app_nth2, Nat.sub_diag by lia. cbn. lia.
      * destruct (Nat.lt_ge_cases w (List.length g)).
        -- rewrite app_nth1 by lia. lia.
        -- rewrite nth_overflow in Ow by lia. rewrite nth_overflow by (rewrite app_length; cbn; lia). lia.
    + intros w W0 Nz. destruct (Nat.eqb_spec w (List.length g)) as [->|Ne].
      * eexists. split; [apply in_or_app; right; left; reflexivity|]. reflexivity.
      * destruct (Nat.lt_ge_cases w (List.length g)).
        -- rewrite app_nth1 in Nz by lia. destruct (K w W0 Nz) as (v & I & Kv). exists v. split; auto.
           apply in_app_or in I. apply in_or_app. destruct I as [I|[<-|I]]; auto; [contradiction|right; now right].
        -- rewrite nth_overflow in Nz by (rewrite app_length; cbn; lia). contradiction.
    + rewrite sumf_app in *. cbn in *. lia.
    + destruct g; [contradiction|]. exact C.
  - (* a harness goroutine starts *)
    destruct I as [J T W O K N C]; constructor; norm; auto.
    + destruct J as (l' & P & R). exists l'. split; [|auto]. rewrite <- P.
      rewrite !flat_map_mid. cbn [pend map flat_map].
      change ((t, Some h) :: map (fun h0 => (t, Some h0)) l) with ([(t, Some h)] ++ map (fun h0 : harness => (t, Some h0)) l).
      perm.
    + rewrite threads_mid in *. cbn in *. rewrite Forall_app. repeat split; try tauto. constructor; [|constructor]. cbn. tauto.
    + intros w'. rewrite <- (O w'), !sumf_app. cbn. rewrite sumf_app. cbn. destruct (Nat.eqb w' w), (Nat.eqb w' 0); lia.
    + intros w' W0 Nz. destruct (K w' W0 Nz) as (v & I & Kv). apply in_app_or in I. destruct I as [I|[<-|I]].
      * exists v. split; auto. apply in_or_app; auto.
      * eexists. split; [apply in_or_app; right; left; reflexivity|]. exact Kv.
      * exists v. split; auto. apply in_or_app. right. right. apply in_or_app; auto.
    + rewrite sumf_app in *. cbn in *. rewrite sumf_app. cbn. lia.
  - (* all started *)
    eapply inv_pool; [exact I|..]; cbn; auto; try tauto. intros w'. destruct (Nat.eqb w' w), (Nat.eqb w' 0); reflexivity.
  - (* wg.Wait() in execTestCase *)
    eapply inv_pool; [exact I|..]; cbn; auto; try tauto. intros w' ->. auto.
  - (* h.Exec *)
    eapply inv_pool; [exact I|..]; cbn; auto; try tauto. intros [? ?]. repeat split; auto. eexists. split; [eauto|reflexivity].
  - (* a result is received *)
    destruct I as [J T W O K N C].
    assert (Pd : exists j, pend u = [j] /\ pend u' = [] /\ (thread_ok i (List.length g) u -> possible (j, r) /\ thread_ok i (List.length g) u') /\
      (forall w, owes w u' = owes w u) /\ is_worker u' = is_worker u /\ (forall w, ~ keeps w u)).
    { destruct H; cbn; eexists; repeat split; auto; try reflexivity; tauto. }
    destruct Pd as (j & P1 & P2 & P3 & P4 & P5 & P6).
    norm. rewrite threads_mid in T. destruct T as (T1 & T2 & T3).
    constructor; norm; auto.
    + destruct J as (l & P & F & S1 & S2 & S3). exists ((j, r) :: l). repeat split.
      * rewrite <- P. rewrite !flat_map_mid, P1, P2. cbn [map fst]. change (j :: map fst l) with ([j] ++ map fst l). perm.
      * constructor; tauto.
      * cbn in *. unfold successes, n_succ in *. cbn. destruct (negb (r_skipped r) && r_ok r); cbn; lia.
      * cbn in *. unfold failed, n_fail in *. cbn. destruct (negb (r_skipped r) && negb (r_ok r)); cbn; lia.
      * cbn in *. unfold skips, n_skip in *. cbn. destruct (r_skipped r); cbn; lia.
    + rewrite threads_mid. tauto.
    + intros w. rewrite <- (O w), !sumf_app. cbn [sumf]. now rewrite P4.
    + eapply keeps_same; [|exact K]. intros w Kw. now apply P6 in Kw.
    + rewrite sumf_app in *. cbn [sumf] in *. now rewrite P5.
    + destruct m; cbn in *; try tauto; decompose [and] C; try discriminate.
  - (* wg.Done() *)
    destruct I as [J T W O K N C].
    assert (Pd : pend u' = pend u /\ (thread_ok i (List.length g) u -> thread_ok i (List.length g) u') /\
      (forall x, owes x u = owes x u' + if Nat.eqb x w then 1 else 0) /\ is_worker u' = is_worker u /\ (forall x, ~ keeps x u)).
    { destruct H; cbn; repeat split; auto; tauto. }
    destruct Pd as (P1 & P2 & P3 & P4 & P5).
    assert (L : w < List.length g).
    { destruct (Nat.lt_ge_cases w (List.length g)); auto. rewrite nth_overflow in H0 by lia. discriminate. }
    constructor; norm; auto.
    + rewrite flat_map_mid in *. now rewrite P1.
    + rewrite threads_mid in *. rewrite length_set_nth. tauto.
    + intros E. apply (f_equal (@List.length nat)) in E. rewrite length_set_nth in E. cbn in E. lia.
    + intros x. rewrite nth_set_nth by auto. pose proof (O x) as Ox. rewrite sumf_app in *. cbn [sumf] in *. rewrite P3 in Ox.
      destruct (Nat.eqb_spec x w); [subst|]; lia.
    + intros x X Nz. rewrite nth_set_nth in Nz by auto.
      assert (Nz' : nth x g 0 <> 0) by (destruct (Nat.eqb_spec x w); [subst; rewrite H0; lia|auto]).
      destruct (K x X Nz') as (v & I & Kv). apply in_app_or in I. destruct I as [I|[<-|I]].
      * exists v. split; auto. apply in_or_app; auto.
      * now apply P5 in Kv.
      * exists v. split; auto. apply in_or_app. right; now right.
    + rewrite sumf_app in *. cbn [sumf] in *. now rewrite P4.
    + assert (Z0 : nth 0 g 0 = 0 -> nth 0 (set_nth w n g) 0 = 0).
      { intros Z. rewrite nth_set_nth by auto. destruct w; [|auto]. rewrite Z in H0. discriminate. }
      destruct m; cbn [control s_main s_coll s_in s_out s_done s_wgs s_succ s_fail s_skip] in *; tauto.
  - (* counting *)
    destruct I as [J T W O K N C]. destruct J as (l & P & F & S1 & S2 & S3). norm.
    assert (C' : forall a' b' s', control (State _ _ m CRecv p g i o d a' b' s')).
    { intros. destruct m; cbn in *; decompose [and] C; try discriminate; repeat split; auto; try discriminate; try tauto.
      intros D. match goal with H : d = true <-> _ |- _ => apply H in D; discriminate end. }
    unfold n_succ, n_fail, n_skip in *. cbn in S1, S2, S3.
    destruct r as [ro rs]; destruct rs, ro; cbn in *; constructor; norm; auto; exists l; repeat split; auto;
      unfold n_succ, n_fail, n_skip; cbn; lia.
  - (* out is drained *)
    destruct I as [J T W O K N C]. constructor; norm; auto.
    destruct m; cbn in *; decompose [and] C; try discriminate; try tauto.
    repeat split; auto; try discriminate. intros D. match goal with H : d = true <-> _ |- _ => apply H in D; discriminate end.
  - (* close(done) *)
    destruct d; [discriminate|]. injection Q as <-.
    destruct I as [J T W O K N C]. constructor; norm; auto.
    destruct m; cbn in *; decompose [and] C; try discriminate; try tauto.
    repeat split; auto; discriminate.
  - (* wg.Wait() in run *)
    destruct I as [J T W O K N C]. constructor; norm; auto. cbn in *. tauto.
  - (* close(out) *)
    destruct o; [discriminate|]. injection Q as <-.
    destruct I as [J T W O K N C]. constructor; norm; auto. cbn in *. destruct C as (L & -> & _ & -> & Z).
    repeat split; auto; destruct c; cbn in L; try discriminate; try contradiction.
  - (* return *)
    destruct I as [J T W O K N C]. constructor; norm; auto. cbn in *. tauto.
Qed.

Definition first : state := State _ _ (MSpawn _ par cases) CNone [] [par] false false false 0 0 0.

Lemma inv_first : inv first.
Proof.
  constructor; cbn; auto.
  - exists []. repeat split; auto. cbn. now rewrite app_nil_r.
  - discriminate.
  - intros w. destruct w as [|[|w]]; cbn; lia.
  - intros w W H. destruct w as [|[|w]]; cbn in H; lia.
Qed.

Lemma inv_steps s s' : steps s s' -> inv s -> inv s'.
Proof. induction 1; auto. intros I. eapply inv_step; [|eassumption]; auto. Qed.

(** Once [run]'s WaitGroup is at zero, every goroutine of the pool has ended. *)
Definition ended (u : thread) : Prop := match u with WEnd | KEnd => True | _ => False end.
Lemma all_ended s : inv s -> nth 0 (s_wgs _ _ s) 0 = 0 -> forall u, In u (s_pool _ _ s) -> ended u.
Proof.
  intros [J T W O K N C] Z u I.
  assert (F : forall v, In v (s_pool _ _ s) -> owes 0 v = 0).
  { intros v Iv. eapply (sumf_zero (owes 0)); eauto. pose proof (O 0). lia. }
  assert (NK : forall w v, In v (s_pool _ _ s) -> ~ keeps w v).
  { intros w v Iv Kv. specialize (F v Iv). destruct v; cbn in *; try contradiction; lia. }
  assert (G : forall w, 0 < w -> nth w (s_wgs _ _ s) 0 = 0).
  { intros w Wp. destruct (Nat.eq_dec (nth w (s_wgs _ _ s) 0) 0); auto.
    destruct (K w Wp n) as (v & Iv & Kv). destruct (NK _ _ Iv Kv). }
  assert (F' : forall w, 0 < w -> owes w u = 0).
  { intros w Wp. eapply (sumf_zero (owes w)); eauto. pose proof (O w). rewrite (G w Wp) in *. lia. }
  pose proof (F u I) as F0. rewrite Forall_forall in T. pose proof (T u I) as Tu.
  destruct u as [ |?|?|? w ?|w| | |w ? ?|w ? ? ?|w| ]; cbn in *; auto; try lia.
  all: exfalso; specialize (F' w ltac:(tauto)); rewrite Nat.eqb_refl in F'; cbn in F'; lia.
Qed.

Lemma out_closed_zero s : inv s -> s_out _ _ s = true -> nth 0 (s_wgs _ _ s) 0 = 0.
Proof. intros I O. pose proof (i_control s I) as C. destruct s as [m]; destruct m; cbn in *; intuition congruence. Qed.

(** No step panics. *)
Lemma no_panic s : inv s -> ~ step s None.
Proof.
  intros I St. remember None as q eqn:Q. destruct St; try discriminate.
  - destruct I as [_ _ _ _ _ _ C]. cbn in C. decompose [and] C. discriminate.
  - destruct i; [|discriminate]. destruct I as [_ _ _ _ _ _ C]. cbn in C. decompose [and] C. discriminate.
  - assert (E : ended u).
    { eapply (all_ended _ I); [apply out_closed_zero; auto|]. cbn. apply in_or_app. right; now left. }
    destruct H; contradiction.
  - destruct I as [_ _ _ O _ _ _]. specialize (O w). cbn [s_wgs s_pool s_main] in O. rewrite sumf_app in O. cbn [sumf] in O.
    assert (0 < owes w u) by (destruct H; cbn; rewrite ?Nat.eqb_refl; lia). lia.
  - destruct d; [|discriminate]. destruct I as [_ _ _ _ _ _ C]. destruct m; cbn in C; decompose [and] C; try discriminate; try contradiction.
    match goal with H : true = true <-> _ |- _ => destruct H as [H _]; specialize (H eq_refl); discriminate end.
  - destruct o; [|discriminate]. destruct I as [_ _ _ _ _ _ C]. cbn in C. decompose [and] C. discriminate.
Qed.

Definition returned (s : state) : Prop := exists a b c, s_main _ _ s = MRet a b c.
Definition can_step (s : state) : Prop := exists s', step s (Some s').

(** A live goroutine of the pool can go on, or something it waits for can. *)
Lemma sender_goes s u r u' : inv s -> sends _ _ u r u' -> In u (s_pool _ _ s) -> live (s_coll _ _ s) -> can_step s.
Proof.
  intros I Sd Iu L. destruct s as [m c p g i o d a b k]. cbn in *.
  assert (O : o = false).
  { destruct o; auto. exfalso. pose proof (all_ended _ I (out_closed_zero _ I eq_refl) u Iu) as E. destruct Sd; contradiction. }
  subst o. destruct c; try contradiction.
  - apply in_split in Iu. destruct Iu as (p1 & p2 & ->). eexists. eapply st_out; eauto.
  - eexists. apply st_count.
Qed.
Lemma kid_goes s u : inv s -> is_worker u = 0 -> ~ ended u -> In u (s_pool _ _ s) -> live (s_coll _ _ s) -> can_step s.
Proof.
  intros I Wk Ne Iu L. destruct u as [ |?|?|? w ?|w| | |w t h|w t h r|w| ]; cbn in Wk, Ne; try discriminate; try tauto.
  - destruct s as [m c p g i o d a b k]. cbn in *. apply in_split in Iu. destruct Iu as (p1 & p2 & ->).
    destruct (exec_total t h) as (x & X). eexists. eapply st_exec; eauto.
  - eapply sender_goes; eauto. constructor.
  - destruct s as [m c p g i o d a b k]. cbn in *. apply in_split in Iu. destruct Iu as (p1 & p2 & ->).
    destruct (nth w g 0) as [|n] eqn:E.
    + exfalso. apply (no_panic _ I). eapply st_done_neg; eauto. constructor.
    + eexists. eapply st_done; eauto. constructor.
Qed.
Lemma spawner_goes s t w l : In (WSpawn _ _ t w l) (s_pool _ _ s) -> can_step s.
Proof.
  intros Iu. destruct s as [m c p g i o d a b k]. cbn in *. apply in_split in Iu. destruct Iu as (p1 & p2 & ->).
  destruct l as [|h l]; eexists; [eapply st_gone|eapply st_go].
Qed.
Lemma worker_goes s u : inv s -> is_worker u = 1 -> ~ ended u -> In u (s_pool _ _ s) -> live (s_coll _ _ s) ->
  can_step s \/ (u = WRecv /\ s_in _ _ s = false).
Proof.
  intros I Wk Ne Iu L. destruct u as [ |t|t|t w l|w| | |w t h|w t h r|w| ]; cbn in Wk, Ne; try discriminate; try tauto.
  - destruct (s_in _ _ s) eqn:E; auto. left. destruct s as [m c p g i o d a b k]. cbn in *. subst i.
    apply in_split in Iu. destruct Iu as (p1 & p2 & ->). eexists. eapply st_recv_closed.
  - left. destruct s as [m c p g i o d a b k]. cbn in *. apply in_split in Iu. destruct Iu as (p1 & p2 & ->).
    destruct (encodes t) eqn:E; eexists; [eapply st_encode|eapply st_encode_err]; auto.
  - left. eapply sender_goes; eauto. constructor.
  - left. eapply spawner_goes; eauto.
  - left. destruct (Nat.eq_dec (nth w (s_wgs _ _ s) 0) 0) as [E|E].
    + destruct s as [m c p g i o d a b k]. cbn in *. apply in_split in Iu. destruct Iu as (p1 & p2 & ->).
      eexists. eapply st_wait; auto.
    + pose proof (i_threads s I) as T. rewrite Forall_forall in T. specialize (T _ Iu). cbn in T.
      pose proof (i_owes s I w) as O.
      assert (M0 : owes_main w (s_main _ _ s) = 0).
      { destruct (s_main _ _ s); cbn; auto. destruct (Nat.eqb_spec w 0); lia. }
      destruct (sumf_pos (owes w) (s_pool _ _ s)) as (v & Iv & P); [lia|].
      destruct v as [ |t|t|t w' l|w'| | |w' t h|w' t h r|w'| ]; cbn in P; try (destruct (Nat.eqb_spec w 0); lia).
      * eapply spawner_goes; eauto.
      * eapply kid_goes; eauto; cbn; auto.
      * eapply kid_goes; eauto; cbn; auto.
      * eapply kid_goes; eauto; cbn; auto.
  - left. destruct s as [m c p g i o d a b k]. cbn in *. apply in_split in Iu. destruct Iu as (p1 & p2 & ->).
    destruct (nth 0 g 0) as [|n] eqn:E.
    + exfalso. apply (no_panic _ I). eapply st_done_neg; eauto. constructor.
    + eexists. eapply st_done; eauto. constructor.
Qed.

(** No deadlock. *)
Lemma progress s : inv s -> returned s \/ can_step s.
Proof.
  intros I. pose proof (i_control s I) as C. pose proof (i_workers s I) as N. pose proof (i_threads s I) as T.
  rewrite Forall_forall in T.
  destruct (s_main _ _ s) as [k ts|ts| | | |x y z] eqn:M; unfold control in C; rewrite M in C; cbn [spawning] in N.
  - right. destruct s as [m c p g i o d a b k0]. cbn in *. subst m. destruct k; eexists; [apply st_collect|apply st_spawn].
  - right. destruct ts as [|t ts].
    + destruct s as [m c p g i o d a b k0]. cbn in *. subst m. destruct C as (_ & -> & _). eexists. apply (st_close_in _ _ _ _ _ _ _ _ _ false).
    + destruct (sumf_pos is_worker (s_pool _ _ s)) as (u & Iu & P); [lia|].
      assert (W1 : is_worker u = 1) by (destruct u; cbn in *; lia).
      assert (Ne : ~ ended u).
      { specialize (T _ Iu). destruct C as (_ & Ci & _). rewrite Ci in T. destruct u; cbn in *; auto; discriminate. }
      destruct (worker_goes s u I W1 Ne Iu ltac:(tauto)) as [G|[-> Ei]]; auto.
      destruct s as [m c p g i o d a b k0]. cbn in *. subst. apply in_split in Iu. destruct Iu as (p1 & p2 & ->).
      eexists. apply st_send.
  - right. destruct (Nat.eq_dec (nth 0 (s_wgs _ _ s) 0) 0) as [E|E].
    + destruct s as [m c p g i o d a b k0]. cbn in *. subst m. eexists. apply st_waited. auto.
    + pose proof (i_owes s I 0) as O. rewrite M in O. cbn in O.
      destruct (sumf_pos (owes 0) (s_pool _ _ s)) as (u & Iu & P); [lia|].
      assert (Ne : ~ ended u) by (destruct u; cbn in *; auto; lia).
      destruct (Nat.eq_dec (is_worker u) 0) as [W0|W0].
      * eapply kid_goes; eauto; tauto.
      * assert (W1 : is_worker u = 1) by (destruct u; cbn in *; lia).
        destruct (worker_goes s u I W1 Ne Iu ltac:(tauto)) as [G|[-> Ei]]; auto.
        destruct C as (_ & Ci & _). congruence.
  - right. destruct s as [m c p g i o d a b k0]. cbn in *. subst m. destruct C as (_ & _ & -> & _).
    eexists. apply (st_close_out _ _ _ _ _ _ _ _ _ _ false).
  - right. destruct s as [m c p g i o d a b k0]. cbn in *. subst m. destruct C as (Cn & -> & -> & D & _). destruct c.
    + contradiction.
    + eexists. apply st_drained.
    + eexists. apply st_count.
    + destruct d; [destruct D as [D _]; specialize (D eq_refl); discriminate|].
      eexists. apply (st_close_done _ _ _ _ _ _ _ _ _ _ _ false).
    + destruct D as [_ D]. rewrite (D eq_refl). eexists. apply st_return.
  - left. unfold returned. rewrite M. eauto.
Qed.

(** Every step uses up some of a finite budget. *)
Definition cost_thread (u : thread) : nat :=
  match u with
  | WRecv => 2 | WStart _ _ _ => 6 + 6 * List.length hs | WErr _ _ _ => 5 | WSpawn _ _ _ _ l => 4 + 6 * List.length l
  | WWait _ => 3 | WExit => 1 | WEnd => 0 | KExec _ _ _ _ _ => 5 | KSend _ _ _ _ _ _ => 4 | KDone _ => 1 | KEnd => 0
  end.
Definition cost_case : nat := 10 + 6 * List.length hs.
Definition cost_main (m : main_pc case) : nat :=
  match m with
  | MSpawn _ k ts => 20 + 3 * k + cost_case * List.length ts
  | MSend _ ts => 10 + cost_case * List.length ts
  | MWait => 4 | MCloseOut => 3 | MWaitDone => 2 | MRet _ _ _ => 0
  end.
Definition cost_coll (c : coll_pc) : nat := match c with CNone => 0 | CRecv => 2 | CHave _ => 3 | CClose => 1 | CEnd => 0 end.
Definition cost (s : state) : nat := cost_main (s_main _ _ s) + cost_coll (s_coll _ _ s) + sumf cost_thread (s_pool _ _ s).

Lemma step_costs s s' : step s (Some s') -> cost s' < cost s.
Proof.
  intros St. remember (Some s') as q eqn:Q. destruct St; try discriminate; try (injection Q as <-); unfold cost; norm;
    rewrite ?sumf_app; cbn [sumf cost_main cost_coll cost_thread List.length]; rewrite ?sumf_app; cbn [sumf cost_thread];
    rewrite ?Nat.mul_succ_r; assert (K : cost_case = 10 + 6 * List.length hs) by reflexivity; set (kk := cost_case) in *; clearbody kk; try lia.
  - destruct i; [discriminate|]. injection Q as <-. cbn. lia.
  - destruct H; cbn; lia.
  - destruct H; cbn; lia.
  - destruct (r_skipped r), (r_ok r); norm; cbn; lia.
  - destruct d; [discriminate|]. injection Q as <-. norm. cbn. lia.
  - destruct o; [discriminate|]. injection Q as <-. norm. cbn. lia.
Qed.

(** What [run] returns. *)
Lemma returned_counts s a b c : inv s -> s_main _ _ s = MRet a b c ->
  exists l, report _ _ encodes failures exec hs cases l /\
    successes _ _ l = a /\ failed _ _ l = b /\ skips _ _ l = c.
Proof.
  intros I M. destruct (i_jobs s I) as (l & P & F & S1 & S2 & S3). exists l.
  pose proof (i_control s I) as C. unfold control in C. rewrite M in C. destruct C as (Cc & _ & _ & _ & Z & -> & -> & ->).
  rewrite Cc, M in *. cbn in *. rewrite !Nat.add_0_r in *. repeat split; auto.
  rewrite <- P. assert (E : flat_map pend (s_pool _ _ s) = []).
  { pose proof (all_ended s I Z) as A. clear -A. induction (s_pool _ _ s) as [|u p IH]; auto. cbn. rewrite IH by (intros; apply A; now right).
    specialize (A u (or_introl eq_refl)). destruct u; cbn in *; auto; contradiction. }
  rewrite E. now rewrite app_nil_r.
Qed.

Lemma counts_sum l : successes _ _ l + failed _ _ l + skips _ _ l = List.length (map fst (l : list (job * result))).
Proof.
  unfold successes, failed, skips. induction l as [|[j [o k]] l IH]; cbn; auto. destruct k, o; cbn; lia.
Qed.
End Run.

Lemma steps_cons case harness encodes failures exec hs s s' s'' :
  step case harness encodes failures exec hs s (Some s') -> steps case harness encodes failures exec hs s' s'' ->
  steps case harness encodes failures exec hs s s''.
Proof.
  intros H R. induction R as [|s1 s2 s3 R IH].
  - eapply steps_next; [apply steps_refl|auto].
  - eapply steps_next; [apply IH; auto|auto].
Qed.

(** A run with one worker, two harnesses and a case that cannot be encoded. *)
Lemma one_failure : exists (encodes : nat -> bool) failures exec s s' a b c,
  start nat nat [0; 1] 1 [0] = Some s /\
  steps nat nat encodes failures exec [0; 1] s s' /\ s_main _ _ s' = MRet a b c /\
  a + b + c <> List.length [0] * List.length [0; 1].
Proof.
  exists (fun _ => false), (fun _ => 0%Z), (fun _ _ _ => True).
  eexists. exists (State _ _ (MRet 0 1 0) CEnd [WEnd] [0] true true true 0 1 0), 0, 1, 0.
  split; [reflexivity|]. split; [|split; [reflexivity|cbn; lia]].
  eapply steps_cons; [apply st_spawn|].
  eapply steps_cons; [apply st_collect|].
  eapply steps_cons; [apply (st_send _ _ _ _ _ _ 0 [] _ [])|].
  eapply steps_cons; [apply (st_encode_err _ _ _ _ _ _ _ _ 0 []); reflexivity|].
  eapply steps_cons; [eapply (st_out _ _ _ _ _ _ _ _ _ _ []); constructor|].
  eapply steps_cons; [apply st_count|].
  eapply steps_cons; [apply (st_close_in _ _ _ _ _ _ _ _ _ false)|].
  eapply steps_cons; [apply (st_recv_closed _ _ _ _ _ _ _ _ [])|].
  eapply steps_cons; [eapply (st_done _ _ _ _ _ _ _ _ 0 _ _ _ []); [constructor|reflexivity]|].
  eapply steps_cons; [apply st_waited; reflexivity|].
  eapply steps_cons; [apply (st_close_out _ _ _ _ _ _ _ _ _ _ false)|].
  eapply steps_cons; [apply st_drained|].
  eapply steps_cons; [apply (st_close_done _ _ _ _ _ _ _ _ _ _ _ false)|].
  eapply steps_cons; [apply st_return|].
  apply steps_refl.
Qed.

(** From the initial state. *)
Section Reach.
Variables case harness : Type.
Variable encodes : case -> bool.
Variable failures : case -> Z.
Variable exec : case -> harness -> execution -> Prop.
Variable hs : list harness.
Hypothesis exec_total : forall t h, exists x, exec t h x.
Let step := step case harness encodes failures exec hs.
Let steps := steps case harness encodes failures exec hs.

Lemma reach parallelism ts s s' : start case harness hs parallelism ts = Some s -> steps s s' ->
  inv case harness encodes failures exec hs (Z.to_nat parallelism) ts s' /\ 0 < Z.to_nat parallelism.
Proof.
  unfold start. destruct (Z.leb_spec parallelism 0) as [|P]; [discriminate|].
  destruct hs eqn:E; [discriminate|]. intros [= <-] H. split; [|Lia.lia].
  assert (P0 : 0 < Z.to_nat parallelism) by Lia.lia. eapply (inv_steps _ _ _ _ _ _ _ ts P0); try exact H; try apply inv_first; auto.
Qed.

(** A worker count and a harness suffice to start. *)
Lemma r_starts : forall parallelism ts,
  start case harness hs parallelism ts = None <-> (parallelism <= 0)%Z \/ hs = [].
Proof.
  intros parallelism ts. unfold start. destruct (Z.leb_spec parallelism 0), hs; split; auto; try discriminate; intros [?|?]; try discriminate; Lia.lia.
Qed.

(** No send on a closed channel, no double close, no negative WaitGroup. *)
Lemma r_no_panic : forall parallelism ts s s',
  start case harness hs parallelism ts = Some s -> steps s s' -> ~ step s' None.
Proof. intros parallelism ts s s' S R. destruct (reach _ _ _ _ S R) as [I P].
  eapply no_panic; eauto. Qed.

(** No deadlock: until [run] has returned, some goroutine can go on. *)
Lemma r_no_deadlock : forall parallelism ts s s',
  start case harness hs parallelism ts = Some s -> steps s s' ->
  (exists a b c, s_main _ _ s' = MRet a b c) \/ exists s'', step s' (Some s'').
Proof.
  intros parallelism ts s s' S R. destruct (reach _ _ _ _ S R) as [I P].
  exact (progress case harness encodes failures exec hs _ ts P exec_total s' I).
Qed.

(** Every schedule comes to an end. *)
Lemma r_terminates : forall parallelism ts s,
  start case harness hs parallelism ts = Some s ->
  exists bound, forall sched : nat -> Harness.state case harness, sched 0 = s ->
    (forall i, i <= bound -> step (sched i) (Some (sched (S i)))) -> False.
Proof.
  intros parallelism ts s S. destruct (reach _ _ _ _ S (steps_refl _ _ _ _ _ _ _)) as [_ P].
  exists (cost case harness hs s). intros sched E H.
  assert (B : forall i, i <= Datatypes.S (cost case harness hs s) -> cost case harness hs (sched i) + i <= cost case harness hs s).
  { induction i as [|i IH]; intros Hi; [rewrite E; Lia.lia|].
    pose proof (step_costs case harness encodes failures exec hs _ P _ _ (H i ltac:(Lia.lia))). specialize (IH ltac:(Lia.lia)). Lia.lia. }
  specialize (B _ (le_n _)). Lia.lia.
Qed.

(** When [run] returns, its counts are those of a report with one possible result for each case and harness (one
    failure for a case that cannot be encoded), and every other goroutine has ended. *)
Lemma r_counts : forall parallelism ts s s' a b c,
  start case harness hs parallelism ts = Some s -> steps s s' -> s_main _ _ s' = MRet a b c ->
  (exists l, report case harness encodes failures exec hs ts l /\ successes _ _ l = a /\ failed _ _ l = b /\ skips _ _ l = c) /\
  (forall u, In u (s_pool _ _ s') -> u = WEnd \/ u = KEnd).
Proof.
  intros parallelism ts s s' a b c S R M. destruct (reach _ _ _ _ S R) as [I P0]. split.
  - eapply returned_counts; eauto.
  - intros u Iu. assert (E : ended case harness u).
    { eapply all_ended; eauto. pose proof (i_control _ _ _ _ _ _ _ _ _ I) as C.
      unfold control in C. rewrite M in C. tauto. }
    destruct u; cbn in E; tauto.
Qed.

(** The total: cases times harnesses if every message can be encoded. *)
Lemma r_total : forall parallelism ts s s' a b c,
  start case harness hs parallelism ts = Some s -> steps s s' -> s_main _ _ s' = MRet a b c ->
  (forall t, In t ts -> encodes t = true) ->
  a + b + c = List.length ts * List.length hs.
Proof.
  intros parallelism ts s s' a b c S R M En.
  destruct (r_counts _ _ _ _ _ _ _ S R M) as ((l & (P & _) & <- & <- & <-) & _).
  destruct (reach _ _ _ _ S R) as [_ P0].
  rewrite (counts_sum _ _ _ P0), (Permutation_length P). clear -En.
  induction ts as [|t ts IH]; cbn; auto. rewrite app_length, IH by (intros; apply En; now right).
  unfold jobs. rewrite (En t (or_introl eq_refl)), map_length. reflexivity.
Qed.

Lemma r_returns : forall parallelism ts s s',
  start case harness hs parallelism ts = Some s -> steps s s' ->
  exists s'' a b c, steps s' s'' /\ s_main _ _ s'' = MRet a b c.
Proof.
  intros parallelism ts s s' S R. destruct (reach _ _ _ _ S R) as [I P]. clear R.
  remember (cost case harness hs s') as n eqn:E. revert s' E I.
  induction n as [n IH] using lt_wf_ind. intros s' E I.
  destruct (progress case harness encodes failures exec hs _ ts P exec_total s' I) as [(a & b & c & M)|(s1 & St)].
  - exists s', a, b, c. split; [apply steps_refl|auto].
  - pose proof (step_costs case harness encodes failures exec hs _ P _ _ St) as L.
    destruct (IH (cost case harness hs s1) ltac:(Lia.lia) s1 eq_refl) as (s2 & a & b & c & R & M).
    + eapply inv_step; eauto.
    + exists s2, a, b, c. split; auto. eapply steps_cons; eauto.
Qed.
End Reach.
