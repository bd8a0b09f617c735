(** Consequences of [validate_ok], [validate_sim], [validate_same] and [valid_same] used by
    PropMain.v. *)
From Verif Require Import Base Num Rules Types Iface Checker GoIR GoGen GoSem Spec SpecErr Sim Order Wt Setting
  ExecFacts ExecMsg Main ValidSame.

Section S.
Variables (re_ok : bytes -> bool) (sc0 sc : schema) (orc : oracles).
Hypothesis st : setting re_ok sc0 sc orc.
Variables (n : string) (d : msgdesc).

Lemma run_ok all m : message sc0 n d m -> result_ok sc0 orc all n m (validate sc orc all n m).
Proof. intros [A B C]. destruct st. eapply validate_ok; eauto. Qed.

Lemma run_verdict all m : message sc0 n d m ->
  (validate sc orc all n m = VNil <-> valid orc sc0 n m) /\
  ((exists e, validate sc orc all n m = VErr e) <-> ~ valid orc sc0 n m).
Proof.
  intros M. destruct (run_ok all m M) as (A & B & _). split; [exact B|]. split.
  - intros (e & E) V. apply B in V. congruence.
  - intros V. destruct (validate sc orc all n m) as [|e|]; [|eauto|congruence]. exfalso. apply V, B. reflexivity.
Qed.

Lemma same_message m m' : message sc0 n d m -> same_msg m m' -> message sc0 n d m'.
Proof. intros [A B C] S. split; auto. eapply same_wt_msg; eauto. Qed.

Lemma run_two_orders a b m m' : message sc0 n d m -> same_msg m m' ->
  (validate sc orc a n m = VNil <-> validate sc orc b n m' = VNil).
Proof.
  intros M S. assert (M' := same_message _ _ M S).
  rewrite (proj1 (run_verdict a m M)), (proj1 (run_verdict b m' M')).
  destruct st, M. eapply valid_same; eauto.
Qed.

Lemma run_first m e : message sc0 n d m -> validate sc orc false n m = VErr e ->
  exists g t, validate sc orc true n m = VErr g /\ leaves g = innermost e :: t.
Proof.
  intros M E. assert (S := validate_sim sc orc n m). destruct (run_ok true m M) as (A & _ & _).
  rewrite E in S. unfold vres_sim in S. destruct S as [S1 S2]. destruct (validate sc orc true n m) as [|g|] eqn:G; try contradiction.
  destruct (first_of_leaves _ _ S2 S1) as (t & Ht). eauto.
Qed.

Lemma run_all_list m : message sc0 n d m -> md_disabled d = false ->
  (validate sc orc true n m = VNil /\ explains_list orc sc0 n (full_reqs orc sc0 d m) []) \/
  (exists es, es <> [] /\ validate sc orc true n m = VErr (GMulti n es) /\ explains_list orc sc0 n (full_reqs orc sc0 d m) es).
Proof.
  intros M D. destruct (run_ok true m M) as (A & B & C). destruct M as [Hd Hm Hw].
  destruct (validate sc orc true n m) as [|e|] eqn:E; [left|right|congruence].
  - split; auto. assert (V : valid orc sc0 n m) by now apply B.
    assert (H : Forall (fun i => rq_holds (snd (snd i))) (full_reqs orc sc0 d m)).
    { apply (valid_step orc sc0 n m d Hd) in V. destruct V as [V|V]; [congruence|exact V]. }
    induction H as [|[f [ix r]] l Hh _ IH]; constructor; auto.
  - specialize (C e eq_refl). inversion C as [|? ? d' es E1 E2 E3 E4]; subst.
    assert (d' = d) by congruence. subst. eauto.
Qed.

Lemma run_first_error m e : message sc0 n d m -> validate sc orc false n m = VErr e ->
  exists l1 f ix r l2 c,
    full_reqs orc sc0 d m = l1 ++ (f, (ix, r)) :: l2 /\
    Forall (fun i => rq_holds (snd (snd i))) l1 /\ ~ rq_holds r /\
    e = GErr n f ix (rq_reason r) c false /\ explains_cause orc sc0 false (rq_cause r) c.
Proof.
  intros M E. destruct (run_ok false m M) as (_ & _ & C). destruct M as [Hd Hm Hw].
  specialize (C e E). inversion C as [? ? d' l1 f ix r l2 c E1 E2 E3 E4 E5 E6|]; subst.
  assert (d' = d) by congruence. subst. exists l1, f, ix, r, l2, c. repeat split; auto.
  apply Forall_forall. intros [f' [ix' r']]. apply E4.
Qed.

Lemma run_all_same m m' : (forall k x, find_msg sc0 k = Some x -> md_methods x <> MLegacy) ->
  message sc0 n d m -> same_msg m m' ->
  (validate sc orc true n m = VNil /\ validate sc orc true n m' = VNil) \/
  (exists e e', validate sc orc true n m = VErr e /\ validate sc orc true n m' = VErr e' /\ same_err e e').
Proof.
  intros NL M S. destruct (run_ok true m M) as (A & _ & _).
  assert (NL' : forall k x, find_msg sc k = Some x -> md_methods x <> MLegacy).
  { intros k x H E. assert (K := sch_methods re_ok sc0 sc (set_checked _ _ _ _ st) (set_sup _ _ _ _ st) k). rewrite H in K. cbn in K.
    destruct (find_msg sc0 k) as [x0|] eqn:E0; [|discriminate]. apply (NL k x0 E0). cbn in K. congruence. }
  assert (V := validate_same sc orc n m m' NL' S). unfold vres_same in V.
  destruct (validate sc orc true n m), (validate sc orc true n m'); try contradiction; [left; auto|right; eauto].
Qed.
End S.
