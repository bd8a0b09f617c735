(** Proofs about the Java interceptors and indexes. *)
From Coq Require Import Lia.
From Verif Require Import Base Outcome JavaGrpc JavaGrpcSpec.

Section Indexes.
Context {C M : Type}.
Variable eqc : C -> C -> bool.
Hypothesis eqc_ok : forall a b, eqc a b = true <-> a = b.
Variable class : M -> C.
Variable loads : C -> option (@impl M).

Notation validator := (@validator C M). Notation index := (@index C M).
Notation plain := (@plain C M).

Fixpoint resolve (d : nat) (p : plain) (c : C) : validator :=
  match p with
  | PAlways o => VAlways o
  | PReflective fb => match loads c with Some i => VReflective d i | None => resolve (S d) fb c end
  | PExplicit _ _ => VExplicit d c
  end.

Fixpoint ok (d : nat) (x : index) : Prop :=
  match x with
  | Always _ => True
  | Reflective cache fb => (forall c v, get eqc c cache = Some v -> v = resolve d (plain_of x) c) /\ ok (S d) fb
  | Explicit impls cache fb => (forall c v, get eqc c cache = Some v -> v = VExplicit d c) /\ ok (S d) fb
  end.

Lemma fresh_ok x : forall d, fresh x -> ok d x.
Proof. induction x as [o|cache fb IH|impls cache fb IH]; cbn; auto; intros d [-> F]; split; auto; discriminate. Qed.

Lemma validator_for_ok x : forall d c x' v, ok d x -> validator_for eqc loads d x c = (x', v) ->
  v = resolve d (plain_of x) c /\ plain_of x' = plain_of x /\ ok d x'.
Proof.
  induction x as [o|cache fb IH|impls cache fb IH]; intros d c x' v O E; cbn [validator_for] in E.
  - injection E as <- <-. auto.
  - destruct O as [O1 O2]. destruct (get eqc c cache) as [w|] eqn:G.
    + injection E as <- <-. split; [now apply O1|]. split; [auto|split; auto].
    + cbn [plain_of resolve] in *. destruct (loads c) as [i|] eqn:L.
      * injection E as <- <-. split; auto. split; auto. split; auto. intros c' w'. cbn [get]. cbn [plain_of resolve]. destruct (eqc c' c) eqn:Q; [|apply O1].
        intros [= <-]. apply eqc_ok in Q. subst c'. now rewrite L.
      * destruct (validator_for eqc loads (S d) fb c) as [fb' v'] eqn:F. injection E as <- <-.
        destruct (IH _ _ _ _ O2 F) as (-> & P & O'). cbn [plain_of]. rewrite P. split; [auto|]. split; [auto|].
        cbn [ok plain_of resolve]. rewrite P. split; auto.
        intros c' w'. cbn [get]. destruct (eqc c' c) eqn:Q; [|apply O1]. intros [= <-]. apply eqc_ok in Q. subst c'. now rewrite L.
  - destruct O as [O1 O2]. destruct (get eqc c cache) as [w|] eqn:G.
    + injection E as <- <-. split; [now apply O1|]. split; [auto|split; auto].
    + injection E as <- <-. split; auto. split; auto. split; auto. intros c' w'. cbn [get]. destruct (eqc c' c) eqn:Q; auto.
      intros [= <-]. apply eqc_ok in Q. now subst c'.
Qed.

Lemma at_plain d : forall x : index, plain_at d (plain_of x) = option_map plain_of (at_depth d x).
Proof. induction d as [|d IH]; intros []; cbn; auto. Qed.
Lemma at_ok d : forall e x y, ok e x -> at_depth d x = Some y -> ok (e + d) y.
Proof.
  induction d as [|d IH]; intros e x y O E.
  - destruct x; injection E as <-; rewrite Nat.add_0_r; auto.
  - destruct x as [o|cache fb|impls cache fb]; [discriminate| |]; destruct O as [_ O]; replace (e + S d) with (S e + d) by lia; eapply IH; eauto.
Qed.
Lemma put_plain d : forall (x y y' : index), at_depth d x = Some y -> plain_of y' = plain_of y -> plain_of (put_depth d x y') = plain_of x.
Proof.
  induction d as [|d IH]; intros x y y' A E.
  - destruct x; injection A as <-; exact E.
  - destruct x as [o|cache fb|impls cache fb]; [discriminate| |]; cbn in *; now rewrite (IH _ _ _ A E).
Qed.
Lemma put_ok d : forall e x y y', ok e x -> at_depth d x = Some y -> plain_of y' = plain_of y -> ok (e + d) y' -> ok e (put_depth d x y').
Proof.
  induction d as [|d IH]; intros e x y y' O A P O'.
  - rewrite Nat.add_0_r in O'. destruct x; injection A as <-; exact O'.
  - destruct x as [o|cache fb|impls cache fb]; [discriminate| |]; destruct O as [O1 O2]; cbn in A;
      (replace (e + S d) with (S e + d) in O' by lia); (split; [|exact (IH _ _ _ _ O2 A P O')]).
    + cbn [plain_of] in *. rewrite (put_plain _ _ _ _ A P). exact O1.
    + exact O1.
Qed.

Lemma validator_at_ok d x c x' v : ok 0 x -> validator_at eqc loads d x c = (x', v) ->
  plain_of x' = plain_of x /\ ok 0 x' /\
  v = match plain_at d (plain_of x) with Some p => resolve d p c | None => VAlways Crashes end.
Proof.
  intros O E. unfold validator_at in E. rewrite at_plain. destruct (at_depth d x) as [y|] eqn:A; cbn.
  - destruct (validator_for eqc loads d y c) as [y' v'] eqn:F. injection E as <- <-.
    destruct (validator_for_ok y d c y' v' (at_ok _ _ _ _ O A) F) as (-> & P & O').
    split; [exact (put_plain _ _ _ _ A P)|]. split; [|reflexivity]. exact (put_ok d 0 x y y' O A P O').
  - injection E as <- <-. auto.
Qed.

(** The outcome of a validator without caches. *)
Definition vchecks (fuel : nat) (p : plain) (v : validator) (m : M) : outcome :=
  match fuel with
  | O => Crashes
  | S k =>
      let run d i := all_pass (fun m' => match plain_at d p with Some q => checks eqc class loads k q (class m') m' | None => Crashes end) (i m) in
      match v with
      | VAlways o => o
      | VReflective d i => run d i
      | VExplicit d c =>
          match plain_at d p with
          | Some (PExplicit impls _) => match get eqc c impls with Some i => run d i | None => Passes end
          | _ => Crashes
          end
      end
  end.

Lemma plain_at_0 (p : plain) : plain_at 0 p = Some p.
Proof. now destruct p. Qed.
Lemma plain_at_S d : forall p : plain, plain_at (S d) p = match plain_at d p with Some (PReflective fb) | Some (PExplicit _ fb) => Some fb | _ => None end.
Proof.
  induction d as [|d IH]; intros p; [destruct p; reflexivity|].
  change (plain_at (S (S d)) p) with (match p with PReflective fb | PExplicit _ fb => plain_at (S d) fb | PAlways _ => None end).
  destruct p as [o|fb|impls fb]; [reflexivity|exact (IH fb)|exact (IH fb)].
Qed.

Lemma vchecks_resolve k p0 c m : forall p d, plain_at d p0 = Some p -> vchecks (S k) p0 (resolve d p c) m = checks eqc class loads (S k) p c m.
Proof.
  induction p as [o|fb IH|impls fb IH]; intros d A.
  - reflexivity.
  - cbn [resolve]. destruct (loads c) as [i|] eqn:L.
    + cbn [vchecks checks]. rewrite L, A. reflexivity.
    + rewrite IH by (rewrite plain_at_S, A; reflexivity). cbn [checks]. rewrite L. reflexivity.
  - cbn [resolve vchecks checks]. rewrite A. reflexivity.
Qed.

Lemma steps_ok (P : index -> Prop) (f : index -> M -> index * outcome) (g : M -> outcome) (p : plain) :
  (forall x m x' o, P x -> plain_of x = p -> f x m = (x', o) -> P x' /\ plain_of x' = p /\ o = g m) ->
  forall l x x' o, P x -> plain_of x = p -> steps f x l = (x', o) -> P x' /\ plain_of x' = p /\ o = all_pass g l.
Proof.
  intros H. induction l as [|s t IH]; intros x x' o Px E S; cbn [steps all_pass] in *.
  - injection S as <- <-. auto.
  - destruct s as [a|m].
    + destruct a; cbn [andthen]; try (injection S as <- <-; auto). now apply (IH x).
    + destruct (f x m) as [y a] eqn:F. destruct (H _ _ _ _ Px E F) as (Py & Ey & ->).
      destruct (g m); cbn [andthen]; try (injection S as <- <-; auto). now apply (IH y).
Qed.

Lemma assert_valid_ok fuel : forall x v m x' o, ok 0 x -> assert_valid eqc class loads fuel x v m = (x', o) ->
  ok 0 x' /\ plain_of x' = plain_of x /\ o = vchecks fuel (plain_of x) v m.
Proof.
  induction fuel as [|k IH]; intros x v m x' o O E; cbn [assert_valid] in E.
  - injection E as <- <-. auto.
  - assert (R : forall d i x' o, steps (fun x m' => let (x', v') := validator_at eqc loads d x (class m') in assert_valid eqc class loads k x' v' m') x (i m) = (x', o) ->
       ok 0 x' /\ plain_of x' = plain_of x /\
       o = all_pass (fun m' => match plain_at d (plain_of x) with Some q => checks eqc class loads k q (class m') m' | None => Crashes end) (i m)).
    { clear E x' o. intros d i x' o S. eapply (steps_ok (ok 0)); [|exact O|reflexivity|exact S].
      intros y m' y' o' Oy Ey F. cbv beta in F. destruct (validator_at eqc loads d y (class m')) as [z w] eqn:V.
      destruct (validator_at_ok _ _ _ _ _ Oy V) as (Pz & Oz & W). destruct (IH _ _ _ _ _ Oz F) as (Oy' & Py' & ->).
      split; auto. rewrite Pz in *. rewrite Ey in *. split; auto. subst w.
      destruct (plain_at d (plain_of x)) as [q|] eqn:A; [|destruct k; reflexivity].
      destruct k; [reflexivity|]. now apply vchecks_resolve. }
    destruct v as [a|d i|d c]; cbn [vchecks].
    + injection E as <- <-. auto.
    + apply R. exact E.
    + assert (Q := at_plain d x). destruct (at_depth d x) as [y|]; cbn [option_map] in Q; rewrite Q; [|injection E as <- <-; auto].
      destruct y as [a|cache fb|impls cache fb]; cbn [plain_of]; try (injection E as <- <-; auto).
      destruct (get eqc c impls) as [i|]; [specialize (R d i x' o E); rewrite Q in R; exact R|]. injection E as <- <-.
      destruct (validator_at eqc loads (S d) x c) as [z w] eqn:V. destruct (validator_at_ok _ _ _ _ _ O V) as (P & O' & _). auto.
Qed.

Lemma resolve_add d : forall p k c0 i e c, resolve e (plain_add d p c0 i) c = resolve e p c /\
  match plain_at k (plain_add d p c0 i), plain_at k p with
  | Some q', Some q => forall e c, resolve e q' c = resolve e q c
  | None, None => True
  | _, _ => False
  end.
Proof.
  assert (R : forall d p c0 i e c, resolve e (plain_add d p c0 i) c = resolve e p c).
  { clear d. intros d p. revert d. induction p as [o|fb IH|impls fb IH]; intros [|d] c0 i e c; cbn [plain_add resolve]; auto.
    destruct (loads c); auto. }
  intros p k. revert d p. induction k as [|k IH]; intros d p c0 i e c; (split; [apply R|]).
  - rewrite !plain_at_0. intros. apply R.
  - destruct p as [o|fb|impls fb]; destruct d as [|d]; cbn; auto;
      first [exact (proj2 (IH d fb c0 i e c))|destruct (plain_at k fb); auto].
Qed.

Lemma add_ok d x c i : ok 0 x -> ok 0 (add d x c i) /\ plain_of (add d x c i) = plain_add d (plain_of x) c i.
Proof.
  unfold add.
  assert (G : forall d e x, ok e x -> 
     ok e (match at_depth d x with Some (Explicit impls cache fb) => put_depth d x (Explicit ((c, i) :: impls) cache fb) | _ => x end) /\
     plain_of (match at_depth d x with Some (Explicit impls cache fb) => put_depth d x (Explicit ((c, i) :: impls) cache fb) | _ => x end)
       = plain_add d (plain_of x) c i).
  { clear d x. induction d as [|d IH]; intros e x O.
    - destruct x; cbn; auto.
    - destruct x as [o|cache fb|impls cache fb]; [split; auto| |]; destruct O as [O1 O2]; destruct (IH _ _ O2) as [I1 I2]; cbn [at_depth put_depth plain_of plain_add].
      + assert (K : ok e (Reflective cache fb)) by (split; auto).
        destruct (at_depth d fb) as [[]|]; cbn [plain_of] in *; rewrite <- ?I2; auto.
        split; [|reflexivity]. split; [|exact I1]. intros c' v' G. cbn [plain_of] in *. rewrite I2. cbn [resolve].
        rewrite (proj1 (resolve_add d (plain_of fb) 0 c i (S e) c')). exact (O1 c' v' G).
      + assert (K : ok e (Explicit impls cache fb)) by (split; auto).
        destruct (at_depth d fb) as [[]|]; cbn [plain_of] in *; rewrite <- ?I2; auto.
        split; [|reflexivity]. split; [exact O1|exact I1]. }
  intros O. exact (G d 0 x O).
Qed.

Lemma play_ok fuel h : forall x got gotp, 0 < fuel -> ok 0 x ->
  Forall2 (fun v q => v = match plain_at (fst q) (plain_of x) with Some p => resolve (fst q) p (snd q) | None => VAlways Crashes end) got gotp ->
  play eqc class loads fuel x got h = verdicts eqc class loads fuel (plain_of x) gotp h.
Proof.
  induction h as [|a t IH]; intros x got gotp F O G; [reflexivity|]. destruct a as [d c|n m|d c i]; cbn [play verdicts].
  - destruct (validator_at eqc loads d x c) as [x' v] eqn:V. destruct (validator_at_ok _ _ _ _ _ O V) as (P & O' & W).
    rewrite <- P. apply IH; auto. rewrite P. apply Forall2_app; auto.
  - assert (N : match nth_error got n, nth_error gotp n with
       | Some v, Some q => v = match plain_at (fst q) (plain_of x) with Some p => resolve (fst q) p (snd q) | None => VAlways Crashes end
       | None, None => True | _, _ => False end).
    { clear - G. revert n. induction G; intros [|n]; cbn; auto. apply IHG. }
    destruct (nth_error got n) as [v|], (nth_error gotp n) as [[d c]|]; try contradiction; [|apply IH; auto].
    cbn [fst snd] in N. destruct (assert_valid eqc class loads fuel x v m) as [x' o] eqn:A.
    destruct (assert_valid_ok _ _ _ _ _ _ O A) as (O' & P & ->). f_equal.
    + subst v. destruct (plain_at d (plain_of x)) as [p|] eqn:Q; destruct fuel; try lia; [|reflexivity]. now apply vchecks_resolve.
    + rewrite <- P. apply IH; auto. now rewrite P.
  - destruct (add_ok d x c i O) as [O' P]. rewrite <- P. apply IH; auto.
    rewrite P. clear - G. induction G as [|v [e c'] l l' H]; constructor; auto. cbn [fst snd] in *. rewrite H.
    assert (R := proj2 (resolve_add d (plain_of x) e c i 0 c')).
    destruct (plain_at e (plain_add d (plain_of x) c i)), (plain_at e (plain_of x)); try contradiction; auto.
Qed.

Lemma play_exact fuel x h : fresh x -> 0 < fuel -> play eqc class loads fuel x [] h = verdicts eqc class loads fuel (plain_of x) [] h.
Proof. intros F H. apply play_ok; auto. now apply fresh_ok. Qed.
End Indexes.

Section Server.
Context {M : Type}.
Variable check : M -> checked.

Definition is_rejected (m : M) : bool := match check m with Thrown _ => true | _ => false end.

Lemma serve_delivered h : forall a, delivered (serve check a h) = filter (is_fine check) (arrived h).
Proof.
  unfold delivered. induction h as [|e t IH]; intros a; [reflexivity|]. cbn [serve]. destruct (on_event check a e) as [b l] eqn:E.
  rewrite flat_map_app, IH. cbn [arrived flat_map]. rewrite filter_app. fold (arrived t).
  destruct e as [m| | | |]; cbn [on_event] in E; try (injection E as <- <-; reflexivity).
  - cbn [filter app]. unfold is_fine at 2. destruct (check m) eqn:K; injection E as <- <-; reflexivity.
  - injection E as <- <-. destruct a; reflexivity.
Qed.

Definition any_rejected (h : list (event M)) : bool := existsb is_rejected (arrived h).
Lemma serve_app h h' : forall a, serve check a (h ++ h') = serve check a h ++ serve check (a || any_rejected h) h'.
Proof.
  induction h as [|e t IH]; intros a; [cbn; now rewrite orb_false_r|]. cbn [serve app].
  destruct (on_event check a e) as [b l] eqn:E. rewrite IH, app_assoc. f_equal. f_equal. unfold any_rejected. cbn [arrived flat_map].
  rewrite existsb_app. fold (arrived t).
  destruct e as [m| | | |]; cbn [on_event] in E; try (injection E as <- <-; reflexivity).
  cbn [existsb]. unfold is_rejected at 2. destruct (check m); injection E as <- <-; destruct a; reflexivity.
Qed.

Lemma serve_closed h : ~ In (Deliver HalfClose) (serve check true h).
Proof.
  induction h as [|e t IH]; cbn [serve]; [auto|]. destruct (on_event check true e) as [b l] eqn:E. intros H. apply in_app_or in H.
  assert (b = true /\ ~ In (Deliver HalfClose) l) as [-> N].
  { destruct e as [m| | | |]; cbn [on_event] in E; try (injection E as <- <-; split; [reflexivity|intros []; try discriminate; contradiction]).
    destruct (check m); injection E as <- <-; (split; [reflexivity|intros []; try discriminate; contradiction]). }
  tauto.
Qed.

Lemma serve_no_close h : any_rejected h = false -> forall a s, ~ In (Close s) (serve check a h).
Proof.
  induction h as [|e t IH]; intros N a s; cbn [serve]; [auto|]. unfold any_rejected in N. cbn [arrived flat_map] in N. rewrite existsb_app in N.
  apply orb_false_iff in N. destruct N as [N1 N2]. destruct (on_event check a e) as [b l] eqn:E. intros H. apply in_app_or in H.
  destruct H as [H|H]; [|exact (IH N2 b s H)].
  destruct e as [m| | | |]; cbn [on_event] in E; try (injection E as <- <-; destruct H as [H|[]]; discriminate).
  - cbn in N1. unfold is_rejected in N1. destruct (check m); injection E as <- <-; try discriminate N1; destruct H as [H|[]]; discriminate.
  - injection E as <- <-. destruct a; [exact H|destruct H as [H|[]]; discriminate].
Qed.

Lemma any_rejected_false h : any_rejected h = false <-> forall m, In (Message m) h -> forall e, check m <> Thrown e.
Proof.
  unfold any_rejected. rewrite <- not_true_iff_false, existsb_exists. unfold is_rejected, arrived. split.
  - intros N m H e E. apply N. exists m. rewrite E. split; auto. apply in_flat_map. eexists. split; [exact H|left; reflexivity].
  - intros N (m & H & R). apply in_flat_map in H. destruct H as (x & H & K). destruct x; cbn in K; try contradiction. destruct K as [->|[]].
    destruct (check m) eqn:E; try discriminate. exact (N m H _ E).
Qed.
Lemma any_rejected_true h m e : In (Message m) h -> check m = Thrown e -> any_rejected h = true.
Proof. intros H E. destruct (any_rejected h) eqn:A; auto. exfalso. apply (proj1 (any_rejected_false h) A m H e E). Qed.
End Server.

Section Client.
Context {M : Type}.
Variable check : M -> checked.
Lemma requests_forwarded h : forwarded (requests check h) = filter (is_fine check) (sent h).
Proof.
  unfold forwarded, requests, sent. induction h as [|r t IH]; [reflexivity|]. cbn [map flat_map]. rewrite IH, filter_app. f_equal.
  destruct r as [m|w]; [|reflexivity]. cbn [on_request filter]. unfold is_fine. destruct (check m); reflexivity.
Qed.
End Client.
