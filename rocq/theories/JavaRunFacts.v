(** Validation in Java agrees with the rules: times, enums, fields and messages. *)
From Coq Require Import Lia Floats.SpecFloat.
From Verif Require Import Base Utf8 Num Rules Types Time Iface Checker GoSem Spec Meaning Conflict Wt LitSpec BaseFacts Utf8Facts NumFacts TimeFacts
  ExecFacts ExecRule ExecField ExecMsg Main MeaningFacts ConflictFacts Outcome Values Says Utf16Facts LangFacts Java JavaSpec JavaFacts.

(** ** Times *)
Lemma jdur_valid_iff d : jdur_valid d = true <-> valid_duration d.
Proof. unfold jdur_valid, valid_duration. lia. Qed.
Lemma jts_valid_iff t : jts_valid t = true <-> valid_timestamp t.
Proof. unfold jts_valid, valid_timestamp. lia. Qed.


Lemma sn_compare_faithful (P : sn -> Prop) a b : (P = valid_duration \/ P = valid_timestamp) -> P a -> P b ->
  match sn_compare a b with
  | Lt => (nanos a < nanos b)%Z
  | Eq => nanos a = nanos b
  | Gt => (nanos b < nanos a)%Z
  end.
Proof.
  intros HP Pa Pb. unfold sn_compare, nanos. destruct a as [s n], b as [s' n']. cbn [sn_s sn_n] in *.
  destruct HP as [-> | ->]; unfold valid_duration, valid_timestamp in *; cbn [sn_s sn_n] in *;
    destruct (Z.compare_spec s s'); try lia; destruct (Z.compare_spec n n'); lia.
Qed.
Lemma sn_equals_iff (P : sn -> Prop) a b : (P = valid_duration \/ P = valid_timestamp) -> P a -> P b -> sn_equals a b = true <-> nanos a = nanos b.
Proof.
  intros HP Pa Pb. assert (F := sn_compare_faithful P a b HP Pa Pb). unfold sn_equals, sn_compare in *.
  destruct (Z.compare_spec (sn_s a) (sn_s b)); [|lia|lia].
  destruct (Z.compare_spec (sn_n a) (sn_n b)); lia.
Qed.

Notation nlt' := (fun a b => (nanos a < nanos b)%Z).
Notation neq' := (fun a b => nanos a = nanos b).
Lemma jdur_faithful a b : valid_duration a -> valid_duration b ->
  match jdur_compare a b with
  | Some Lt => nlt' a b /\ ~ neq' a b /\ ~ nlt' b a
  | Some Eq => neq' a b /\ ~ nlt' a b /\ ~ nlt' b a
  | Some Gt => nlt' b a /\ ~ nlt' a b /\ ~ neq' a b
  | None => False
  end.
Proof.
  intros Ga Gb. unfold jdur_compare. rewrite (proj2 (jdur_valid_iff a)), (proj2 (jdur_valid_iff b)) by auto. cbn [andb].
  assert (F := sn_compare_faithful valid_duration a b ltac:(auto) Ga Gb). destruct (sn_compare a b); lia.
Qed.
Lemma jts_faithful a b : valid_timestamp a -> valid_timestamp b ->
  match jts_compare a b with
  | Some Lt => nlt' a b /\ ~ neq' a b /\ ~ nlt' b a
  | Some Eq => neq' a b /\ ~ nlt' a b /\ ~ nlt' b a
  | Some Gt => nlt' b a /\ ~ nlt' a b /\ ~ neq' a b
  | None => False
  end.
Proof.
  intros Ga Gb. unfold jts_compare. rewrite (proj2 (jts_valid_iff a)), (proj2 (jts_valid_iff b)) by auto. cbn [andb].
  assert (F := sn_compare_faithful valid_timestamp a b ltac:(auto) Ga Gb). destruct (sn_compare a b); lia.
Qed.

(** Clamping does not matter next to a constant of less than 2^31 seconds. *)
Lemma clamp_near d c : valid_duration c -> java_time c ->
  ((go_duration d < go_duration c)%Z <-> (nanos d < nanos c)%Z) /\ ((go_duration c < go_duration d)%Z <-> (nanos c < nanos d)%Z) /\
  (go_duration d = go_duration c <-> nanos d = nanos c).
Proof.
  unfold valid_duration, java_time, go_duration, clamp64. intros V J.
  assert (- 2^62 < nanos c < 2^62)%Z by (unfold nanos; lia). lia.
Qed.

Lemma range_same {T} (lt lt' eq eq' : T -> T -> Prop) up lo v :
  (forall x, (up = Some (Excl x) \/ up = Some (Incl x) \/ lo = Some (Excl x) \/ lo = Some (Incl x)) ->
     (lt v x <-> lt' v x) /\ (lt x v <-> lt' x v) /\ (eq v x <-> eq' v x) /\ (eq x v <-> eq' x v)) ->
  (forall u l, up = Some u -> lo = Some l -> lt (bval l) (bval u) <-> lt' (bval l) (bval u)) ->
  within_range lt eq up lo v <-> within_range lt' eq' up lo v.
Proof.
  intros H K.
  assert (B : forall u, up = Some u -> Spec.below lt eq u v <-> Spec.below lt' eq' u v).
  { intros [x|x] Eu; cbn; destruct (H x ltac:(auto)) as (H1 & H2 & H3 & H4); tauto. }
  assert (L : forall l, lo = Some l -> Spec.above lt eq l v <-> Spec.above lt' eq' l v).
  { intros [x|x] El; cbn; destruct (H x ltac:(auto)) as (H1 & H2 & H3 & H4); tauto. }
  destruct up as [u|], lo as [l|]; cbn [within_range]; auto; [|reflexivity].
  rewrite (K u l), (B u), (L l) by auto. reflexivity.
Qed.

Lemma bnd_in {T} (a b : option T) x : bnd a b = Some (Excl x) \/ bnd a b = Some (Incl x) -> a = Some x \/ b = Some x.
Proof. destruct a as [y|], b as [z|]; cbn; intros [[= <-]|[= <-]]; auto. Qed.

Lemma listed_same {T} (P Q : T -> Prop) l nl : (forall x, In x l \/ In x nl -> P x <-> Q x) -> listed P l nl <-> listed Q l nl.
Proof.
  intros H. unfold listed.
  assert (E : forall l', (forall x, In x l' -> P x <-> Q x) -> Exists P l' <-> Exists Q l').
  { intros l' K. rewrite !Exists_exists. split; intros (x & Hx & Px); exists x; split; auto; apply (K x Hx); auto. }
  rewrite (E l), (E nl) by auto. reflexivity.
Qed.

Lemma required_says {A} b (o : option A) : says (j_required b o) (b = Some true -> o <> None).
Proof.
  unfold j_required. eapply says_iff; [|apply (says_if (getb b) _ (o <> None)); intros _; apply says_throw].
  - now rewrite getb_true.
  - destruct o; cbn; split; congruence.
Qed.

(** A rule without constraints admits everything. *)
Lemma duration_says r o : java_dur r -> check_duration r = true -> (forall d, o = Some d -> valid_duration d) ->
  says (j_duration r o) (dur_meaning r o).
Proof.
  intros J C Vo. unfold j_duration, dur_meaning.
  destruct (check_duration_valid r C) as (V1 & V2 & V3). rewrite Forall_forall in V2, V3.
  assert (NC := check_duration_sound r C).
  apply says_seq; [apply required_says|intros _]. apply says_some. intros d Ed. specialize (Vo d Ed).
  assert (Vc : forall c, (d_const r = Some c \/ d_lt r = Some c \/ d_lte r = Some c \/ d_gt r = Some c \/ d_gte r = Some c \/
             In c (d_in r) \/ In c (d_not_in r)) -> valid_duration c /\ java_time c).
  { intros c Hc. split; [|auto]. destruct Hc as [H|[H|[H|[H|[H|[H|H]]]]]]; auto; apply V1; tauto. }
  assert (Near : forall c, _ -> _) by (intros c Hc; destruct (Vc c Hc) as [X Y]; exact (clamp_near d c X Y)).
  eapply says_iff with (P := (forall c, d_const r = Some c -> nanos d = nanos c) /\
     within_range nlt' neq' (bnd (d_lt r) (d_lte r)) (bnd (d_gt r) (d_gte r)) d /\
     listed (fun x => nanos d = nanos x) (d_in r) (d_not_in r)).
  - assert (E : within_range (fun a b => (go_duration a < go_duration b)%Z) (fun a b => go_duration a = go_duration b)
       (bnd (d_lt r) (d_lte r)) (bnd (d_gt r) (d_gte r)) d <-> within_range nlt' neq' (bnd (d_lt r) (d_lte r)) (bnd (d_gt r) (d_gte r)) d).
    { apply range_same.
      - intros x Hx. assert (Hx' : d_const r = Some x \/ d_lt r = Some x \/ d_lte r = Some x \/ d_gt r = Some x \/ d_gte r = Some x \/ In x (d_in r) \/ In x (d_not_in r)).
        { assert (D : (d_lt r = Some x \/ d_lte r = Some x) \/ (d_gt r = Some x \/ d_gte r = Some x)).
          { destruct Hx as [H|[H|[H|H]]]; [left|left|right|right]; eapply bnd_in; eauto. }
          tauto. }
        destruct (Near x Hx') as (A1 & A2 & A3). split; [tauto|]. split; [tauto|]. split; [tauto|]. split; intros Q; symmetry; apply A3; auto.
      - intros u l Hu Hl.
        assert (Du : d_lt r = Some (bval u) \/ d_lte r = Some (bval u)) by (apply bnd_in; destruct u; auto).
        assert (Dl : d_gt r = Some (bval l) \/ d_gte r = Some (bval l)) by (apply bnd_in; destruct l; auto).
        destruct (Vc (bval u) ltac:(tauto)) as [X Y]. exact (proj1 (clamp_near (bval l) (bval u) X Y)). }
    assert (Li : listed (fun x => go_duration d = go_duration x) (d_in r) (d_not_in r) <-> listed (fun x => nanos d = nanos x) (d_in r) (d_not_in r)).
    { apply listed_same. intros x Hx. apply Near. tauto. }
    split.
    + intros (H1 & H2 & H3) _. split; [exact Vo|]. split; [|split; [now apply E|now apply Li]].
      intros c Hc. apply Near; auto.
    + intros H. split; [|split].
      * intros c Hc. apply (Near c); auto. apply H; auto. left. congruence.
      * apply E. unfold dur_constrained in H.
        destruct (d_lt r); [apply H; right; left; discriminate|]. destruct (d_lte r); [apply H; right; right; left; discriminate|].
        destruct (d_gt r); [apply H; do 3 right; left; discriminate|]. destruct (d_gte r); [apply H; do 4 right; left; discriminate|]. exact I.
      * apply Li. split.
        -- intros Hl. apply H; auto. do 5 right. left. exact Hl.
        -- intros Hx. assert (Hn : d_not_in r <> []) by (intros Hn; rewrite Hn in Hx; now apply Exists_nil in Hx).
           destruct (H ltac:(do 6 right; exact Hn)) as (_ & _ & _ & Q). now apply Q.
  - cbn [in_order]. apply says_seq; [|intros _; apply says_seq; [|intros _]].
    + apply (says_const sn_equals neq'). intros c Hc. apply (sn_equals_iff valid_duration); auto; apply Vc; auto.
    + apply (says_bounds jdur_compare nlt' neq' valid_duration jdur_faithful (fun a b E => eq_sym E)); [assumption|..].
      * intros x Hx. apply Vc. tauto.
      * intros [H1 H2]. apply NC, dc_range. now apply lt_with_lte.
      * intros [H1 H2]. apply NC, dc_range. now apply gt_with_gte.
      * intros a b Ha Hb E. apply NC, dc_range. apply (equal_bounds _ _ _ _ _ _ _ _ a b); auto.
    + rewrite andthen_passes. apply (says_listed sn_equals neq'). intros c Hc. apply (sn_equals_iff valid_duration); auto; apply Vc; tauto.
Qed.

Section Now.
Variable orc : oracles.
Variable jl : java_libs.

Lemma now_nanos : clocks_agree orc jl -> nanos (j_now jl) = o_now orc /\ valid_timestamp (j_now jl).
Proof.
  intros [E R]. unfold nanos, j_now, valid_timestamp. cbn [sn_s sn_n]. rewrite E.
  assert (D := Z.div_mod (jl_now_ms jl) 1000 ltac:(lia)). assert (M := Z.mod_pos_bound (jl_now_ms jl) 1000 ltac:(lia)). lia.
Qed.

Lemma timestamp_says r o : java_ts r -> check_timestamp r = true ->
  (forall t, o = Some t -> java_ruled orc jl (RTimestamp r) (VTs (Some t))) ->
  says (j_timestamp jl r o) (ts_meaning orc r o).
Proof.
  intros [J JW] C Vo. unfold j_timestamp, ts_meaning.
  assert (NC := check_timestamp_sound (fun _ => true) r C).
  apply says_seq; [apply required_says|intros _]. apply says_some. intros t Et. destruct (Vo t Et) as (Vt & Clk & Wi). clear Vo.
  assert (Vc : forall c, In (Some c) [t_const r; t_lt r; t_lte r; t_gt r; t_gte r] -> valid_timestamp c).
  { intros c Hc. destruct (ts_check c) eqn:E; [exfalso; apply NC; apply (tc_invalid _ c); auto; intros V; apply ts_check_spec in V; congruence|].
    now apply ts_check_spec. }
  cbn zeta.
  eapply says_iff with (P := (forall c, t_const r = Some c -> nanos t = nanos c) /\
     within_range nlt' neq' (bnd (t_lt r) (t_lte r)) (bnd (t_gt r) (t_gte r)) t /\
     (t_lt_now r <> None -> (nanos t < o_now orc)%Z) /\
     (t_gt_now r <> None -> (o_now orc < nanos t)%Z) /\
     (forall w, t_within r = Some w -> (Z.abs (nanos t - o_now orc) <= nanos w)%Z)).
  - assert (E : forall w, t_within r = Some w -> match t_lt_now r, t_gt_now r with
        | None, None => (Z.abs (nanos t - o_now orc) < nanos w)%Z
        | _, _ => (Z.abs (nanos t - o_now orc) <= nanos w)%Z end = (Z.abs (nanos t - o_now orc) <= nanos w)%Z).
    { intros w Hw. destruct (t_lt_now r), (t_gt_now r); auto. exfalso. destruct JW as [X|X]; congruence. }
    split.
    + intros (H1 & H2 & H3 & H4 & H5) _. repeat (split; [assumption|]). intros w Hw. rewrite (E w Hw). auto.
    + intros H. unfold ts_constrained in H. split; [|split; [|split; [|split]]].
      * intros c Hc. apply H; auto. left. congruence.
      * destruct (t_lt r); [apply H; right; left; discriminate|]. destruct (t_lte r); [apply H; right; right; left; discriminate|].
        destruct (t_gt r); [apply H; do 3 right; left; discriminate|]. destruct (t_gte r); [apply H; do 4 right; left; discriminate|]. exact I.
      * intros K. apply H; auto. do 5 right. left. exact K.
      * intros K. apply H; auto. do 6 right. left. exact K.
      * intros w Hw. rewrite <- (E w Hw). apply H; auto. do 7 right. congruence.
  - cbn [in_order]. apply says_seq; [|intros _; apply says_seq; [|intros _; apply says_seq; [|intros _; apply says_seq; [|intros _]]]].
    + apply (says_const sn_equals neq'). intros c Hc. apply (sn_equals_iff valid_timestamp); auto; apply Vc; rewrite Hc; cbn; auto.
    + apply (says_bounds jts_compare nlt' neq' valid_timestamp jts_faithful (fun a b E => eq_sym E)); [assumption|..].
      * intros x Hx. apply Vc. cbn. clear - Hx. destruct Hx as [H|[H|[H|H]]]; rewrite H; auto 6.
      * intros [H1 H2]. apply NC, tc_range. now apply lt_with_lte.
      * intros [H1 H2]. apply NC, tc_range. now apply gt_with_gte.
      * intros a b Ha Hb E. apply NC, tc_range. apply (equal_bounds _ _ _ _ _ _ _ _ a b); auto.
    + destruct (t_lt_now r); [|left; split; auto; congruence]. destruct (now_nanos (Clk ltac:(left; discriminate))) as [N1 N2].
      cbn [on_some]. eapply says_iff; [|apply (says_lt jts_compare nlt' neq' valid_timestamp jts_faithful); auto].
      cbn beta. rewrite N1. split; auto. intros K. apply K. discriminate.
    + destruct (t_gt_now r); [|left; split; auto; congruence]. destruct (now_nanos (Clk ltac:(right; left; discriminate))) as [N1 N2].
      cbn [on_some]. eapply says_iff; [|apply (says_gt jts_compare nlt' neq' valid_timestamp jts_faithful); auto].
      cbn beta. rewrite N1. split; auto. intros K. apply K. discriminate.
    + rewrite andthen_passes. apply says_some. intros w Hw. destruct (now_nanos (Clk ltac:(right; right; congruence))) as [N1 N2].
      specialize (Wi ltac:(congruence)).
      assert (Vw : valid_duration w /\ (0 < nanos w)%Z).
      { destruct (dur_check w) eqn:Ed.
        - exfalso. apply NC. apply (tc_within _ w Hw). left. intros V. apply dur_check_spec in V. congruence.
        - split; [now apply dur_check_spec|]. destruct (Z.ltb_spec 0 (nanos w)); auto. exfalso. apply NC. apply (tc_within _ w Hw). right. lia. }
      destruct Vw as [Vw Pw]. assert (Jw := J w ltac:(do 5 right; exact Hw)).
      unfold j_within. change (total t - total (j_now jl))%Z with (nanos t - nanos (j_now jl))%Z. change (total w) with (nanos w). rewrite N1.
      rewrite (proj2 (jts_valid_iff t)), (proj2 (jts_valid_iff _) N2), (proj2 (jdur_valid_iff w)) by auto.
      assert (F1 : fits_int64 (nanos t - o_now orc) = true) by (clear - Wi; unfold fits_int64, min_int64, max_int64; lia).
      assert (F2 : fits_int64 (nanos w) = true) by (clear - Vw Jw; unfold fits_int64, min_int64, max_int64, nanos, java_time, valid_duration in *; lia).
      rewrite F1, F2. cbn [andb]. apply says_throw. unfold jabs. clear - Wi Pw.
      replace (nanos t - o_now orc =? - 2^63)%Z with false by lia. replace (nanos w =? - 2^63)%Z with false by lia. cbv iota. lia.
Qed.
End Now.

(** ** Lists *)
Section Unique.
Variable equals : value -> value -> bool.
Variable good : value -> Prop.
Hypothesis exact : forall x y, good x -> good y -> equals x y = true <-> same_item x y.

Lemma unique_says l : forall seen, Forall good seen -> Forall good l ->
  says (j_unique equals seen l)
    ((forall x s, In x l -> In s seen -> ~ same_item x s) /\
     (forall i j x y, i < j -> nth_error l i = Some x -> nth_error l j = Some y -> ~ same_item y x)).
Proof.
  induction l as [|x t IH]; intros seen Gs Gl; cbn [j_unique].
  - left. split; auto. split; [intros x s []|]. intros [|i] j x y _; discriminate.
  - apply Forall_cons_iff in Gl. destruct Gl as [Gx Gt]. destruct (existsb (equals x) seen) eqn:E.
    + right. split; auto. intros [H _]. apply existsb_exists in E. destruct E as (s & Is & Es). rewrite Forall_forall in Gs.
      apply exact in Es; auto. eapply H; eauto. left; auto.
    + assert (N : forall s, In s seen -> ~ same_item x s).
      { intros s Is S. rewrite Forall_forall in Gs. apply exact in S; auto. assert (existsb (equals x) seen = true) by (apply existsb_exists; eauto). congruence. }
      eapply says_iff; [|apply IH; [constructor; auto|auto]]. split.
      * intros [H1 H2]. split.
        -- intros y s [<-|Iy] Is; [auto|]. apply H1; auto. right; auto.
        -- intros [|i] [|j] y z L; cbn [nth_error]; try lia.
           ++ intros [= <-] Ez. apply H1; [eapply nth_error_In; eauto|left; auto].
           ++ intros Ey Ez. eapply (H2 i j); eauto. lia.
      * intros [H1 H2]. split.
        -- intros y s Iy [<-|Is]; [|apply H1; auto; right; auto]. apply In_nth_error in Iy. destruct Iy as [j Ej].
           apply (H2 0 (S j)); auto. lia.
        -- intros i j y z L Ey Ez. apply (H2 (S i) (S j)); auto. lia.
Qed.
End Unique.

Lemma min_says n o : says (jnz o (fun a => throw_unless (negb (n <? a)%N))) (forall a, o = Some a -> (a <= n)%N).
Proof.
  destruct o as [a|]; cbn [jnz]; [|left; split; auto; discriminate]. eapply says_iff with (P := (a <= n)%N); [split; [intros H b [= <-]; exact H|auto]|].
  destruct (N.eqb_spec a 0) as [->|]; [left; split; auto; lia|]. apply says_throw. lia.
Qed.
Lemma max_says n o : o <> Some 0%N -> says (jnz o (fun a => throw_unless (negb (a <? n)%N))) (forall a, o = Some a -> (n <= a)%N).
Proof.
  intros H0. destruct o as [a|]; cbn [jnz]; [|left; split; auto; discriminate]. eapply says_iff with (P := (n <= a)%N); [split; [intros H b [= <-]; exact H|auto]|].
  destruct (N.eqb_spec a 0) as [->|]; [congruence|]. apply says_throw. lia.
Qed.
Lemma min_says' n o : says (jnz o (fun a => throw_unless (N.min n a =? a)%N)) (forall a, o = Some a -> (a <= n)%N).
Proof.
  destruct o as [a|]; cbn [jnz]; [|left; split; auto; discriminate]. eapply says_iff with (P := (a <= n)%N); [split; [intros H b [= <-]; exact H|auto]|].
  destruct (N.eqb_spec a 0) as [->|]; [left; split; auto; lia|]. apply says_throw. lia.
Qed.
Lemma max_says' n o : o <> Some 0%N -> says (jnz o (fun a => throw_unless (N.max n a =? a)%N)) (forall a, o = Some a -> (n <= a)%N).
Proof.
  intros H0. destruct o as [a|]; cbn [jnz]; [|left; split; auto; discriminate]. eapply says_iff with (P := (n <= a)%N); [split; [intros H b [= <-]; exact H|auto]|].
  destruct (N.eqb_spec a 0) as [->|]; [congruence|]. apply says_throw. lia.
Qed.

(** ** Elements, fields, messages *)
Section JavaRun.
Variable re_ok : bytes -> bool.
Variable sc0 sc : schema.
Variable orc : oracles.
Variable jl : java_libs.
Variable ignored : string -> bool.
Hypothesis checked : check_schema re_ok sc0 = Some sc.
Hypothesis wf : wf_schema sc0.
Hypothesis OK : oracle_ok orc.
Notation leaf := (java_value sc orc jl).
Notation callable := (fun n => ignored n = false).

Lemma enum_has_iff e z : enum_has sc e z = true <-> defined sc e z.
Proof.
  unfold enum_has, defined. destruct (find_enum sc e) as [d|]; [|split; [discriminate|intros (d & K & _); discriminate]].
  rewrite existsb_exists. split.
  - intros (x & Ix & Ex). apply Z.eqb_eq in Ex. subst. eauto.
  - intros (d' & [= <-] & I). exists z. split; auto. apply Z.eqb_refl.
Qed.
Lemma defined_same e z : defined sc e z <-> defined sc0 e z.
Proof. unfold defined. rewrite (ck_enums re_ok sc0 sc e checked). reflexivity. Qed.

(** A constant that exists is equal to the value's constant just when the numbers are. *)
Lemma enum_equal e z c : defined sc e c -> exists j, for_number sc e c = Some j /\ (jenum_equals (jenum_of sc e z) j = true <-> z = c).
Proof.
  intros D. apply enum_has_iff in D. exists (JConst c). unfold for_number. rewrite D. split; auto.
  unfold jenum_of. destruct (enum_has sc e z) eqn:E; cbn [jenum_equals]; [apply Z.eqb_eq|]. split; [discriminate|congruence].
Qed.
Lemma enums_in e z l : (forall c, In c l -> defined sc e c) ->
  existsb (jequals jenum_equals (jenum_of sc e z)) (map (for_number sc e) l) = true <-> Exists (fun x => z = x) l.
Proof.
  intros D. induction l as [|c t IH]; cbn [map existsb]; [rewrite Exists_nil; split; [discriminate|contradiction]|].
  rewrite orb_true_iff, Exists_cons, IH; [|intros; apply D; right; auto].
  destruct (enum_equal e z c (D c (or_introl eq_refl))) as (j & -> & Ej). cbn [jequals]. rewrite Ej. reflexivity.
Qed.

Lemma enum_says m e r z : java_enum sc m e r -> says (j_enum sc e r z) (enum_meaning sc0 e r z).
Proof.
  intros [D _]. unfold j_enum, enum_meaning. cbn [in_order].
  eapply says_iff with (P := (forall c, e_const r = Some c -> z = c) /\ (e_defined_only r = Some true -> defined sc0 e z) /\
      (e_in r <> [] -> Exists (fun x => z = x) (e_in r)) /\ ~ Exists (fun x => z = x) (e_not_in r)).
  { unfold listed. tauto. }
  assert (K1 := enums_in e z (e_in r) ltac:(intros; apply D; auto)). assert (K2 := enums_in e z (e_not_in r) ltac:(intros; apply D; auto)).
  apply says_seq; [|intros _; apply says_seq; [|intros _; apply says_seq; [|intros _]]].
  - apply says_some. intros c Ec. destruct (enum_equal e z c (D c ltac:(auto))) as (j & -> & Ej). unfold j_constant, jequals.
    destruct (jenum_equals _ j); [left|right]; intuition; discriminate.
  - apply says_getb. intros _. apply says_throw. rewrite <- defined_same, <- enum_has_iff. unfold jenum_of.
    destruct (enum_has sc e z); split; auto.
  - unfold j_in. destruct (e_in r) as [|c t]; [left; split; auto; congruence|].
    eapply says_iff with (P := Exists (fun x => z = x) (c :: t)); [split; auto; intros X; apply X; discriminate|]. cbn [negb is_nil only_if]. now apply says_throw.
  - rewrite andthen_passes. unfold j_not_in. destruct (e_not_in r) as [|c t]; [left; split; auto; rewrite Exists_nil; auto|].
    cbn [negb is_nil only_if]. apply says_throw. rewrite negb_true_iff, <- not_true_iff_false, K2. reflexivity.
Qed.

Lemma any_says r o : java_any r -> (forall url, o = Some url -> valid_utf8 url) -> says (j_any r o) (any_meaning r o).
Proof.
  intros J Vo. unfold j_any, any_meaning. cbn [in_order]. apply says_seq; [apply required_says|intros _]. rewrite andthen_passes.
  destruct o as [url|]; cbn [on_some].
  - eapply says_iff; [|apply (jstrings_listed url (a_in r) (a_not_in r)); auto].
    + split; [intros H u [= <-]; exact H|auto].
    + intros c Hc. apply J. exact Hc.
  - left. split; [|discriminate]. destruct (negb (is_nil (a_in r))), (negb (is_nil (a_not_in r))); reflexivity.
Qed.

Lemma rule_says m e r v : java_rule sc m e r -> sane r -> wt_elem sc0 e v -> java_ruled orc jl r v ->
  says (j_rule jl sc e r v) (rule_flat orc sc0 e r v).
Proof.
  intros J S W R. destruct r; try contradiction; destruct e; try contradiction; inversion W; subst; cbn [j_rule rule_flat rule_meaning].
  - destruct J as [<- J]. apply num_says; auto. split; auto.
  - apply bool_says.
  - apply string_says; auto.
  - apply bytes_says; auto.
  - eapply enum_says; eauto.
  - apply any_says; auto. intros url ->. exact R.
  - apply duration_says; auto. discriminate.
  - apply duration_says; auto. intros x [= <-]. exact R.
  - apply timestamp_says; auto. discriminate.
  - apply timestamp_says; auto. intros x [= <-]. exact R.
Qed.

Variable V : string -> msgval -> Prop.
Notation emb_good := (emb_ok sc0 sc V leaf callable).

Lemma has_set v : jhas v = true <-> is_set v.
Proof. destruct v as [| | | | |[]|[]|[]|[]|[]| |]; cbn; split; congruence || auto. Qed.

Lemma elem_says emb inside m u e fr v : java_elem sc ignored inside m e fr -> sane_fr fr -> wt_elem sc0 e v ->
  all_elem sc leaf inside u e fr v -> emb_good emb (vheight v) ->
  says (j_elem jl sc emb inside e (Some fr) v) (elem_flat orc sc0 V e fr v).
Proof.
  intros J S W A E. inversion A as [b' u' e' fr' v' (L1 & L2 & L3) D X1 X2 X3 X4 X5]. subst b' u' e' fr' v'. clear A.
  destruct fr as [mr [r|]].
  - specialize (L3 mr r eq_refl). cbn [java_elem sane_fr j_elem elem_flat] in *.
    destruct e; try (inversion W; subst; eapply rule_says; eauto; fail).
    destruct J as [-> J]. inversion W as [| | | | | | |w'|w' x Wx| | | | |]; subst.
    + cbn [j_wrapper]. apply says_throw. unfold required. destruct mr as [m0|]; cbn; [destruct (getb (m_required m0))|]; split; auto; discriminate.
    + cbn [j_wrapper]. eapply rule_says; eauto.
  - cbn [java_elem j_elem elem_flat] in *. destruct J as [J1 J2]. destruct (is_embed e) eqn:Ee; cbn [only_if]; [|left; split; auto; discriminate].
    eapply says_iff with (P := (required mr = true -> is_set v) /\ (skipped mr = false -> forall n m1, e = TMsg n -> v = VMsg (Some m1) -> validated_type sc0 n = true -> V n m1)); [tauto|].
    unfold j_message. fold (skipped mr). fold (required mr). destruct (skipped mr) eqn:Es.
    { left. split; auto. split; [intros R; exfalso; apply J1; auto|discriminate]. }
    assert (Hs : inside || jhas v = true <-> is_set v).
    { rewrite orb_true_iff, has_set. tauto. }
    apply says_seq.
    + apply says_if. intros _. apply says_throw. exact Hs.
    + intros _. destruct (inside || jhas v) eqn:Eh; cbn [only_if].
      * assert (Sv : is_set v) by (now apply Hs). unfold j_embedded.
        assert (Hv : jhas v = true) by (now apply has_set).
        destruct e; try discriminate; try (rewrite Hv; left; split; auto; intros _ n m1 K; discriminate K).
        inversion W; subst; [cbn in Sv; congruence|]. assert (Df : descends (FR mr None)) by (destruct mr as [mr|]; cbn in *; auto; intros Q; rewrite Q in Es; discriminate).
        eapply says_iff; [|eapply E; eauto].
        split; [intros Q _ n9 m9 [= <-] [= <-]; exact Q|intros Q; apply Q; auto].
      * assert (Sv : ~ is_set v) by (intros Q; apply Hs in Q; discriminate).
        left. split; auto. intros _ n m1 -> -> _. exfalso. apply Sv. cbn. discriminate.
Qed.

Lemma j_elem_inner emb b e o v : j_elem jl sc emb b e o v = j_elem jl sc emb b e (Some (inner o)) v.
Proof. destruct o; reflexivity. Qed.
Lemma list_height x l : In x l -> (vheight x <= list_max (map vheight l))%nat.
Proof. apply list_max_in. Qed.

Lemma value_equals_iff e x y : is_embed e = false -> wt_elem sc0 e x -> wt_elem sc0 e y -> java_unique sc e x -> java_unique sc e y ->
  j_value_equals sc e x y = true <-> same_item x y.
Proof.
  intros He Wx Wy Ux Uy. destruct e; try discriminate; inversion Wx; subst; inversion Wy; subst; cbn [j_value_equals same_item].
  - cbn in Ux, Uy. rewrite !(half_same k) by (split; auto). apply (jn_equals_iff k); split; auto.
  - rewrite Bool.eqb_true_iff. split; congruence.
  - rewrite jstring_eqb by auto. split; congruence.
  - rewrite bytes_eqb_eq. split; congruence.
  - cbn in Ux, Uy. apply enum_has_iff in Ux, Uy. unfold jenum_of. rewrite Ux, Uy. cbn. rewrite Z.eqb_eq. split; congruence.
Qed.

Lemma rep_says emb e r l : java_counts (r_min r) (r_max r) -> (r_unique r = Some true -> is_embed e = false) ->
  java_elem sc ignored true false e (inner (r_items r)) -> sane_fr (inner (r_items r)) -> Forall (wt_elem sc0 e) l ->
  (forall x, In x l -> all_elem sc leaf true (match r_unique r with Some true => true | _ => false end) e (inner (r_items r)) x) ->
  emb_good emb (list_max (map vheight l)) ->
  says (j_repeated jl sc emb e r l) (rep_flat orc sc0 V e r l).
Proof.
  intros (C1 & C2 & C3) U J S W A E. unfold j_repeated, rep_flat. apply says_ignore; [apply is_nil_true|]. cbn [in_order].
  rewrite Forall_forall in W.
  eapply says_iff.
  2:{ apply says_seq; [apply min_says|intros _]. apply says_seq; [apply max_says; exact C1|intros _].
      apply says_seq with (P := r_unique r = Some true -> forall i j x y, i < j -> nth_error l i = Some x -> nth_error l j = Some y -> ~ same_item y x); [|intros _].
      - apply says_getb. intros Hu. rewrite Hu in A.
        eapply says_iff; [|apply (unique_says (j_value_equals sc e) (fun x => wt_elem sc0 e x /\ java_unique sc e x)); [|constructor|]].
        + split; [tauto|]. intros Q. split; auto.
        + intros x y [Wx Ux] [Wy Uy]. apply value_equals_iff; auto.
        + apply Forall_forall. intros x Ix. split; auto. specialize (A x Ix). inversion A as [b' u' e' fr' v' (L1 & L2 & L3) D]; subst. auto.
      - rewrite andthen_passes. apply says_map with (P := elem_flat orc sc0 V e (rules_or_none (r_items r))). intros x Ix. rewrite j_elem_inner.
        eapply elem_says; eauto. eapply emb_le; [|exact E]. now apply list_height. }
  unfold count_meaning. tauto.
Qed.

Lemma key_flat e : is_embed e = false -> forall x, elem_flat orc sc0 V e no_rules x.
Proof. intros H x. cbn. congruence. Qed.
Lemma none_flat e o x : j_none e o = true -> elem_flat orc sc0 V e (inner o) x.
Proof. intros H. destruct o as [[mr [r|]]|]; cbn in *; try discriminate; destruct (is_embed e); discriminate. Qed.

Lemma map_says emb k w r l : java_counts (p_min r) (p_max r) -> p_no_sparse r <> Some true ->
  java_elem sc ignored true true k (inner (p_keys r)) -> java_elem sc ignored true true w (inner (p_values r)) ->
  sane_fr (inner (p_keys r)) -> sane_fr (inner (p_values r)) -> map_key k = true ->
  Forall (fun p => wt_elem sc0 k (fst p) /\ wt_elem sc0 w (snd p)) l ->
  (forall x y, In (x, y) l -> all_elem sc leaf true false k (inner (p_keys r)) x /\ all_elem sc leaf true false w (inner (p_values r)) y) ->
  emb_good emb (list_max (map (fun p => vheight (snd p)) l)) ->
  says (j_map jl sc emb k w r l) (map_flat orc sc0 V k w r l).
Proof.
  intros (C1 & C2 & C3) NS J1 J2 S1 S2 MK W A E. unfold j_map, map_flat. apply says_ignore; [apply is_nil_true|]. cbn [in_order].
  rewrite Forall_forall in W.
  eapply says_iff.
  2:{ apply says_seq; [apply min_says'|intros _]. apply says_seq; [apply max_says'; exact C1|intros _].
      apply says_seq with (P := True); [|intros _].
      - destruct (p_no_sparse r) as [[]|]; [congruence| |]; left; auto.
      - rewrite andthen_passes.
        apply says_if with (P := (forall p, In p l -> elem_flat orc sc0 V k (inner (p_keys r)) (fst p)) /\ (forall p, In p l -> elem_flat orc sc0 V w (inner (p_values r)) (snd p))).
        intros _. apply says_seq; [|intros _].
        + apply says_map with (P := fun p => elem_flat orc sc0 V k (inner (p_keys r)) (fst p)). intros [x y] I. rewrite j_elem_inner. destruct (A x y I) as [Ax _]. destruct (W _ I) as [Wx _].
          eapply elem_says; eauto. eapply emb_le; [|exact E]. cbn [fst] in *. assert (vheight x = 0) as ->; [|lia]. destruct k; try discriminate; inversion Wx; reflexivity.
        + apply says_map with (P := fun p => elem_flat orc sc0 V w (inner (p_values r)) (snd p)). intros [x y] I. rewrite j_elem_inner. destruct (A x y I) as [_ Ay]. destruct (W _ I) as [_ Wy].
          eapply elem_says; eauto. eapply emb_le; [|exact E]. exact (list_max_in (fun p => vheight (snd p)) l _ I). }
  unfold count_meaning. split.
  - intros (H1 & H2 & _ & H3). split; [tauto|]. split; [intros K; congruence|]. intros x y I. change rules_or_none with inner.
    destruct (j_none w (p_values r)) eqn:N1, (j_none k (p_keys r)) eqn:N2; cbn in H3.
    + split; now apply none_flat.
    + destruct H3 as [Q1 Q2]; auto. split; [apply (Q1 _ I)|apply (Q2 _ I)].
    + destruct H3 as [Q1 Q2]; auto. split; [apply (Q1 _ I)|apply (Q2 _ I)].
    + destruct H3 as [Q1 Q2]; auto. split; [apply (Q1 _ I)|apply (Q2 _ I)].
  - intros ((H1 & H2) & _ & H3). repeat (split; auto). all: intros [x y] I; apply (H3 x y I).
Qed.

Lemma field_says emb f v : java_field sc ignored f -> sane_field f -> wt_field sc0 (f_type f) v ->
  all_field sc leaf (f_type f) (f_rules f) v -> ftype_ok sc0 (f_type f) -> emb_good emb (vheight v) ->
  says (j_field jl sc emb f v) (field_flat orc sc0 V f v).
Proof.
  intros J S W A T E. unfold java_field, sane_field, j_field, field_flat, rep_of, map_of in *. destruct (f_rules f) as [mr t] eqn:Er. cbn [fr_typ] in *.
  destruct (f_type f) as [e|e|k w] eqn:Et.
  - inversion W; subst. inversion A; subst. eapply elem_says; eauto.
  - inversion W as [|e' l Wl|]; subst. inversion A as [|e' fr' l' Al|]; subst.
    destruct t as [[]|]; try contradiction.
    + destruct J as (J1 & J2 & J3). apply rep_says; auto.
    + apply rep_says; auto; try discriminate. repeat split; discriminate.
  - inversion W as [| |k' w' l Wl]; subst. inversion A as [| |k' w' fr' l' Al]; subst. destruct T as [MK _].
    assert (Ek : is_embed k = false) by (destruct k; auto; discriminate).
    destruct t as [[]|]; try contradiction.
    + destruct J as (J1 & J2 & J3 & J4), S as [S1 S2]. apply map_says; auto.
    + destruct (is_embed w) eqn:Ew; cbn [only_if].
      * apply map_says; cbn [p_min p_max p_no_sparse p_keys p_values inner]; auto; try discriminate; try exact I; try exact Al.
        -- repeat split; discriminate.
        -- cbn. split; [intros [_ Q]; discriminate|]. intros _ n ->. discriminate.
      * left. split; auto. right. cbn [p_min p_max p_no_sparse p_keys p_values rules_or_none]. repeat split; try discriminate; apply key_flat; auto.
Qed.

Lemma field_shape f : java_field sc ignored f ->
  match f_type f, fr_typ (f_rules f) with FRep _, Some (RRepeated _) | FRep _, None | FMap _ _, Some (RMap _) | FMap _ _, None | FOne _, _ => True | _, _ => False end.
Proof. unfold java_field. destruct (f_type f), (fr_typ (f_rules f)) as [[]|]; auto. Qed.

End JavaRun.

Section JavaMsg.
Variable re_ok : bytes -> bool.
Variable sc0 sc : schema.
Variable orc : oracles.
Variable jl : java_libs.
Variable ignored : string -> bool.
Hypothesis checked : check_schema re_ok sc0 = Some sc.
Hypothesis wf : wf_schema sc0.
Hypothesis OK : oracle_ok orc.
Notation V := (valid orc sc0).
Notation leaf := (java_value sc orc jl).
Notation callable := (fun n => ignored n = false).
Notation emb_good := (emb_ok sc0 sc V leaf callable).
Hypothesis frag : java_schema sc ignored.

Theorem assert_valid_says fuel : forall n d0 m, find_msg sc0 n = Some d0 -> wt_msg sc0 d0 m -> all_values sc leaf n m -> ignored n = false ->
  (mheight m < fuel)%nat ->
  says (assert_valid_f jl sc ignored fuel n m) (validated_type sc0 n = true -> V n m).
Proof.
  induction fuel as [|k IH]; intros n d0 m F0 W A C L; [lia|]. cbn [assert_valid_f].
  destruct (ck_find re_ok sc0 sc n d0 checked F0) as (d & F & Hck & Hin & Hin0). rewrite F.
  destruct (check_msg_name _ _ _ _ Hck) as (N1 & N2 & N3).
  assert (Hm : validated_type sc0 n = match md_methods d with MNone => false | _ => true end) by (unfold validated_type; rewrite F0, N2; reflexivity).
  destruct (md_methods d) eqn:Em; try (rewrite C; left; split; auto; congruence).
  all: unfold j_msg; destruct (md_disabled d) eqn:Ed;
    [left; split; auto; intros _; apply (valid_step orc sc0 n m d0 F0); left; congruence|].
  all: assert (Act : active d = true) by (unfold active; rewrite Ed, Em; reflexivity).
  all: assert (Eg : emb_good (assert_valid_f jl sc ignored k) (mheight m)) by (intros n' d' x B1 B2 B3 B4 B5; eapply IH; eauto; lia).
  all: assert (Fr : Forall (java_field sc ignored) (all_fields d)) by (apply frag; auto).
  all: eapply says_iff;
    [apply (parts_valid re_ok sc0 orc d0 d n m F0 Hck Act Hm)
    |apply says_seq;
      [apply (fields_say re_ok sc0 sc orc wf OK V leaf callable (java_field sc ignored) (field_shape sc ignored) (j_field jl sc) (field_says re_ok sc0 sc orc jl ignored checked V) _ d0 d n m F Hin0 Hck Act W A Fr Eg)
      |intros _; apply (oneofs_say re_ok sc0 sc orc wf OK V leaf callable (java_field sc ignored) (field_shape sc ignored) (j_field jl sc) (field_says re_ok sc0 sc orc jl ignored checked V) _ d0 d n m F Hin0 Hck Act W A Fr Eg)]].
Qed.
End JavaMsg.

(** ** Unsigned numbers are read as signed ones *)
Lemma unsigned_says k r z z' : top_bit k z = Some z' -> java_num k r -> check_num r = true ->
  says (j_num k r (NI z)) (num_meaning r (NI z')).
Proof.
  intros T J C.
  assert (E : to_java k (NI z) = NI z' /\ (- 2^63 <= z' < 0)%Z /\ is_float k = false).
  { unfold top_bit in T. destruct k; try discriminate;
      match type of T with (if ?b then _ else _) = _ => destruct b eqn:B; [|discriminate] end;
      apply andb_true_iff in B; destruct B as [B1 B2]; apply Z.leb_le in B1; apply Z.ltb_lt in B2;
      injection T as <-; (split; [|split; [lia|reflexivity]]); cbn [to_java]; f_equal; unfold wrap32, wrap64.
    all: match goal with |- (?x mod ?y - ?c)%Z = _ => replace x with ((z - c) + 1 * y)%Z by lia; rewrite Z.mod_add, Z.mod_small; lia end. }
  destruct E as (E & Hz & If).
  assert (S : j_num k r (NI z) = j_num KInt64 r (NI z')) by (unfold j_num; rewrite E; reflexivity).
  rewrite S. apply num_says; auto.
  - split; [cbn; lia|exact I].
  - intros n Hn. destruct (J n Hn) as [K H]. destruct n as [y|f].
    + split; [|exact I]. cbn in K. apply andb_true_iff in K. destruct k; try discriminate If; cbn in *; try lia.
    + cbn in K. rewrite If in K. discriminate.
Qed.
