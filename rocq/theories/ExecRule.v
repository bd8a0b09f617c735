(** Durations, timestamps, embedded messages, and any rule on a single value. *)
From Coq Require Import Lia ZifyBool ZifyN ZifyNat.
From Verif Require Import Base Utf8 Num Rules Types Time Iface Checker GoIR GoGen Regex Known GoSem
  Spec Wt BaseFacts Utf8Facts NumFacts TimeFacts RegexFacts KnownFacts ExecFacts ExecLeaf.

Section Rule.
Variable sc : schema.
Variable orc : oracles.
Variable decls : list (string * pkgvar).
Variable uuidd : bool.
Variable rec : bool -> string -> msgval -> vres.
Variable hs : list callee.
Variable all : bool.
Variable m : msgval.
Variable mn : string.

(** The specification is stated on the schema as written, [sc0]; the code is generated from
    the checked one. *)
Variable sc0 : schema.
Hypothesis same_enums : forall e, find_enum sc e = find_enum sc0 e.
Hypothesis same_methods : forall n,
  option_map md_methods (find_msg sc n) = option_map md_methods (find_msg sc0 n).
Hypothesis orc_ok : oracle_ok orc.

Notation runs := (ExecFacts.runs sc orc decls uuidd rec hs all m mn).
Notation runs_w := (ExecFacts.runs_w sc orc decls uuidd rec hs all m mn).
Notation ctx_ok := (ExecFacts.ctx_ok m mn).
Notation evalc := (eval_cond sc orc decls).
Notation good_ctx := ExecLeaf.good_ctx.
Ltac not_outer := cbn; intuition discriminate.

Notation decl_list := (ExecLeaf.decl_list decls).
Notation decl_durs := (ExecLeaf.decl_durs decls).
Notation decl_re := (ExecLeaf.decl_re decls).

(** ** Durations *)
Lemma runs_duration en c ix r o : good_ctx c -> ctx_ok en c ix (RV (VDur o)) ->
  (forall d, (d_const r = Some d \/ d_lt r = Some d \/ d_lte r = Some d \/ d_gt r = Some d \/
              d_gte r = Some d) -> dur_lit d <> None) ->
  dur_valid r -> decl_durs (lookup c "InLookup") (d_in r) -> decl_durs (lookup c "NotInLookup") (d_not_in r) ->
  runs en (duration_tpl c r) (tagf (cx_field c) ix (dur_reqs r o)).
Proof.
  intros G Hc Hl Hv Hi Hni. unfold duration_tpl.
  assert (Hreq : forall o', ctx_ok en c ix (RV (VDur o')) ->
     runs en (required_tpl c (d_required r)) (tagf (cx_field c) ix (required_reqs (d_required r) o'))).
  { intros o' Hc'. eapply runs_required; [exact Hc'|reflexivity|]. apply is_none_iff. }
  destruct o as [d|].
  - match goal with |- context [if ?b then _ else _] => destruct b eqn:E end.
    + rewrite (dur_reqs_split _ _ E), tagf_app. apply runs_SSeq; [now apply Hreq|].
      eapply runs_bind; [apply (co_acc _ _ _ _ _ _ Hc)|reflexivity| |discriminate]. intros _.
      destruct Hc as [H1 H2 H3].
      eapply runs_try2 with (v := RV (VDur (Some d))) (w := RDur (as_duration d)).
      * apply ix_push; eauto. not_outer.
      * now apply good_err.
      * exact H1.
      * reflexivity.
      * cbn [call]. assert (D := dur_check_spec d). destruct (dur_check d); [right|left].
        -- split; [rewrite <- D; discriminate|eauto].
        -- split; [now apply D|reflexivity].
      * intros V. eapply runs_equiv; [apply dur_checks_valid; exact V|].
        apply runs_durationcmp; auto.
        -- apply ix_push; eauto. not_outer.
        -- now apply as_duration_spec.
      * apply dur_checks_invalid.
    + rewrite (dur_nonempty _ _ E). rewrite <- (app_nil_r (tagf _ _ _)). apply runs_SSeq; [now apply Hreq|].
      apply runs_skip.
  - unfold dur_reqs. rewrite tagf_app. apply runs_SSeq; [now apply Hreq|].
    destruct (_ || _); [|apply runs_skip].
    eapply runs_bind; [apply (co_acc _ _ _ _ _ _ Hc)|reflexivity|discriminate|]. intros _. apply runs_skip.
Qed.

(** ** Timestamps *)
Definition ts_checks (r : timestamp_rules) (t : sn) (g : Prop -> Prop) : list req :=
  when (t_const r) (fun c => want (g (nanos t = nanos c)) [PStr "value must equal "; PTs c])
  ++ match bnd (t_lt r) (t_lte r), bnd (t_gt r) (t_gte r) with
     | None, None => now_reqs orc r (nanos t) g
     | _, _ =>
         [want (g (within_range (fun a b => (nanos a < nanos b)%Z) (fun a b => nanos a = nanos b)
                     (bnd (t_lt r) (t_lte r)) (bnd (t_gt r) (t_gte r)) t))
            (range_reason (fun a b => Z.ltb (nanos a) (nanos b)) PTs
               (bnd (t_lt r) (t_lte r)) (bnd (t_gt r) (t_gte r)))]
     end.

Definition ts_any (r : timestamp_rules) : bool :=
  is_some (t_lt r) || is_some (t_lte r) || is_some (t_gt r) || is_some (t_gte r)
  || is_some (t_lt_now r) || is_some (t_gt_now r) || is_some (t_within r) || is_some (t_const r).

Lemma ts_reqs_none r t : ts_any r = false -> ts_reqs orc r (Some t) = required_reqs (t_required r) (Some t).
Proof.
  unfold ts_any, ts_reqs, now_reqs. destruct (t_lt r), (t_lte r), (t_gt r), (t_gte r), (t_lt_now r), (t_gt_now r), (t_within r), (t_const r);
    cbn; try discriminate. intros _. now rewrite app_nil_r.
Qed.

Lemma ts_reqs_split r t : ts_any r = true ->
  ts_reqs orc r (Some t) = required_reqs (t_required r) (Some t) ++
    want_c (valid_timestamp t) [PStr "value is not a valid timestamp"] :: ts_checks r t (fun p => valid_timestamp t -> p).
Proof.
  intros H. unfold ts_reqs. f_equal. cbv zeta.
  match goal with |- match ?x with [] => _ | _ => _ end = _ => change x with (ts_checks r t (fun p => valid_timestamp t -> p)) end.
  assert (ts_checks r t (fun p => valid_timestamp t -> p) <> []).
  { unfold ts_checks. destruct (t_const r) eqn:E1; [discriminate|].
    destruct (t_lt r) eqn:E2; cbn [bnd when app]; [destruct (t_gt r), (t_gte r); discriminate|].
    destruct (t_lte r) eqn:E3; cbn [bnd when app]; [destruct (t_gt r), (t_gte r); discriminate|].
    destruct (t_gt r) eqn:E4; [discriminate|]. destruct (t_gte r) eqn:E5; [discriminate|].
    unfold ts_any in H. rewrite E1, E2, E3, E4, E5 in H. unfold now_reqs.
    destruct (t_lt_now r), (t_gt_now r), (t_within r); cbn in *; discriminate. }
  destruct (ts_checks r t _) eqn:E; [congruence|reflexivity].
Qed.

Lemma ts_checks_valid r d : valid_timestamp d ->
  Forall2 req_equiv (ts_checks r d (fun p => p)) (ts_checks r d (fun p => valid_timestamp d -> p)).
Proof.
  intros V. unfold ts_checks. apply Forall2_app.
  - destruct (t_const r); constructor; auto. now apply req_equiv_guard.
  - destruct (bnd (t_lt r) (t_lte r)), (bnd (t_gt r) (t_gte r)); try (constructor; auto; now apply req_equiv_guard).
    unfold now_reqs. destruct (t_lt_now r), (t_gt_now r), (t_within r); constructor; auto; now apply req_equiv_guard.
Qed.

Lemma ts_checks_invalid r d : ~ valid_timestamp d ->
  Forall rq_holds (ts_checks r d (fun p => valid_timestamp d -> p)).
Proof.
  intros V. unfold ts_checks. apply Forall_app. split.
  - destruct (t_const r); constructor; auto. now apply req_holds_guard.
  - destruct (bnd (t_lt r) (t_lte r)), (bnd (t_gt r) (t_gte r)); try (constructor; auto; now apply req_holds_guard).
    unfold now_reqs. destruct (t_lt_now r), (t_gt_now r), (t_within r); constructor; auto; now apply req_holds_guard.
Qed.

Definition ts_within_ok (r : timestamp_rules) : Prop :=
  forall d, t_within r = Some d -> dur_lit d = Some (nanos d) /\ (0 < nanos d < 2^63)%Z.

Lemma sub_lt a b : cmp_z OLt (time_sub a b) 0 = (a <? b)%Z.
Proof. apply time_sub_lt. Qed.
Lemma sub_le a b : cmp_z OLe (time_sub a b) 0 = (a <=? b)%Z.
Proof. apply time_sub_le. Qed.
Lemma sub_gt a b : cmp_z OGt (time_sub a b) 0 = (b <? a)%Z.
Proof. apply time_sub_gt. Qed.
Lemma sub_ge a b : cmp_z OGe (time_sub a b) 0 = (b <=? a)%Z.
Proof. apply time_sub_ge. Qed.

Lemma runs_timestampcmp en c ix r t : good_ctx c -> ix_val en (cx_ix c) = Some ix -> cx_msg c = mn ->
  ts_within_ok r ->
  runs (("ts"%string, RTime (nanos t)) :: en) (timestampcmp_tpl c r)
    (tagf (cx_field c) ix (ts_checks r t (fun p => p))).
Proof.
  intros G Hix Hmn Hw. unfold timestampcmp_tpl, ts_checks.
  set (c' := with_acc c (AVar "ts")). set (en1 := ("ts"%string, RTime (nanos t)) :: en).
  rewrite tagf_app. apply runs_SSeq.
  - change (cx_field c) with (cx_field c'). apply runs_opt. intros k Ek.
    assert (Hc : ctx_ok en1 c' ix (RTime (nanos t))).
    { constructor; auto. apply (ix_push en c); auto. not_outer. }
    eapply runs_chk; [exact Hc|reflexivity|]. rewrite negb_false_iff, Z.eqb_eq. reflexivity.
  - set (has_now := is_some (t_lt_now r) || is_some (t_gt_now r) || is_some (t_within r)).
    assert (Hlet : forall s l, runs (push_opt (if has_now then Some tt else None) "now" (fun _ => RTime (o_now orc)) en1) s l ->
       runs en1 (if has_now then SLet "now" RhsNow s else s) l).
    { intros s l H. destruct has_now; cbn [push_opt] in H; [eapply runs_let; [reflexivity|exact H]|exact H]. }
    cbv beta. apply Hlet.
    do 4 (eapply runs_let_opt with (g := fun a => RTime (nanos a)); [reflexivity|]).
    eapply runs_let_opt with (g := fun a => RDur (nanos a)).
    { intros a Ea. cbn. destruct (Hw _ Ea) as [-> _]. reflexivity. }
    set (en2 := push_opt (t_within r) _ _ _).
    assert (Hc : ctx_ok en2 c' ix (RTime (nanos t))).
    { assert (X : ix_val en2 (cx_ix c) = Some ix).
      { unfold en2, en1. destruct (t_lt r), (t_lte r), (t_gt r), (t_gte r), (t_within r), has_now; cbn [push_opt];
          repeat (apply (ix_push _ c); [assumption|not_outer|]); exact Hix. }
      constructor; [exact Hmn| |exact X].
      unfold en2, en1. destruct (t_lt r), (t_lte r), (t_gt r), (t_gte r), (t_within r), has_now; reflexivity. }
    change (cx_field c) with (cx_field c').
    apply runs_range with (v := RTime (nanos t)) (val := nanos).
    + exact Hc.
    + reflexivity.
    + intros op x k Hin. cbn [In] in Hin. cbn [eval_cond].
      assert (E : eval_texp en2 (TLocal x) = Some (nanos k)).
      { cbn [eval_texp]. unfold en2, en1.
        destruct Hin as [E|[E|[E|[E|[]]]]]; injection E; intros Et <-; rewrite Et; cbn [push_opt].
        - destruct (t_lte r), (t_gt r), (t_gte r), (t_within r); reflexivity.
        - destruct (t_lt r), (t_gt r), (t_gte r), (t_within r); reflexivity.
        - destruct (t_lt r), (t_lte r), (t_gte r), (t_within r); reflexivity.
        - destruct (t_lt r), (t_lte r), (t_gt r), (t_within r); reflexivity. }
      rewrite E. f_equal. destruct op; cbn [cmp_z].
      * apply time_sub_lt.
      * apply time_sub_le.
      * apply time_sub_gt.
      * apply time_sub_ge.
      * f_equal. rewrite !Z.eqb_compare, time_sub_sign. reflexivity.
    + intros E1 E2 E3 E4. unfold now_reqs.
      assert (Hnow : has_now = true -> eval_texp en2 (TLocal "now") = Some (o_now orc)).
      { intros H. cbn [eval_texp]. unfold en2, en1. rewrite E1, E2, E3, E4, H. cbn [push_opt]. destruct (t_within r); reflexivity. }
      assert (Hadd : forall w neg, t_within r = Some w ->
        eval_texp en2 (TAdd "now" neg "within") = Some (if neg then o_now orc - nanos w else o_now orc + nanos w)%Z).
      { intros w neg Ew. cbn [eval_texp]. unfold en2, en1, has_now. rewrite E1, E2, E3, E4, Ew.
        replace (is_some (t_lt_now r) || is_some (t_gt_now r) || is_some (Some w)) with true by now rewrite orb_true_r.
        cbn [push_opt assoc String.eqb Ascii.eqb Bool.eqb]. f_equal. destruct neg; auto.
        destruct (Hw _ Ew) as [_ Hb]. rewrite wrap64_id; [lia|]. unfold fits_int64, min_int64, max_int64. lia. }
      assert (Hs : forall op x z, eval_texp en2 x = Some z ->
        evalc en2 (RTime (nanos t)) (CSub op x) = Some (cmp_z op (time_sub (nanos t) z) 0)).
      { intros op x z E. cbn [eval_cond]. now rewrite E. }
      destruct (t_lt_now r) as [ln|] eqn:El; [|destruct (t_gt_now r) as [gn|] eqn:Eg]; destruct (t_within r) as [w|] eqn:Ew;
        try apply runs_skip;
        try (assert (Hwb := proj2 (Hw _ Ew)));
        (eapply runs_chk; [exact Hc| |]);
        try (apply eval_COr);
        try (apply Hs; first [apply Hadd; reflexivity | apply Hnow; reflexivity]);
        rewrite ?sub_lt, ?sub_le, ?sub_gt, ?sub_ge; lia.
Qed.

Lemma runs_timestamp en c ix r o : good_ctx c -> ctx_ok en c ix (RV (VTs o)) -> ts_within_ok r ->
  runs en (timestamp_tpl c r) (tagf (cx_field c) ix (ts_reqs orc r o)).
Proof.
  intros G Hc Hw. unfold timestamp_tpl.
  assert (Hreq : forall o', ctx_ok en c ix (RV (VTs o')) ->
     runs en (required_tpl c (t_required r)) (tagf (cx_field c) ix (required_reqs (t_required r) o'))).
  { intros o' Hc'. eapply runs_required; [exact Hc'|reflexivity|]. apply is_none_iff. }
  fold (ts_any r).
  destruct o as [d|].
  - destruct (ts_any r) eqn:E.
    + rewrite (ts_reqs_split _ _ E), tagf_app. apply runs_SSeq; [now apply Hreq|].
      eapply runs_bind; [apply (co_acc _ _ _ _ _ _ Hc)|reflexivity| |discriminate]. intros _.
      destruct Hc as [H1 H2 H3].
      eapply runs_try2 with (v := RV (VTs (Some d))) (w := RTime (instant d)).
      * apply ix_push; eauto. not_outer.
      * now apply good_err.
      * exact H1.
      * reflexivity.
      * cbn [call]. assert (D := ts_check_spec d). destruct (ts_check d); [right|left].
        -- split; [rewrite <- D; discriminate|eauto].
        -- split; [now apply D|reflexivity].
      * intros V. eapply runs_equiv; [apply ts_checks_valid; exact V|].
        apply runs_timestampcmp; auto. apply ix_push; eauto. not_outer.
      * apply ts_checks_invalid.
    + rewrite (ts_reqs_none _ _ E). rewrite <- (app_nil_r (tagf _ _ _)). apply runs_SSeq; [now apply Hreq|].
      apply runs_skip.
  - unfold ts_reqs. rewrite tagf_app. apply runs_SSeq; [now apply Hreq|].
    destruct (ts_any r); [|apply runs_skip].
    eapply runs_bind; [apply (co_acc _ _ _ _ _ _ Hc)|reflexivity|discriminate|]. intros _. apply runs_skip.
Qed.

(** ** What the checker guarantees *)
Variable re_ok : bytes -> bool.

Definition rule_checked (r0 r : rule_type) : Prop :=
  match r0 with
  | RString s0 => exists s, check_string re_ok s0 = Some s /\ r = RString s
  | RDuration d => check_duration d = true /\ r = r0
  | RTimestamp t => check_timestamp t = true /\ r = r0
  | RRepeated _ | RMap _ => False
  | _ => r = r0
  end.

Lemma check_fr_rule sch (ct : ctype) mr r0 fr :
  (exists e, ct = CElem e \/ ct = CField (FOne e)) ->
  check_fr re_ok sch ct (FR mr (Some r0)) = Some fr ->
  exists r, fr = FR mr (Some r) /\ rule_checked r0 r.
Proof.
  intros (e & Hct) H. destruct r0; cbn in H; unfold guard in H; unfold rule_checked.
  all: try match type of H with (if ?b then _ else _) = _ => destruct b eqn:Eb; [|discriminate] end.
  all: try (inversion H; subst; clear H; eexists; split; [reflexivity|]; auto; fail).
  - destruct (check_string re_ok r) as [r'|] eqn:E; [|discriminate]. inversion H; subst. eauto.
  - destruct Hct; subst ct; discriminate.
  - destruct Hct; subst ct; discriminate.
Qed.

Lemma check_dur_ok_spec o d : check_dur_ok o = true -> o = Some d -> valid_duration d.
Proof. intros H ->. cbn in H. apply dur_check_spec. destruct (dur_check d); [discriminate|reflexivity]. Qed.

Lemma check_duration_valid r : check_duration r = true -> dur_valid r.
Proof.
  unfold check_duration, dur_valid. rewrite !andb_true_iff. intros (((((((H1 & H2) & H3) & H4) & H5) & H6) & H7) & H8).
  assert (F : forall l, forallb (fun d => is_none (dur_check d)) l = true -> Forall valid_duration l).
  { intros l H. apply Forall_forall. intros x Hx. rewrite forallb_forall in H. specialize (H x Hx).
    apply dur_check_spec. destruct (dur_check x); [discriminate|reflexivity]. }
  split; [|split; auto].
  intros d [H|[H|[H|[H|H]]]]; eauto using check_dur_ok_spec.
Qed.

Lemma check_timestamp_within r : check_timestamp r = true -> ts_ok r -> ts_within_ok r.
Proof.
  unfold check_timestamp, ts_ok, ts_within_ok. rewrite !andb_true_iff. intros [_ H] Hok d Ed.
  rewrite Ed in H. specialize (Hok d Ed). apply andb_true_iff in H. destruct H as [H1 H2].
  assert (V : valid_duration d) by (apply dur_check_spec; destruct (dur_check d); [discriminate|reflexivity]).
  rewrite as_duration_spec in H2 by exact V.
  destruct (dur_lit d) as [z|] eqn:E; [|congruence]. apply dur_lit_spec in E. destruct E as (-> & E1 & E2).
  split; [reflexivity|]. lia.
Qed.

Lemma when_refl {A} (o : option A) q : Forall2 req_equiv (when o q) (when o q).
Proof. apply reqs_equiv_refl. Qed.

Lemma check_string_reqs r0 r s : check_string re_ok r0 = Some r ->
  Forall2 req_equiv (str_reqs_chk orc r s) (str_reqs orc r0 s).
Proof.
  unfold check_string, guard. destruct (_ && _); [|discriminate].
  destruct (check_wkr r0) as [r'|] eqn:E; [|discriminate].
  destruct (_ && _); [|discriminate]. intros [= ->].
  unfold check_wkr in E.
  assert (Hpat : Forall2 req_equiv
    (when (s_pattern r) (fun p => want (o_match orc p s = true) [PStr "value does not match regex pattern "; PLit p]))
    (regex_reqs orc r0 s)).
  { unfold regex_reqs. destruct (get_wkr r0) eqn:Eg.
    - injection E as <-. destruct (s_pattern r0); [apply reqs_equiv_refl|].
      unfold get_wkr in Eg. destruct (s_wk r0) as [[]|]; cbn; try constructor. subst k. constructor.
    - unfold get_wkr in Eg. destruct (s_wk r0) as [[]|]; try discriminate. subst k.
      unfold guard in E. destruct (s_pattern r0); [discriminate|]. cbn in E. injection E as <-. cbn [s_pattern set_pattern when].
      assert (N := ok_name _ orc_ok s). assert (L := ok_line _ orc_ok s).
      constructor; [|constructor]. destruct (s_strict r0) as [[]|]; split; cbn; auto.
    - unfold get_wkr in Eg. destruct (s_wk r0) as [[]|]; try discriminate. subst k.
      unfold guard in E. destruct (s_pattern r0); [discriminate|]. cbn in E. injection E as <-. cbn [s_pattern set_pattern when].
      assert (N := ok_value _ orc_ok s). assert (L := ok_line _ orc_ok s).
      constructor; [|constructor]. destruct (s_strict r0) as [[]|]; split; cbn; auto.
    - unfold get_wkr in Eg. destruct (s_wk r0) as [[]|]; try discriminate. subst k.
      unfold guard in E. destruct (s_pattern r0); [discriminate|]. cbn in E. injection E as <-. constructor. }
  assert (Hsame : s_const r = s_const r0 /\ s_len r = s_len r0 /\ s_min_len r = s_min_len r0 /\ s_max_len r = s_max_len r0
    /\ s_len_bytes r = s_len_bytes r0 /\ s_min_bytes r = s_min_bytes r0 /\ s_max_bytes r = s_max_bytes r0
    /\ s_prefix r = s_prefix r0 /\ s_suffix r = s_suffix r0 /\ s_contains r = s_contains r0
    /\ s_not_contains r = s_not_contains r0 /\ s_in r = s_in r0 /\ s_not_in r = s_not_in r0 /\ s_wk r = s_wk r0
    /\ s_ignore_empty r = s_ignore_empty r0).
  { destruct (get_wkr r0); unfold guard in E; try (injection E as <-; repeat split; reflexivity);
      (destruct (is_none (s_pattern r0)); [|discriminate]); injection E as <-; repeat split; reflexivity. }
  unfold str_reqs_chk, str_reqs.
  destruct Hsame as (-> & -> & -> & -> & -> & -> & -> & -> & -> & -> & -> & -> & -> & -> & ->).
  destruct (_ && _); [constructor|].
  repeat (apply Forall2_app; [apply reqs_equiv_refl|]). exact Hpat.
Qed.

(** ** One rule on one value *)
Definition rule_env (c : ctx) (e : etype) (r : rule_type) : Prop :=
  match r with
  | RNum k r => decl_list (lookup c "InLookup") (fun n => VNum (lit_num n)) (n_in r) /\
                decl_list (lookup c "NotInLookup") (fun n => VNum (lit_num n)) (n_not_in r)
  | RString r => needs_ok uuidd hs (s_wk r) /\
                 decl_list (lookup c "InLookup") VStr (s_in r) /\
                 decl_list (lookup c "NotInLookup") VStr (s_not_in r) /\
                 decl_re (lookup c "Pattern") (s_pattern r)
  | RBytes r => decl_list (lookup c "InLookup") VStr (b_in r) /\
                decl_list (lookup c "NotInLookup") VStr (b_not_in r) /\
                decl_re (lookup c "Pattern") (b_pattern r)
  | REnum r => e = TEnum (enum_name (cx_ftype c)) /\
               decl_list (lookup c "InLookup") VEnum (e_in r) /\
               decl_list (lookup c "NotInLookup") VEnum (e_not_in r)
  | RAny r => decl_list (lookup c "InLookup") VStr (a_in r) /\
              decl_list (lookup c "NotInLookup") VStr (a_not_in r)
  | RDuration r => decl_durs (lookup c "InLookup") (d_in r) /\ decl_durs (lookup c "NotInLookup") (d_not_in r)
  | _ => True
  end.

Lemma runs_leaf p wrapped e en c ix v r0 r :
  good_ctx c -> ctx_ok en c ix (RV v) -> wt_elem sc0 e v ->
  rule_checked r0 r -> rule_ok sc p wrapped e r -> rule_env c e r ->
  runs en (leaf_tpl c r) (tagf (cx_field c) ix (rule_reqs orc sc0 e r0 v)).
Proof.
  intros G Hc Hwt Hck Hok Henv. destruct r0; cbn [rule_checked] in Hck; try contradiction.
  - subst r. cbn [rule_ok] in Hok. destruct e; try contradiction. destruct Hok as [<- Hok].
    inversion Hwt; subst. cbn [rule_reqs leaf_tpl]. destruct Hok as (W & L & _), Henv as (E1 & E2).
    eapply runs_num; eauto.
  - subst r. cbn [rule_ok] in Hok. destruct e; try contradiction.
    inversion Hwt; subst. cbn [rule_reqs leaf_tpl]. now apply runs_bool.
  - destruct Hck as (s & Es & ->). cbn [rule_ok] in Hok. destruct e; try contradiction.
    inversion Hwt; subst. cbn [rule_reqs leaf_tpl]. destruct Hok as (L & _), Henv as (E1 & E2 & E3 & E4).
    eapply runs_equiv; [apply check_string_reqs; eauto|]. eapply runs_str; eauto.
  - subst r. cbn [rule_ok] in Hok. destruct e; try contradiction.
    inversion Hwt; subst. cbn [rule_reqs leaf_tpl]. destruct Hok as (L & _), Henv as (E1 & E2 & E3).
    eapply runs_byt; eauto.
  - subst r. cbn [rule_ok] in Hok. destruct e; try contradiction.
    inversion Hwt; subst. cbn [rule_reqs leaf_tpl]. destruct Henv as (E1 & E2 & E3), Hok as (_ & _ & _ & Hf).
    injection E1 as E1. eapply runs_enum; eauto.
  - subst r. cbn [rule_ok] in Hok. destruct e; try contradiction.
    inversion Hwt; subst. cbn [rule_reqs leaf_tpl]. destruct Henv as (E1 & E2). eapply runs_any; eauto.
  - destruct Hck as [Hck ->]. cbn [rule_ok] in Hok. destruct e; try contradiction.
    destruct Hok as (L & _), Henv as (E1 & E2).
    inversion Hwt; subst; cbn [rule_reqs leaf_tpl]; eapply runs_duration; eauto using check_duration_valid.
  - destruct Hck as [Hck ->]. cbn [rule_ok] in Hok. destruct e; try contradiction.
    inversion Hwt; subst; cbn [rule_reqs leaf_tpl]; eapply runs_timestamp; eauto using check_timestamp_within.
Qed.

(** ** Embedded messages *)
Notation emb := (ExecFacts.emb sc rec all).

Definition no_stuck (e : etype) (v : value) : Prop :=
  forall n x, e = TMsg n -> v = VMsg (Some x) -> validated_type sc0 n = true ->
    rec (call_all sc all n) n x <> VStuck.

Lemma runs_message e en c ix v mr :
  good_ctx c -> ctx_ok en c ix (RV v) -> wt_elem sc0 e v -> is_embed e = true ->
  no_stuck e v -> type_ok sc0 e ->
  runs en (message_tpl c e mr) (tagf (cx_field c) ix (message_reqs sc0 emb e mr v)).
Proof.
  intros G Hc Hwt He Hns Hty. unfold message_tpl, message_reqs. rewrite tagf_app. apply runs_SSeq.
  - change (match mr with Some m0 => m_required m0 | None => None end) with
      (match mr with Some m0 => m_required m0 | None => None end).
    replace (required mr) with (getb (match mr with Some m0 => m_required m0 | None => None end)) by (destruct mr; reflexivity).
    inversion Hwt; subst; try discriminate He; (eapply runs_required; [exact Hc|intros _; reflexivity|]); cbn [is_none is_set]; try destruct o; cbn; clear; split; intros; congruence.
  - change (match mr with Some m0 => getb (m_skip m0) | None => false end) with (skipped mr).
    destruct (skipped mr); cbn [negb whenb]; [apply runs_skip|].
    destruct Hc as [H1 H2 H3].
    assert (Hno : embed_call sc rec all e (RV v) = Some VNil -> forall s, runs en (SEmbed (cx_acc c) e s) []).
    { intros E s st. cbn [exec]. rewrite H2, E. apply next_outcome. constructor. }
    inversion Hwt; subst; try discriminate He; cbn [whenb]; try (apply Hno; reflexivity).
    + (* nil *) apply Hno. unfold embed_call, methods_of. cbn in Hty. rewrite same_methods.
      destruct (find_msg sc0 n); cbn; [destruct (md_methods m0); reflexivity|congruence].
    + (* a message *)
      unfold validated_type in *. assert (Hm := same_methods n). rewrite H in *. cbn [option_map] in Hm.
      destruct (find_msg sc n) as [d'|] eqn:Ed; [|discriminate]. injection Hm as Hm.
      destruct (md_methods d) eqn:Em; cbn [whenb].
      3:{ apply Hno. unfold embed_call, methods_of. rewrite Ed. cbn [option_map]. now rewrite Hm. }
      all: specialize (Hns n m0 eq_refl eq_refl); unfold validated_type in Hns; rewrite H, Em in Hns; specialize (Hns eq_refl).
      all: intros st; cbn [exec]; rewrite H2; unfold embed_call, methods_of; rewrite Ed; cbn [option_map]; rewrite Hm.
      all: assert (Ec : call_all sc all n = (all && match md_methods d' with MBoth => true | _ => false end))
             by (unfold call_all; now rewrite Ed).
      all: rewrite Hm in Ec; rewrite <- Ec.
      all: destruct (rec (call_all sc all n) n m0) as [|g|] eqn:Er; [| |congruence].
      1,3: apply next_outcome; constructor; [exact Er|constructor].
      all: eapply fail_outcome; [apply mk_err_cause with (e := g); [apply ix_push; eauto; not_outer|reflexivity]| |].
      1,3: unfold it_holds, emb; cbn; rewrite Er; discriminate.
      all: exists (Some g); split; [exists g; split; [reflexivity|exact Er]|]; reflexivity.
Qed.

(** ** One element *)
Lemma wrap_ok p w r : rule_ok sc p true (wrapped_type w) r -> is_wrappable r = true.
Proof.
  destruct w, r; cbn; intros H; try contradiction; try reflexivity; destruct H as [-> _]; reflexivity.
Qed.
Lemma unwrap_ok p e r : rule_ok sc p false e r -> is_embed e = true -> is_wrappable r = false.
Proof. destruct e; cbn; try discriminate; destruct r; cbn; auto; contradiction. Qed.

Definition elem_env (c : ctx) (e : etype) (fr : field_rules) : Prop :=
  match fr with
  | FR _ (Some r) =>
      match e with TWrap w => rule_env c (wrapped_type w) r | _ => rule_env c e r end
  | _ => True
  end.

Lemma runs_elem p is_key e en c ix v sch ct fr0 fr :
  good_ctx c -> ctx_ok en c ix (RV v) -> wt_elem sc0 e v ->
  ct = CElem e \/ ct = CField (FOne e) ->
  check_fr re_ok sch ct fr0 = Some fr -> elem_ok sc p e fr -> elem_env c e fr ->
  no_stuck e v -> type_ok sc0 e ->
  (p = PTop -> is_key = false /\ cx_ftype c = FOne e /\ cx_ix c = None) ->
  runs en (elem_tpl c is_key e (Some fr)) (tagf (cx_field c) ix (elem_reqs orc sc0 emb e fr0 v)).
Proof.
  intros G Hc Hwt Hct Hck Hok Henv Hns Hty Hp. destruct fr0 as [mr [r0|]].
  - apply check_fr_rule in Hck; [|exists e; tauto]. destruct Hck as (r & -> & Hck). cbn [elem_tpl elem_reqs].
    destruct e as [k| | | |n|n|w| | |];
      try (cbn [elem_ok elem_env] in Hok, Henv; cbn [is_embed]; rewrite andb_false_r; cbn [andb];
           eapply runs_leaf; eauto; fail);
      try (cbn [elem_ok elem_env] in Hok, Henv; rewrite (unwrap_ok _ _ _ Hok eq_refl); cbn [andb];
           eapply runs_leaf; eauto; fail).
    cbn [elem_ok elem_env] in Hok, Henv. destruct Hok as [-> Hok].
    destruct (Hp eq_refl) as (-> & Hf & Hx). rewrite (wrap_ok _ _ _ Hok). cbn [is_embed andb negb].
    unfold wrapper_tpl. rewrite Hf.
    assert (Hc2 := Hc). destruct Hc2 as [H1 H2 H3]. rewrite Hx in H3. cbn in H3. injection H3 as <-.
    inversion Hwt as [| | | | | | |w' E1 E2|w' v' Hv E1 E2| | | | |]; subst w' v.
    + eapply runs_bind with (b := true); [exact H2|reflexivity|discriminate|]. intros _.
      change (match mr with Some m0 => getb (m_required m0) | None => false end) with (required mr).
      destruct (required mr); cbn [whenb]; [|apply runs_skip].
      intros st. cbn [exec]. eapply fail_outcome.
      * apply mk_err_plain. rewrite Hx. reflexivity.
      * unfold it_holds. cbn. auto.
      * exists None. cbn. rewrite H1. auto.
    + eapply runs_bind with (b := false); [exact H2|reflexivity| |discriminate]. intros _.
      set (c' := mkCtx _ _ _ _ _). change (cx_field c) with (cx_field c').
      eapply runs_leaf with (c := c'); eauto.
      * split; cbn; auto.
      * constructor; auto.
      * unfold rule_env in *. unfold c'. rewrite <- Hf in *. exact Henv.
  - cbn in Hck. injection Hck as <-. cbn [elem_tpl elem_reqs].
    destruct (is_embed e) eqn:Ee; [|apply runs_skip]. now apply runs_message.
Qed.
End Rule.
