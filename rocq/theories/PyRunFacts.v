(** Validation in Python agrees with the rules, on the schemas and values of PySpec.v: fields and messages. *)
From Coq Require Import Lia ZifyBool ZifyNat Floats.SpecFloat.
From Verif Require Import Base Utf8 Num Rules Types Time Iface Checker Regex Known GoSem Spec Meaning Conflict Wt LitSpec BaseFacts Utf8Facts NumFacts
  LitFacts TimeFacts RegexFacts HostFacts KnownFacts Utf16Facts ExecFacts ExecRule ExecField ExecMsg Main MeaningFacts ConflictFacts Outcome Values Says LangFacts
  JavaFacts JavaRunFacts CcFacts Py PySpec PyFacts.

(** ** Sources that exist *)
Lemma block_renders {A} (cond : A -> bool) c : renders c -> c <> Some [] -> renders (block cond c).
Proof. intros (l & ->) N. destruct l; [congruence|]. eexists. reflexivity. Qed.
Lemma guarded_renders {A} b (cond : A -> bool) c : renders c -> (b = true -> c <> Some []) -> renders (guarded b cond c).
Proof. intros R N. destruct b; [apply block_renders; auto|exact R]. Qed.
Lemma nothing_renders {A} : @renders A nothing.
Proof. eexists. reflexivity. Qed.
Lemma stmt_renders {A} s : @renders A (stmt s).
Proof. eexists. reflexivity. Qed.

(** The code of rules that are told and blank. *)
Lemma told_false_blank r : told r = false -> blank r.
Proof.
  assert (I : forall A (o : option A), is_some o = false -> o = None) by (intros A []; cbn; congruence).
  assert (L : forall A (l : list A), negb (is_nil l) = false -> l = []) by (intros A []; cbn; congruence).
  destruct r as [k r|c|r|r|r|r|r|r|r|r]; try destruct r; cbn; intros H; rewrite ?orb_false_iff in H;
    repeat match goal with
    | H : _ /\ _ |- _ => destruct H
    | H : is_some _ = false |- _ => apply I in H
    | H : negb (is_nil _) = false |- _ => apply L in H end; subst; reflexivity.
Qed.
Lemma told_blank r : told r = false <-> blank r.
Proof.
  split; [apply told_false_blank|].
  destruct r; cbn [blank]; intros ->; reflexivity.
Qed.
Lemma not_blank_told r : ~ blank r -> told r = true.
Proof. intros H. destruct (told r) eqn:E; auto. apply told_blank in E. contradiction. Qed.

Definition scalar_rule (r : rule_type) : Prop :=
  match r with RNum _ _ | RBool _ | RString _ | RBytes _ | REnum _ => True | _ => False end.

Section Render.
Variable pl : py_libs.
Variable sc : schema.

Lemma py_pattern_renders r : renders (py_pattern pl r).
Proof. unfold py_pattern. destruct (s_wk r) as [[b|b|b|b|b|b|b|b|b|[]]|]; try apply text_renders; apply stmt_renders. Qed.
Lemma py_wk_renders w : renders (py_well_known pl w).
Proof. destruct w as [b|b|b|b|b|b|b|b|b|k]; try destruct b; eexists; reflexivity. Qed.

Lemma py_num_renders k r : ~ (ignoring (RNum k r) /\ idle (RNum k r)) -> renders (py_num r).
Proof.
  intros N. apply guarded_renders.
  - apply seq_renders. repeat constructor; [apply set_renders|apply list_renders|apply list_renders|apply bounds_renders].
  - intros Gi E. apply N. split; [cbn; destruct (n_ignore_empty r); cbn in Gi; congruence|].
    assert (X : py_num (mkNumRules (n_const r) (n_lt r) (n_lte r) (n_gt r) (n_gte r) (n_in r) (n_not_in r) None) = Some []) by exact E.
    apply py_num_body_empty in X. exact X.
Qed.
Lemma py_string_renders r : ~ (ignoring (RString r) /\ idle (RString r)) -> renders (py_string pl r).
Proof.
  intros N. apply guarded_renders.
  - apply seq_renders.
    repeat (apply Forall_cons; [first [apply set_renders|apply list_renders|apply size_renders|apply py_pattern_renders|apply text_renders|idtac]|]); [|constructor].
    destruct (s_wk r); [apply py_wk_renders|apply nothing_renders].
  - intros Gi E. apply N. split; [cbn; destruct (s_ignore_empty r) as [[]|]; cbn in Gi; congruence|].
    assert (X : py_string pl (mkStringRules (s_const r) (s_len r) (s_min_len r) (s_max_len r) (s_len_bytes r) (s_min_bytes r) (s_max_bytes r)
      (s_pattern r) (s_prefix r) (s_suffix r) (s_contains r) (s_not_contains r) (s_in r) (s_not_in r) (s_wk r) (s_strict r) None) = Some []) by exact E.
    exact (py_str_body_empty _ _ X).
Qed.
Lemma py_bytes_renders r : ~ (ignoring (RBytes r) /\ idle (RBytes r)) -> renders (py_bytes pl r).
Proof.
  intros N. apply guarded_renders.
  - apply seq_renders.
    repeat (apply Forall_cons; [first [apply set_renders|apply list_renders|apply size_renders|apply text_renders|idtac]|]); [|constructor].
    destruct (b_wk r) as [[b|b|b]|]; try destruct b; eexists; reflexivity.
  - intros Gi E. apply N. split; [cbn; destruct (b_ignore_empty r) as [[]|]; cbn in Gi; congruence|].
    assert (X : py_bytes pl (mkBytesRules (b_const r) (b_len r) (b_min_len r) (b_max_len r)
      (b_pattern r) (b_prefix r) (b_suffix r) (b_contains r) (b_in r) (b_not_in r) (b_wk r) None) = Some []) by exact E.
    exact (py_byt_body_empty _ _ X).
Qed.
Lemma py_enum_renders e r : renders (py_enum sc e r).
Proof.
  apply seq_renders. repeat constructor; [|apply list_renders|apply list_renders|apply when_renders].
  destruct (e_const r); [apply when_renders|apply nothing_renders].
Qed.
Lemma py_enum_body_empty e r : py_enum sc e r = Some [] -> idle (REnum r).
Proof.
  intros H. apply seq_empty in H. rewrite !Forall_cons_iff in H. destruct H as (H1 & H2 & H3 & H4 & _).
  apply list_empty in H2, H3. apply when_empty in H4. cbn. repeat split; auto.
  - destruct (e_const r) as [c|]; auto. apply when_empty in H1. right. f_equal. apply negb_false_iff in H1. now apply Z.eqb_eq.
  - intros E. rewrite E in H4. discriminate.
Qed.

Lemma py_scalar_renders e r : ~ (ignoring r /\ idle r) -> renders (py_scalar pl sc e r).
Proof.
  intros N. destruct r; cbn [py_scalar]; try apply stmt_renders; apply about_renders.
  - eapply py_num_renders; eauto.
  - now apply py_string_renders.
  - now apply py_bytes_renders.
  - apply py_enum_renders.
Qed.
Lemma py_scalar_empty e r : py_scalar pl sc e r = Some [] -> idle r.
Proof.
  destruct r; cbn [py_scalar]; try discriminate; intros H; apply about_empty in H.
  - apply py_num_body_empty in H. exact H.
  - eapply py_str_body_empty; eauto.
  - eapply py_byt_body_empty; eauto.
  - eapply py_enum_body_empty; eauto.
Qed.

Lemma py_any_renders elem r : renders (py_any elem r).
Proof.
  apply seq_renders. repeat constructor; [apply when_renders|destruct (a_in r)|destruct (a_not_in r)]; eexists; reflexivity.
Qed.
Lemma py_duration_renders elem r : dur_apart (RDuration r) -> renders (py_duration elem r).
Proof.
  intros Ap. unfold py_duration. rewrite (apart_glued r Ap).
  apply seq_renders. repeat constructor; [apply when_renders|]. apply block_renders.
  - apply about_renders, seq_renders. repeat constructor; [eexists; reflexivity|apply set_renders|apply list_renders|apply list_renders|apply bounds_renders].
  - intros E. apply about_empty, seq_empty in E. inversion E. discriminate.
Qed.
Lemma py_timestamp_renders elem r : renders (py_timestamp pl elem r).
Proof.
  apply seq_renders. repeat constructor; [apply when_renders|]. apply block_renders.
  - apply about_renders, seq_renders. repeat constructor; [eexists; reflexivity|apply set_renders|].
    destruct (_ || _); [apply bounds_renders|apply now_renders].
  - intros E. apply about_empty, seq_empty in E. inversion E. discriminate.
Qed.

Variable emb : string -> msgval -> outcome.
Lemma py_message_renders elem e mr : renders (py_message emb elem e mr).
Proof.
  apply seq_renders. repeat constructor; [apply when_renders|]. destruct (match mr with Some m => _ | None => _ end); [apply nothing_renders|].
  apply block_renders; [apply stmt_renders|discriminate].
Qed.
Lemma py_wrapper_renders e mr r : ~ idle r -> renders (py_wrapper pl sc e mr r).
Proof.
  intros N. unfold py_wrapper. destruct (py_scalar_renders (match e with TWrap w => wrapped_type w | _ => e end) r) as (l & E); [tauto|].
  rewrite E. destruct l; [|eexists; reflexivity]. apply py_scalar_empty in E. contradiction.
Qed.

Lemma inline_scalar e r : ~ text_ignoring r -> py_inline pl sc e r = py_scalar pl sc e r.
Proof. intros T. unfold py_inline. destruct r; try reflexivity. cbn in *. destruct (s_ignore_empty r) as [[]|]; try reflexivity. now elim T. Qed.
Lemma py_switcher_renders e o : py_inner_shape e (inner o) -> renders (py_switcher pl sc emb e o).
Proof.
  destruct o as [[mr [r|]]|]; cbn [inner py_inner_shape py_switcher]; [|intros _|intros _; apply nothing_renders].
  - intros (Ft & -> & N & Ti & Ap). cbn [told_message].
    destruct r; try (destruct (told _); [|apply nothing_renders]); try apply nothing_renders.
    1-4: rewrite inline_scalar by assumption; now apply py_scalar_renders.
    + apply py_any_renders.
    + now apply py_duration_renders.
    + apply py_timestamp_renders.
  - destruct (told_message mr); [apply py_message_renders|apply nothing_renders].
Qed.
Lemma py_keys_renders e o : py_inner_shape e (inner o) -> renders (py_keys pl sc e o).
Proof.
  destruct o as [[mr [r|]]|]; cbn [inner py_inner_shape py_keys]; try (intros _; apply nothing_renders).
  intros (Ft & -> & N & Ti & _). destruct r as [k r|c|r|r|r|r|r|r|r|r]; try apply nothing_renders; try (destruct k; try apply nothing_renders);
    (destruct (told _); [rewrite inline_scalar by assumption; now apply py_scalar_renders|apply nothing_renders]).
Qed.

Lemma told_inner o : told_rules o = false <-> inner o = no_rules.
Proof. unfold no_rules. destruct o as [[[m|] [r|]]|]; cbn; split; intros H; try reflexivity; discriminate. Qed.

Lemma py_repeated_renders e r :
  (r_ignore_empty r = Some true ->
     ~ (no_size (r_min r) /\ no_size (r_max r) /\ r_unique r <> Some true /\ is_embed e = false /\ inner (r_items r) = no_rules)) ->
  py_inner_shape e (inner (r_items r)) -> renders (py_repeated pl sc emb e r).
Proof.
  intros N S. apply about_renders, guarded_renders.
  - apply seq_renders. repeat constructor; [apply size_renders|apply size_renders|apply when_renders|apply when_renders|].
    destruct (told_rules _); [|apply nothing_renders]. destruct (py_switcher_renders e (r_items r) S) as (c & ->). apply stmt_renders.
  - intros G E. apply getb_true in G. apply (N G). apply seq_empty in E. rewrite !Forall_cons_iff in E. destruct E as (E1 & E2 & E3 & E4 & E5 & _).
    apply size_empty in E1, E2. apply when_empty in E3, E4. split; [exact E1|split; [exact E2|split; [|split; [exact E4|]]]].
    + intros Q. rewrite Q in E3. discriminate.
    + apply told_inner. destruct (told_rules _); auto. destruct (py_switcher _ _ _ _ _); discriminate.
Qed.
Lemma py_map_renders k w r :
  (p_ignore_empty r = Some true ->
     ~ (no_size (p_min r) /\ no_size (p_max r) /\ is_embed w = false /\ inner (p_keys r) = no_rules /\ inner (p_values r) = no_rules)) ->
  py_inner_shape k (inner (p_keys r)) -> py_inner_shape w (inner (p_values r)) -> renders (py_map pl sc emb k w r).
Proof.
  intros N S1 S2. apply about_renders, guarded_renders.
  - apply seq_renders. repeat constructor; [apply size_renders|apply size_renders|].
    destruct (_ || _); [|apply when_renders]. destruct (py_keys_renders k (p_keys r) S1) as (c & ->), (py_switcher_renders w (p_values r) S2) as (c' & ->). apply stmt_renders.
  - intros G E. apply getb_true in G. apply (N G). apply seq_empty in E. rewrite !Forall_cons_iff in E. destruct E as (E1 & E2 & E3 & _).
    apply size_empty in E1, E2. rewrite <- !told_inner.
    destruct (told_rules (p_keys r) || told_rules (p_values r)) eqn:T.
    + exfalso. destruct (py_keys _ _ _ _); [destruct (py_switcher _ _ _ _ _)|]; discriminate.
    + apply orb_false_iff in T. apply when_empty in E3. tauto.
Qed.

Variable pn : py_names.
Lemma py_entries_renders m : renders (py_entries sc m).
Proof.
  unfold py_entries. destruct (find_msg sc m) as [d|]; [|apply nothing_renders]. destruct (md_fields d) as [|a [|b [|c t]]]; try apply nothing_renders. apply when_renders.
Qed.

Lemma py_field_renders n f : py_shape f -> renders (py_field pl sc emb pn n f).
Proof.
  unfold py_shape, py_field. destruct (f_rules f) as [mr typ].
  destruct mr as [mr|], typ as [r|]; cbn [is_some orb negb].
  - destruct (f_type f) as [[]| |]; try contradiction. intros (Ft & B & N). cbn [fields_embed is_embed].
    assert (Wr : wrapper_rule r = true) by (destruct w, r as [[]|[]|r|r|r|r|r|r|r|r]; cbn in Ft; try contradiction; try discriminate; reflexivity).
    destruct r; try discriminate; rewrite Wr, (not_blank_told _ B); cbn [andb]; now apply py_wrapper_renders.
  - intros S. destruct (f_type f) as [e| |]; try contradiction.
    assert (T : told_message (Some mr) = true) by (destruct e; (destruct S as [S|S]; cbn; [destruct (m_skip mr)|destruct (m_required mr)]; cbn; try congruence; apply orb_true_r)).
    rewrite T. destruct (fields_embed _); apply py_message_renders.
  - destruct (f_type f) as [e|e|k w].
    + destruct e as [k| | | |s|m|w| | |]; (intros (Ft & B & N); try (destruct N as [N Ap]); assert (T := not_blank_told _ B); cbn [fields_embed is_embed]).
      1-6: destruct r; cbn in Ft; try contradiction; cbn [told_message]; rewrite T; now apply py_scalar_renders.
      * assert (Wr : wrapper_rule r = true) by (destruct w, r as [[]|[]|r|r|r|r|r|r|r|r]; cbn in Ft; try contradiction; try discriminate; reflexivity).
        destruct r; try discriminate; rewrite Wr, T; cbn [andb]; now apply py_wrapper_renders.
      * destruct r; cbn in Ft; try contradiction. cbn [wrapper_rule andb told_message]. rewrite T. apply py_any_renders.
      * destruct r; cbn in Ft; try contradiction. rewrite T. now apply py_duration_renders.
      * destruct r; cbn in Ft; try contradiction. rewrite T. apply py_timestamp_renders.
    + destruct r; try contradiction. intros (B & N & S). rewrite (not_blank_told _ B). cbn [fields_embed wrapper_rule andb told_message].
      assert (R := py_repeated_renders e r N S). destruct (is_embed e); exact R.
    + destruct r; try contradiction. intros (B & N & S & S2). rewrite (not_blank_told _ B). cbn [fields_embed wrapper_rule andb told_message].
      now apply py_map_renders.
  - intros _. destruct (f_type f) as [[]|[]|k w]; try apply nothing_renders.
    + destruct (google _ _); [apply nothing_renders|apply py_message_renders].
    + destruct (google _ _); [apply nothing_renders|]. destruct (pn_entry _ _); [apply py_entries_renders|]. apply py_repeated_renders; [discriminate|exact I].
    + destruct (google _ _); [apply nothing_renders|]. apply py_map_renders; try exact I. discriminate.
Qed.
End Render.

(** ** What it says *)
Lemma blank_flat orc sc0 e r v : fits e r -> wt_elem sc0 e v -> blank r -> rule_flat orc sc0 e r v.
Proof.
  intros Ft W B. assert (Ln : forall A (P : A -> Prop), listed P [] []) by (intros A P; split; [congruence|now rewrite Exists_nil]).
  destruct r; destruct e; try contradiction; inversion W; subst; cbn [blank] in B; subst; cbn [rule_flat rule_meaning];
    unfold num_meaning, str_flat, byt_meaning, enum_meaning, any_meaning, dur_meaning, ts_meaning.
  - right. cbn. split; [discriminate|]. split; [right; exact I|apply Ln].
  - discriminate.
  - right. cbn. repeat (split; [first [discriminate|apply Ln]|]). discriminate.
  - right. cbn. repeat (split; [first [discriminate|apply Ln]|]). discriminate.
  - cbn. repeat (split; [first [discriminate|apply Ln]|]). discriminate.
  - cbn. split; [discriminate|]. intros u _. apply Ln.
  - cbn. split; discriminate.
  - cbn. split; [discriminate|]. intros u _ C. exfalso. unfold dur_constrained in C. cbn in C. clear - C. tauto.
  - cbn. split; discriminate.
  - cbn. split; [discriminate|]. intros u _ C. exfalso. unfold ts_constrained in C. cbn in C. clear - C. tauto.
Qed.

Lemma sayc_each {A} (c : code A) l P : renders c -> (forall x, In x l -> sayc c x (P x)) ->
  sayc (match c with Some c => stmt (for_each c) | None => None end) l (forall x, In x l -> P x).
Proof.
  intros (k & ->) H. apply sayc_stmt. apply says_map. intros x Ix. destruct (H x Ix) as (k' & [= <-] & S). exact S.
Qed.

Lemma py_unique_says (G : value -> Prop) l : forall seen,
  (forall x, G x -> py_hashable x = true) -> (forall x y, G x -> G y -> py_same x y = true <-> same_item x y) ->
  (forall x, In x seen \/ In x l -> G x) ->
  says (py_unique seen l)
    (forall j y, nth_error l j = Some y ->
        (forall x, In x seen -> ~ same_item y x) /\ (forall i x, i < j -> nth_error l i = Some x -> ~ same_item y x)).
Proof.
  induction l as [|a t IH]; intros seen Hh Q Hg; cbn [py_unique].
  - left. split; auto. intros [|j] y; discriminate.
  - rewrite Hh by (apply Hg; right; left; auto).
    destruct (existsb (py_same a) seen) eqn:E.
    + right. split; auto. intros H. apply existsb_exists in E. destruct E as (x & Ix & K). apply (proj1 (H 0 a eq_refl) x Ix). apply Q; auto.
      apply Hg. right. left. auto.
    + assert (K' : forall x, In x seen -> ~ same_item a x).
      { intros x Ix S. rewrite <- not_true_iff_false, existsb_exists in E. apply E. exists x. split; auto. apply Q; auto. apply Hg. right. left. auto. }
      eapply says_iff; [|apply (IH (a :: seen)); auto; cbn; intros x [[<-|]|]; apply Hg; cbn; auto].
      split.
      * intros H [|j] y Hy; cbn in Hy.
        -- injection Hy as <-. split; [auto|]. intros i x Hi. lia.
        -- destruct (H j y Hy) as [C1 C2]. split; [intros x Ix; apply C1; right; auto|].
           intros [|i] x Hi Hx; cbn in Hx; [injection Hx as <-; apply C1; left; auto|]. apply (C2 i x); auto. lia.
      * intros A j y Hy. destruct (A (S j) y Hy) as [A1 A2]. split.
        -- intros x [<-|Ix]; auto. apply (A2 0 a); auto. lia.
        -- intros i x Hi Hx. apply (A2 (S i) x); auto. lia.
Qed.

Section Says.
Variable sc0 sc : schema.
Variable orc : oracles.
Variable pl : py_libs.
Variable pn : py_names.
Hypothesis OK : oracle_ok orc.
Hypothesis hex : forall h, List.length h = 32 -> Forall hexdig h -> pl_int16 pl h = true.
Variable V : string -> msgval -> Prop.
Notation leaf := (py_value pl orc).
Notation callable := (fun _ : string => True).
Notation emb_good := (emb_ok sc0 sc V leaf callable).

Lemma py_scalar_says e r v : scalar_rule r -> fits e r -> ~ blank r -> ~ (ignoring r /\ idle r) -> py_rule_ok r -> sane r -> wt_elem sc0 e v ->
  py_ruled pl orc r v -> sayc (py_scalar pl sc0 e r) v (rule_flat orc sc0 e r v).
Proof.
  intros Sc Ft B N J S W R. destruct r; try contradiction; destruct e; try contradiction; inversion W; subst; cbn [py_scalar rule_flat rule_meaning].
  - cbn in Ft. subst. eapply sayc_about; [reflexivity|]. eapply py_num_says; eauto.
  - eapply sayc_about; [reflexivity|]. apply py_bool_says. exact B.
  - destruct S as (S1 & S2 & S3 & S4). eapply sayc_about; [reflexivity|]. eapply py_string_says; eauto.
  - eapply sayc_about; [reflexivity|]. eapply py_bytes_says; eauto.
  - eapply sayc_about; [reflexivity|]. eapply py_enum_says; eauto.
Qed.

Definition not_required (r : rule_type) : Prop :=
  match r with
  | RAny r => a_required r <> Some true
  | RDuration r => d_required r <> Some true
  | RTimestamp r => t_required r <> Some true
  | _ => True
  end.

Definition py_typed (elem : bool) (e : etype) (r : rule_type) : code value :=
  match r with
  | RAny r => py_any elem r
  | RDuration r => py_duration elem r
  | RTimestamp r => py_timestamp pl elem r
  | _ => py_scalar pl sc0 e r
  end.

Lemma py_typed_says elem e r v : fits e r -> ~ blank r -> ~ (ignoring r /\ idle r) -> dur_apart r -> py_rule_ok r -> sane r -> wt_elem sc0 e v ->
  (elem = true -> is_set v /\ not_required r) -> py_ruled pl orc r v -> sayc (py_typed elem e r) v (rule_flat orc sc0 e r v).
Proof.
  intros Ft B N Ap J S W H R.
  destruct r; try (apply py_scalar_says; auto; exact I; fail); destruct e; try contradiction; inversion W; subst; cbn [py_typed rule_flat rule_meaning].
  - apply py_any_says; auto. intros u ->. exact R.
  - apply py_duration_says; auto. discriminate.
  - apply py_duration_says; auto. intros x [= <-]. exact R.
  - apply py_timestamp_says; auto.
  - apply py_timestamp_says; auto.
Qed.

(** Rules of items and of the values of maps. *)
Lemma py_switcher_says emb e o v : py_inner_shape e (inner o) -> py_inner_ok (inner o) -> sane_fr (inner o) -> wt_elem sc0 e v -> is_set v ->
  (forall mr r, inner o = FR mr (Some r) -> py_ruled pl orc r v) ->
  sayc (py_switcher pl sc0 emb e o) v (match inner o with FR _ (Some r) => rule_flat orc sc0 e r v | _ => True end).
Proof.
  intros Sh J S W Hv R. destruct o as [[mr [r|]]|]; [| |apply sayc_nothing; exact I]; cbn [inner py_inner_shape py_inner_ok sane_fr] in *.
  - destruct Sh as (Ft & -> & N & Ti & Ap), J as (J & Jr). specialize (R None r eq_refl).
    destruct (told r) eqn:T.
    + assert (B : ~ blank r) by (intros B; apply told_blank in B; congruence).
      assert (K := py_typed_says true e r v Ft B N Ap J S W). cbn [py_switcher told_message].
      destruct r; try contradiction; rewrite T; cbn [py_typed not_required] in K; rewrite ?inline_scalar by assumption; apply K; auto.
    + assert (B := proj1 (told_blank r) T). assert (F := blank_flat orc sc0 e r v Ft W B). cbn [py_switcher told_message].
      destruct r; try contradiction; rewrite T; now apply sayc_nothing.
  - cbn [py_switcher]. destruct mr as [mr|]; [|now apply sayc_nothing].
    destruct J as [J1 J2]. unfold told_message. rewrite J1. cbn [is_some orb]. unfold py_message. rewrite J1. cbn [getb].
    eapply sayc_iff; [|apply sayc_cons; [apply required_says; auto|apply sayc_last, sayc_nothing; exact I]].
    split; auto.
Qed.
Lemma py_keys_says e o v : map_key e = true -> py_inner_shape e (inner o) -> py_inner_ok (inner o) -> sane_fr (inner o) -> wt_elem sc0 e v ->
  (forall mr r, inner o = FR mr (Some r) -> py_ruled pl orc r v) ->
  sayc (py_keys pl sc0 e o) v (elem_flat orc sc0 V e (inner o) v).
Proof.
  intros Mk Sh J S W R. assert (Em : is_embed e = false) by (destruct e; auto; discriminate).
  destruct o as [[mr [r|]]|]; try (apply sayc_nothing; cbn; congruence). cbn [inner py_inner_shape py_inner_ok sane_fr] in *.
  destruct Sh as (Ft & -> & N & Ti & _), J as (J & Jr). specialize (R None r eq_refl).
  assert (Fl : elem_flat orc sc0 V e (FR None (Some r)) v <-> rule_flat orc sc0 e r v) by (destruct e; try discriminate; reflexivity).
  eapply sayc_iff; [symmetry; exact Fl|].
  assert (Sc : scalar_rule r) by (destruct r, e; cbn in *; try contradiction; try discriminate; exact I).
  destruct (told r) eqn:T.
  - assert (B : ~ blank r) by (intros B; apply told_blank in B; congruence).
    assert (K := py_scalar_says e r v Sc Ft B N J S W R). cbn [py_keys].
    destruct r as [k r|c|r|r|r|r|r|r|r|r]; try contradiction; try (rewrite T, inline_scalar by assumption; exact K); [|destruct e; discriminate || contradiction].
    destruct k; try (rewrite T, inline_scalar by assumption; exact K); destruct e; try contradiction; cbn in Ft; subst; discriminate.
  - assert (B := proj1 (told_blank r) T). assert (F := blank_flat orc sc0 e r v Ft W B). cbn [py_keys].
    destruct r as [k r|c|r|r|r|r|r|r|r|r]; try contradiction; try (rewrite T; now apply sayc_nothing); [|now apply sayc_nothing].
    destruct k; try (rewrite T; now apply sayc_nothing); now apply sayc_nothing.
Qed.

(** Embedded messages. *)
Lemma py_embedded_says emb inside u e mr v : skipped mr = false -> wt_elem sc0 e v -> all_elem sc leaf inside u e (FR mr None) v -> emb_good emb (vheight v) ->
  says (py_embedded emb e v) (forall n m, e = TMsg n -> v = VMsg (Some m) -> validated_type sc0 n = true -> V n m).
Proof.
  intros Es W A E. inversion A as [b' u' e' fr' v' L D X1 X2 X3 X4 X5]. subst b' u' e' fr' v'. clear A.
  unfold py_embedded. destruct e; try (left; split; auto; intros n9 m9 K; discriminate K).
  inversion W; subst; [left; split; auto; discriminate|].
  assert (Df : descends (FR mr None)) by (destruct mr as [mr|]; cbn in *; auto; intros Q; rewrite Q in Es; discriminate).
  eapply says_iff; [|eapply E; eauto].
  split; [intros Q n9 m9 [= <-] [= <-]; exact Q|intros Q; apply Q; auto].
Qed.
Lemma py_items_says emb u e o v : py_inner_shape e (inner o) -> py_inner_ok (inner o) -> wt_elem sc0 e v -> all_elem sc leaf true u e (inner o) v ->
  emb_good emb (vheight v) ->
  says (if items_skip o then Passes else py_embedded emb e v) (match inner o with FR _ (Some _) => True | fr => elem_flat orc sc0 V e fr v end).
Proof.
  intros Sh J W A E. destruct o as [[mr [r|]]|]; cbn [inner py_inner_shape py_inner_ok items_skip] in *.
  - destruct Sh as (Ft & -> & _). left. split; auto. destruct r, e; try contradiction; reflexivity.
  - destruct mr as [mr|].
    + destruct J as [J1 J2]. rewrite J1. left. split; auto. cbn. unfold required, skipped. rewrite J1. intros _. split; [|discriminate].
      intros Q. apply getb_true in Q. contradiction.
    + eapply says_iff; [|eapply (py_embedded_says emb true u e None); eauto]. cbn. split; [intros H _; split; [discriminate|auto]|].
      intros H n m -> Hv. apply (H eq_refl); auto.
  - eapply says_iff; [|eapply (py_embedded_says emb true u e None); eauto]. cbn. split; [intros H _; split; [discriminate|auto]|].
    intros H n m -> Hv. apply (H eq_refl); auto.
Qed.
Lemma elem_inside e o v : py_inner_shape e (inner o) ->
  elem_flat orc sc0 V e (inner o) v <->
  (is_embed e = true -> match inner o with FR _ (Some _) => True | fr => elem_flat orc sc0 V e fr v end) /\
  (told_rules o = true -> match inner o with FR _ (Some r) => rule_flat orc sc0 e r v | _ => True end).
Proof using. clear.
  destruct o as [[mr [r|]]|]; cbn [inner py_inner_shape]; intros Sh.
  - assert (T : told_rules (Some (FR mr (Some r))) = true) by (cbn; apply orb_true_r). rewrite T.
    assert (Fl : elem_flat orc sc0 V e (FR mr (Some r)) v <-> rule_flat orc sc0 e r v) by (destruct Sh as (Ft & _); destruct r, e; try contradiction; reflexivity).
    rewrite Fl. tauto.
  - cbn [elem_flat]. tauto.
  - cbn [elem_flat no_rules]. tauto.
Qed.

Lemma len_ge_says {A} n (l : list A) : says (len_ge n l) (n <= N.of_nat (List.length l))%N.
Proof using. apply says_unless. rewrite negb_true_iff. lia. Qed.
Lemma len_le_says {A} n (l : list A) : says (len_le n l) (N.of_nat (List.length l) <= n)%N.
Proof using. apply says_unless. rewrite negb_true_iff. lia. Qed.

Lemma py_same_iff e x y : is_embed e = false -> wt_elem sc0 e x -> wt_elem sc0 e y ->
  (forall s, x = VStr s -> valid_utf8 s) -> (forall s, y = VStr s -> valid_utf8 s) -> py_same x y = true <-> same_item x y.
Proof using. clear.
  intros He Wx Wy Vx Vy. destruct e; try discriminate; inversion Wx; subst; inversion Wy; subst; cbn [py_same same_item].
  - apply num_eqb_spec.
  - rewrite Bool.eqb_true_iff. split; congruence.
  - unfold pystr. rewrite runes_eqb by auto. split; congruence.
  - rewrite bytes_eqb_eq. split; congruence.
  - rewrite Z.eqb_eq. split; congruence.
Qed.

Lemma all_leaf inside u e fr v : all_elem sc leaf inside u e fr v -> leaf inside u e fr v.
Proof using. clear. intros A. now destruct A. Qed.
Lemma leaf_ruled u e fr v : leaf true u e fr v -> match fr with FR _ (Some r) => fits e r | _ => True end -> wt_elem sc0 e v ->
  forall mr r, fr = FR mr (Some r) -> py_ruled pl orc r v.
Proof using. clear.
  intros (_ & _ & L) Ft W mr r ->. specialize (L mr r eq_refl). destruct v; auto. inversion W; subst; destruct r; contradiction.
Qed.

Lemma py_rep_says emb e r l :
  (r_ignore_empty r = Some true ->
     ~ (no_size (r_min r) /\ no_size (r_max r) /\ r_unique r <> Some true /\ is_embed e = false /\ inner (r_items r) = no_rules)) ->
  py_inner_shape e (inner (r_items r)) -> r_max r <> Some 0%N -> (r_unique r = Some true -> is_embed e = false) -> py_inner_ok (inner (r_items r)) ->
  sane_fr (inner (r_items r)) -> Forall (wt_elem sc0 e) l ->
  (forall x, In x l -> all_elem sc leaf true (match r_unique r with Some true => true | _ => false end) e (inner (r_items r)) x) ->
  emb_good emb (list_max (map vheight l)) ->
  sayc (py_repeated pl sc0 emb e r) (VList l) (rep_flat orc sc0 V e r l).
Proof.
  intros NI Sh Mx U J S W A E. rewrite Forall_forall in W. unfold py_repeated, rep_flat. eapply sayc_about; [reflexivity|].
  assert (Rd := py_switcher_renders pl sc0 emb e (r_items r) Sh).
  eapply sayc_iff; [|apply sayc_guarded].
  { rewrite negb_false_iff, is_nil_true, getb_true. apply or_iff_compat_l. reflexivity. }
  { intros G Q. apply getb_true in G. apply (NI G). apply seq_empty in Q. rewrite !Forall_cons_iff in Q. destruct Q as (E1 & E2 & E3 & E4 & E5 & _).
    apply size_empty in E1, E2. apply when_empty in E3, E4. split; [exact E1|split; [exact E2|split; [|split; [exact E4|]]]].
    + intros K. rewrite K in E3. discriminate.
    + apply told_inner. destruct (told_rules _); auto. destruct Rd as (c & Q). rewrite Q in E5. discriminate. }
  eapply sayc_iff; cycle 1.
  { apply sayc_cons; [apply (sayc_size _ _ l (fun n => n <= N.of_nat (List.length l))%N); [intros _; lia|intros b _; apply len_ge_says]|].
    apply sayc_cons; [apply (sayc_size _ _ l (fun n => N.of_nat (List.length l) <= n)%N); [intros K; contradiction|intros b _; apply len_le_says]|].
    apply sayc_cons; [apply sayc_when; intros Hu; apply getb_true in Hu; apply (py_unique_says (fun x => wt_elem sc0 e x /\ forall s, x = VStr s -> valid_utf8 s))|].
    - intros x [Wx _]. specialize (U Hu). destruct e; try discriminate; inversion Wx; reflexivity.
    - intros x y [Wx Vx] [Wy Vy]. apply (py_same_iff e); auto.
    - intros x [[]|I]. split; auto. specialize (A x I). apply all_leaf in A. rewrite Hu in A. destruct A as (_ & A & _). eauto.
    - apply sayc_cons.
      + apply sayc_when. intros _. apply (says_map _ (fun x => match inner (r_items r) with FR _ (Some _) => True | fr => elem_flat orc sc0 V e fr x end)).
        intros x I. rewrite run_one. eapply py_items_says; eauto. eapply emb_le; [|exact E]. now apply list_height.
      + apply sayc_last. instantiate (1 := told_rules (r_items r) = true -> forall x, In x l -> match inner (r_items r) with FR _ (Some r) => rule_flat orc sc0 e r x | _ => True end).
        destruct (told_rules _); [|apply sayc_nothing; discriminate].
        eapply sayc_iff; [|apply (sayc_each _ _ (fun x => match inner (r_items r) with FR _ (Some r) => rule_flat orc sc0 e r x | _ => True end)); auto].
        { tauto. }
        intros x I. assert (L := all_leaf _ _ _ _ _ (A x I)). apply py_switcher_says; auto; [apply L; auto|].
        eapply leaf_ruled; eauto. destruct (inner (r_items r)) as [mr [r'|]]; auto. apply Sh. }
  rewrite getb_true. unfold count_meaning.
  assert (K : forall x, elem_flat orc sc0 V e (rules_or_none (r_items r)) x <-> _) by (intros x; apply (elem_inside e (r_items r) x Sh)).
  split.
  - intros (H1 & H2 & H3 & H4 & H5). split; [auto|split].
    + intros Hu i j x y Hij Hx Hy. destruct (H3 Hu j y Hy) as [_ Q]. eauto.
    + intros x I. apply K. split; [intros Em; exact (H4 Em x I)|intros T; exact (H5 T x I)].
  - intros ((H1 & H2) & H3 & H4). split; [auto|split; [auto|split; [|split]]].
    + intros Hu j y Hy. split; [intros x []|]. intros i x Hi Hx. eapply H3; eauto.
    + intros Em x I. apply (proj1 (K x) (H4 x I)). exact Em.
    + intros T x I. apply (proj1 (K x) (H4 x I)). exact T.
Qed.

Lemma py_map_says emb k w r l :
  (p_ignore_empty r = Some true ->
     ~ (no_size (p_min r) /\ no_size (p_max r) /\ is_embed w = false /\ inner (p_keys r) = no_rules /\ inner (p_values r) = no_rules)) ->
  py_inner_shape k (inner (p_keys r)) -> py_inner_shape w (inner (p_values r)) ->
  p_max r <> Some 0%N -> py_inner_ok (inner (p_keys r)) -> py_inner_ok (inner (p_values r)) ->
  (forall m, w = TMsg m -> inner (p_values r) = no_rules -> inner (p_keys r) = no_rules) ->
  sane_fr (inner (p_keys r)) -> sane_fr (inner (p_values r)) -> map_key k = true ->
  Forall (fun p => wt_elem sc0 k (fst p) /\ wt_elem sc0 w (snd p)) l ->
  (forall x y, In (x, y) l -> all_elem sc leaf true false k (inner (p_keys r)) x /\ all_elem sc leaf true false w (inner (p_values r)) y) ->
  emb_good emb (list_max (map (fun p => vheight (snd p)) l)) ->
  sayc (py_map pl sc0 emb k w r) (VMap l) (map_flat orc sc0 V k w r l).
Proof.
  intros NI Sh1 Sh2 Mx J1 J2 JM S1 S2 MK W A E. rewrite Forall_forall in W. unfold py_map, map_flat. eapply sayc_about; [reflexivity|].
  assert (Rk := py_keys_renders pl sc0 k (p_keys r) Sh1). assert (Rd := py_switcher_renders pl sc0 emb w (p_values r) Sh2).
  eapply sayc_iff; [|apply sayc_guarded].
  { rewrite negb_false_iff, is_nil_true, getb_true. apply or_iff_compat_l. reflexivity. }
  { intros G Q. apply getb_true in G. apply (NI G). apply seq_empty in Q. rewrite !Forall_cons_iff in Q. destruct Q as (E1 & E2 & E3 & _).
    apply size_empty in E1, E2. rewrite <- !told_inner.
    destruct (told_rules (p_keys r) || told_rules (p_values r)) eqn:T.
    + exfalso. destruct Rk as (c & Q1), Rd as (c' & Q2). rewrite Q1, Q2 in E3. discriminate.
    + apply orb_false_iff in T. apply when_empty in E3. tauto. }
  eapply sayc_iff; cycle 1.
  { apply sayc_cons; [apply (sayc_size _ _ l (fun n => n <= N.of_nat (List.length l))%N); [intros _; lia|intros b _; apply len_ge_says]|].
    apply sayc_cons; [apply (sayc_size _ _ l (fun n => N.of_nat (List.length l) <= n)%N); [intros K; contradiction|intros b _; apply len_le_says]|].
    apply sayc_last. instantiate (1 := forall p, In p l -> elem_flat orc sc0 V k (inner (p_keys r)) (fst p) /\ elem_flat orc sc0 V w (inner (p_values r)) (snd p)).
    destruct (told_rules (p_keys r) || told_rules (p_values r)) eqn:T.
    - destruct Rk as (ck & Ek), Rd as (cv & Ev). rewrite Ek, Ev. apply sayc_stmt.
      apply (says_map _ (fun p => elem_flat orc sc0 V k (inner (p_keys r)) (fst p) /\ elem_flat orc sc0 V w (inner (p_values r)) (snd p))).
      intros [x y] I. destruct (W _ I) as [Wx Wy]. destruct (A x y I) as [Ax Ay]. cbn [fst snd] in *. unfold run at 1. cbn [map in_order fst snd].
      assert (Lx := all_leaf _ _ _ _ _ Ax). assert (Ly := all_leaf _ _ _ _ _ Ay).
      apply says_seq; [|intros _; rewrite andthen_passes].
      + destruct (py_keys_says k (p_keys r) x MK Sh1 J1 S1 Wx) as (c & Ec & Sc); [|congruence].
        eapply leaf_ruled; eauto. destruct (inner (p_keys r)) as [mr [r'|]]; auto. apply Sh1.
      + destruct (py_switcher_says emb w (p_values r) y Sh2 J2 S2 Wy) as (c & Ec & Sc); [apply Ly; auto| |].
        { eapply leaf_ruled; eauto. destruct (inner (p_values r)) as [mr [r'|]]; auto. apply Sh2. }
        assert (c = cv) as -> by congruence. eapply says_iff; [|exact Sc].
        destruct (inner (p_values r)) as [mr [r'|]] eqn:Ei.
        * destruct Sh2 as (Ft & _). destruct r', w; try contradiction; reflexivity.
        * destruct mr as [mr|].
          -- destruct J2 as [J3 J4]. cbn. unfold required, skipped. rewrite J3. split; [|auto]. intros _ _. split; [|discriminate].
             intros Q. apply getb_true in Q. contradiction.
          -- split; [|auto]. intros _. cbn. intros _. split; [discriminate|]. intros _ n m -> _. exfalso.
             apply orb_true_iff in T. rewrite <- !not_false_iff_true, !told_inner in T. specialize (JM n eq_refl eq_refl). destruct T as [T|T]; apply T; auto.
    - apply orb_false_iff in T. rewrite !told_inner in T. destruct T as [T1 T2].
      assert (Ek : is_embed k = false) by (destruct k; auto; discriminate).
      eapply sayc_iff; [|apply (sayc_when (is_embed w) _ l (forall p, In p l -> elem_flat orc sc0 V w (inner (p_values r)) (snd p)))].
      + rewrite T1, T2. split; [|intros H _ p I; apply (H p I)]. intros H p I. split; [cbn; congruence|]. intros Em. apply (H Em p I). exact Em.
      + intros Em. apply (says_map _ (fun p => elem_flat orc sc0 V w (inner (p_values r)) (snd p))). intros [x y] I. rewrite run_one. cbn [snd].
        destruct (W _ I) as [_ Wy]. destruct (A x y I) as [_ Ay]. rewrite T2 in *. cbn [snd] in *.
        eapply says_iff; [|eapply (py_embedded_says emb true false w None); eauto].
        { cbn. split; [intros H _; split; [discriminate|auto]|]. intros H n m Hw Hv. apply (H Em); auto. }
        eapply emb_le; [|exact E]. exact (list_max_in (fun p => vheight (snd p)) l _ I). }
  unfold count_meaning. split.
  - intros (H1 & H2 & H3). split; [auto|]. split; [|intros x y I; exact (H3 _ I)].
    intros _ x y I. destruct (A x y I) as [_ Ay]. apply all_leaf in Ay. destruct Ay as [Ay _]. auto.
  - intros ((H1 & H2) & _ & H3). split; [auto|]. split; [auto|]. intros [x y] I. exact (H3 _ _ I).
Qed.

Lemma py_message_says emb u e mr v : wt_elem sc0 e v -> all_elem sc leaf false u e (FR mr None) v -> emb_good emb (vheight v) ->
  sayc (py_message emb false e mr) v (elem_flat orc sc0 V e (FR mr None) v).
Proof.
  intros W A E. unfold py_message. change (match mr with Some m => getb (m_skip m) | None => false end) with (skipped mr).
  assert (Hs : is_embed e = true -> py_has v = true <-> is_set v).
  { intros He. destruct v as [| | | | |[]|[]|[]|[]|[]| |]; cbn; split; auto; congruence. }
  eapply sayc_iff; [|apply sayc_cons; [apply required_says; discriminate|apply sayc_last]].
  2:{ instantiate (1 := skipped mr = false -> forall n m, e = TMsg n -> v = VMsg (Some m) -> validated_type sc0 n = true -> V n m).
      destruct (skipped mr) eqn:Es; [apply sayc_nothing; discriminate|].
      eapply sayc_iff; [|apply (sayc_block _ _ v (forall n m, e = TMsg n -> v = VMsg (Some m) -> validated_type sc0 n = true -> V n m))].
      - split; [|auto]. intros H _ n m He Hv. apply H; auto. now rewrite Hv.
      - apply stmt_renders.
      - discriminate.
      - intros _. apply sayc_stmt. eapply py_embedded_says; eauto. }
  cbn [elem_flat]. assert (R : required mr = true <-> match mr with Some m => m_required m | None => None end = Some true)
    by (unfold required; destruct mr; [apply getb_true|split; discriminate]).
  rewrite R. split.
  - intros [H1 H2] He. split; [intros Q; apply Hs; auto|exact H2].
  - intros H. destruct (is_embed e) eqn:He.
    + destruct (H eq_refl) as [H1 H2]. split; [intros Q; apply Hs; auto|exact H2].
    + split; [intros _; destruct e; try discriminate; inversion W; reflexivity|]. intros _ n m ->. discriminate.
Qed.

Lemma py_wrapper_says w mr r v : fits (wrapped_type w) r -> ~ blank r -> ~ idle r -> py_rule_ok r -> sane r -> wt_elem sc0 (TWrap w) v ->
  (forall x, v = VWrap (Some x) -> py_ruled pl orc r x) ->
  sayc (py_wrapper pl sc0 (TWrap w) mr r) v (elem_flat orc sc0 V (TWrap w) (FR mr (Some r)) v).
Proof.
  intros Ft B N J S W R. unfold py_wrapper.
  assert (Sc : scalar_rule r) by (destruct w, r; cbn in *; try contradiction; exact I).
  destruct (py_scalar_renders pl sc0 (wrapped_type w) r) as (l & El); [tauto|]. rewrite El.
  destruct l as [|s t]; [exfalso; apply N; eapply py_scalar_empty; eauto|].
  apply sayc_stmt. inversion W as [| | | | | | |w'|w' x Wx| | | | |]; subst; cbn [elem_flat].
  - apply says_unless. unfold required. destruct mr as [m|]; cbn; [destruct (getb (m_required m))|]; cbn; split; congruence.
  - destruct (py_scalar_says (wrapped_type w) r x Sc Ft B ltac:(tauto) J S Wx (R x eq_refl)) as (l & E & Q).
    rewrite El in E. injection E as <-. exact Q.
Qed.

Hypothesis goo : forall n, validated_type sc0 n = true -> google pn n = false.

Lemma py_field_says n emb f v : google pn n = false -> py_shape f -> py_field_ok pn f -> sane_field f -> wt_field sc0 (f_type f) v ->
  all_field sc leaf (f_type f) (f_rules f) v -> ftype_ok sc0 (f_type f) -> emb_good emb (vheight v) ->
  sayc (py_field pl sc0 emb pn n f) v (field_flat orc sc0 V f v).
Proof.
  intros Gn Sh J S W A T E. unfold py_shape, py_field_ok, sane_field, py_field, field_flat, rep_of, map_of in *.
  destruct (f_rules f) as [mr typ] eqn:Er. cbn [fr_typ] in *.
  destruct (f_type f) as [e|e|k w] eqn:Et.
  - inversion W as [e' v' We| |]; subst. inversion A as [e' fr' v' Ae| |]; subst.
    destruct typ as [r|].
    + cbn [sane_fr] in S. assert (L := all_leaf _ _ _ _ _ Ae). destruct L as (_ & _ & L). specialize (L mr r eq_refl).
      assert (Wr : forall w, e = TWrap w -> sayc (py_wrapper pl sc0 (TWrap w) mr r) v (elem_flat orc sc0 V (TWrap w) (FR mr (Some r)) v)).
      { intros w ->. assert (Sw : fits (wrapped_type w) r /\ ~ blank r /\ ~ idle r) by (destruct mr; exact Sh). destruct Sw as (Ft & B & N).
        apply py_wrapper_says; auto. intros x ->. exact L. }
      destruct (match e with TWrap _ => true | _ => false end) eqn:Ew.
      * destruct e; try discriminate. specialize (Wr w eq_refl). assert (Sw : fits (wrapped_type w) r /\ ~ blank r /\ ~ idle r) by (destruct mr; exact Sh).
        destruct Sw as (Ft & B & N). assert (To := not_blank_told _ B).
        assert (Q : wrapper_rule r = true) by (destruct w, r as [[]|[]|r|r|r|r|r|r|r|r]; cbn in Ft; try contradiction; try discriminate; reflexivity).
        rewrite orb_true_r. cbn [negb fields_embed is_embed]. destruct r; try discriminate; rewrite Q, To; exact Wr.
      * clear Wr. destruct mr as [mr|]; [destruct e; try discriminate; contradiction|].
        assert (Sw : fits e r /\ ~ blank r /\ ~ (ignoring r /\ idle r) /\ dur_apart r) by (destruct e; try discriminate; exact Sh). destruct Sw as (Ft & B & N & Ap).
        assert (To := not_blank_told _ B).
        assert (Fl : elem_flat orc sc0 V e (FR None (Some r)) v <-> rule_flat orc sc0 e r v) by (destruct e; try discriminate; reflexivity).
        eapply sayc_iff; [symmetry; exact Fl|].
        assert (Rv : py_ruled pl orc r v) by (destruct e; try discriminate; inversion We; subst; exact L).
        assert (K := py_typed_says false e r v Ft B N Ap J S We ltac:(discriminate) Rv).
        cbn [is_some orb negb]. destruct r, e; try contradiction; cbn [fields_embed is_embed told_message wrapper_rule andb py_typed] in *; rewrite To; exact K.
    + destruct mr as [mr|]; cbn [is_some orb negb].
      * assert (Sm : m_skip mr <> None \/ m_required mr <> None) by (destruct e; exact Sh).
        assert (To : told_message (Some mr) = true) by (destruct Sm as [Q|Q]; cbn; [destruct (m_skip mr)|destruct (m_required mr)]; cbn; try congruence; apply orb_true_r).
        rewrite To. assert (K := py_message_says emb false e (Some mr) v We Ae E). destruct (fields_embed _); exact K.
      * assert (K := py_message_says emb false e None v We Ae E). destruct e as [| | | | |m| | | |]; try (apply sayc_nothing; cbn; intros _; split; [discriminate|intros _ n9 m9; discriminate]).
        destruct (google pn m) eqn:Gm; [|exact K]. apply sayc_nothing. cbn. intros _. split; [discriminate|].
        intros _ n9 m9 [= <-] _ Vt. apply goo in Vt. congruence.
  - inversion W as [|e' l Wl|]; subst. inversion A as [|e' fr' l' Al|]; subst.
    destruct typ as [r|].
    + destruct mr as [mr|]; [destruct e; contradiction|]. destruct r; try (destruct e; contradiction).
      assert (Sw := Sh). destruct Sh as (B & NI & Si). destruct J as (J1 & J2 & J3).
      assert (K : sayc (py_repeated pl sc0 emb e r) (VList l) (rep_flat orc sc0 V e r l)) by (apply py_rep_says; auto).
      cbn [is_some orb negb told_message wrapper_rule andb fields_embed]. rewrite (not_blank_told _ B). destruct (is_embed e); exact K.
    + destruct mr as [mr|]; [destruct e; contradiction|]. cbn [is_some orb negb].
      assert (Fl : (forall x, In x l -> elem_flat orc sc0 V e no_rules x) -> rep_flat orc sc0 V e (mkRepRules None None None None None) l).
      { intros H. right. split; [split; discriminate|]. split; [discriminate|]. exact H. }
      destruct e as [| | | | |m| | | |]; try (apply sayc_nothing, Fl; intros x _; cbn; intros _; split; [discriminate|intros _ n9 m9; discriminate]).
      destruct (google pn m) eqn:Gm.
      * apply sayc_nothing, Fl. intros x _. cbn. intros _. split; [discriminate|]. intros _ n9 m9 [= <-] _ Vt. apply goo in Vt. congruence.
      * rewrite (J m eq_refl). apply py_rep_says; auto; try discriminate; exact I.
  - inversion W as [| |k' w' l Wl]; subst. inversion A as [| |k' w' fr' l' Al]; subst. destruct T as [MK _].
    destruct typ as [r|].
    + destruct mr as [mr|]; [contradiction|]. destruct r; try contradiction.
      destruct Sh as (B & NI & Sk & Sv). destruct J as (J1 & J3 & J4 & J5). destruct S as [S1 S2].
      cbn [is_some orb negb told_message wrapper_rule andb fields_embed]. rewrite (not_blank_told _ B).
      apply py_map_says; auto.
    + destruct mr as [mr|]; [contradiction|]. cbn [is_some orb negb]. rewrite Gn.
      apply py_map_says; cbn [p_min p_max p_no_sparse p_keys p_values inner]; auto; try discriminate; try exact I; try exact Al.
Qed.
End Says.

(** ** The check does not change the source *)
Section Same.
Variable re_ok : bytes -> bool.
Variable sc0 : schema.
Variable pl : py_libs.
Variable emb : string -> msgval -> outcome.

Lemma str_same s0 s : check_string re_ok s0 = Some s -> py_string pl s0 = py_string pl s /\ told (RString s0) = told (RString s).
Proof.
  unfold check_string, guard. destruct (_ && _); [|discriminate]. destruct (check_wkr s0) as [s1|] eqn:C; [|discriminate].
  destruct (_ && _); [|discriminate]. intros [= <-]. unfold check_wkr, get_wkr, guard in C.
  destruct (s_wk s0) as [[b|b|b|b|b|b|b|b|b|k]|] eqn:Ew; try (injection C as <-; auto; fail).
  destruct k; try (injection C as <-; auto; fail); (destruct (is_none (s_pattern s0)) eqn:En; [|discriminate]); injection C as <-;
    (split; [unfold py_string; cbn; rewrite Ew; unfold py_pattern; cbn; rewrite Ew|cbn; rewrite Ew; cbn; rewrite !orb_true_r; reflexivity]); try reflexivity.
  destruct (s_pattern s0); [discriminate|reflexivity].
Qed.

Lemma str_ignore s0 s : check_string re_ok s0 = Some s -> s_ignore_empty s0 = s_ignore_empty s.
Proof.
  unfold check_string, guard. destruct (_ && _); [|discriminate]. destruct (check_wkr s0) as [s1|] eqn:C; [|discriminate].
  destruct (_ && _); [|discriminate]. intros [= <-]. unfold check_wkr, guard in C.
  destruct (get_wkr s0); try (injection C as <-; reflexivity); (destruct (is_none (s_pattern s0)); [|discriminate]); now injection C as <-.
Qed.

(** The templates do not tell [r0] and [r] apart. *)
Definition alike (r0 r : rule_type) : Prop :=
  r0 = r \/ exists s0 s, r0 = RString s0 /\ r = RString s /\ py_string pl s0 = py_string pl s /\ told r0 = told r /\ s_ignore_empty s0 = s_ignore_empty s.
Lemma rule_alike r0 r : rule_checked re_ok r0 r -> alike r0 r.
Proof.
  unfold alike. destruct r0; cbn [rule_checked]; try (intros ->; auto; fail); try contradiction.
  - intros (s & C & ->). right. destruct (str_same _ _ C) as [A B]. assert (E := str_ignore _ _ C). eauto 10.
  - intros [_ ->]. auto.
  - intros [_ ->]. auto.
Qed.

Lemma fr_alike e o0 o : opt_checked re_ok sc0 e o0 o ->
  py_switcher pl sc0 emb e o0 = py_switcher pl sc0 emb e o /\ py_keys pl sc0 e o0 = py_keys pl sc0 e o /\
  told_rules o0 = told_rules o /\ items_skip o0 = items_skip o.
Proof.
  unfold opt_checked. intros C. destruct (rules_or_none o0) as [mr [r0|]] eqn:E0.
  - destruct o0 as [fr0|]; [|discriminate]. cbn in E0. subst fr0. apply check_fr_rule in C; [|eauto]. destruct C as (r & Er & C).
    destruct o as [fr|]; [|discriminate]. cbn in Er. subst fr. apply rule_alike in C. destruct C as [->|(s0 & s & -> & -> & P & T & G)]; [auto|].
    cbn [py_switcher py_keys told_rules items_skip]. rewrite T. unfold py_inline. cbn [py_scalar headless]. rewrite P, G. destruct mr; auto.
  - cbn in C. injection C as C. assert (Q : rules_or_none o = FR mr None) by (symmetry; exact C).
    destruct o0 as [fr0|], o as [fr|]; cbn in E0, Q; subst; auto.
    + injection Q as <-. auto.
    + injection E0 as <-. auto.
Qed.

Lemma rep_told e mr r0 mr' r : check_fr re_ok sc0 (CField (FRep e)) (FR mr (Some (RRepeated r0))) = Some (FR mr' (Some (RRepeated r))) ->
  told (RRepeated r0) = told (RRepeated r).
Proof.
  destruct r0 as [mn mx u [it|] ie]; cbn; unfold guard; intros H;
    match type of H with (if ?b then _ else _) = _ => destruct b; [|discriminate] end.
  - destruct (check_fr re_ok sc0 (CElem e) it) as [it'|] eqn:E; [|discriminate]. injection H as <- <-. reflexivity.
  - injection H as <- <-. reflexivity.
Qed.
Lemma map_told k w mr r0 mr' r : check_fr re_ok sc0 (CField (FMap k w)) (FR mr (Some (RMap r0))) = Some (FR mr' (Some (RMap r))) ->
  told (RMap r0) = told (RMap r).
Proof.
  destruct r0 as [mn mx ns [ks|] [vs|] ie]; cbn; unfold guard; intros H;
    match type of H with (if ?b then _ else _) = _ => destruct b; [|discriminate] end;
    repeat match type of H with context [check_fr re_ok sc0 ?c ?x] => destruct (check_fr re_ok sc0 c x); cbn in H end; try discriminate;
    injection H as <- <-; reflexivity.
Qed.

Variable pn : py_names.
Lemma py_field_same n f0 f : check_field re_ok sc0 f0 = Some f -> py_shape f -> py_field pl sc0 emb pn n f0 = py_field pl sc0 emb pn n f.
Proof.
  unfold check_field, guard. destruct (check_message _ _); [|discriminate]. destruct (check_fr _ _ _ _) as [fr|] eqn:C; [|discriminate].
  intros [= <-]. unfold py_shape, py_field. cbn [f_type f_rules]. intros Sh.
  destruct (f_rules f0) as [mr [r0|]] eqn:Er; [|cbn in C; injection C as <-; reflexivity].
  destruct (f_type f0) as [e|e|k w] eqn:Et.
  - apply check_fr_rule in C; [|eauto]. destruct C as (r & -> & C). apply rule_alike in C. destruct C as [->|(s0 & s & -> & -> & P & T & _)]; [reflexivity|].
    cbn [wrapper_rule andb]. rewrite T. unfold py_wrapper. cbn [py_scalar]. rewrite P. reflexivity.
  - destruct r0; try (exfalso; assert (K := check_other re_ok sc0 (FRep e) mr _ fr I C I); destruct fr as [[m'|] [[]|]]; cbn in *; try contradiction; destruct e; contradiction).
    assert (C' := C). apply check_rep in C. destruct C as (r1 & -> & A1 & A2 & A3 & A4 & A5). apply rep_told in C'.
    destruct (fr_alike _ _ _ A5) as (B1 & B2 & B3 & B4).
    assert (K : py_repeated pl sc0 emb e r = py_repeated pl sc0 emb e r1) by (unfold py_repeated; now rewrite A1, A2, A3, A4, B1, B3, B4).
    cbn [wrapper_rule andb]. rewrite C', K. reflexivity.
  - destruct r0; try (exfalso; assert (K := check_other re_ok sc0 (FMap k w) mr _ fr I C I); destruct fr as [[m'|] [[]|]]; cbn in *; contradiction).
    assert (C' := C). apply check_map in C. destruct C as (r1 & -> & A1 & A2 & A3 & A4 & A5 & A6). apply map_told in C'.
    destruct (fr_alike _ _ _ A5) as (B1 & B2 & B3 & B4). destruct (fr_alike _ _ _ A6) as (D1 & D2 & D3 & D4).
    assert (K : py_map pl sc0 emb k w r = py_map pl sc0 emb k w r1) by (unfold py_map; now rewrite A1, A2, A4, B2, B3, D1, D3).
    cbn [wrapper_rule andb]. rewrite C', K. reflexivity.
Qed.

(** ** Oneofs and messages *)
Definition run_code {A} (c : code A) (a : A) : outcome := match c with Some l => run l a | None => Crashes end.
Lemma run_seq {A} (l : list (code A)) a : Forall renders l -> run_code (seq l) a = in_order (map (fun c => run_code c a) l).
Proof.
  induction 1 as [|c t (x & ->) R IH]; [reflexivity|]. cbn [seq map in_order]. destruct (seq_renders t R) as (y & Ey). rewrite Ey in *.
  cbn [run_code]. rewrite run_app. cbn [run_code] in IH. now rewrite IH.
Qed.

Lemma member_whole f : py_shape f -> member_shape f -> headless_member f = false.
Proof.
  unfold py_shape, member_shape, headless_member. destruct f as [fn ft fr]. cbn [f_type f_rules].
  destruct ft as [e|e|k w]; cbn [fields_embed]; [| |reflexivity]; destruct (is_embed e) eqn:Ee; try reflexivity; cbn [negb andb];
    destruct fr as [[mr|] [r|]]; cbn [fr_typ]; try reflexivity; try (destruct e; try discriminate; contradiction).
  - destruct r as [| |r| | | | | | |]; try reflexivity. destruct e; try discriminate; try (intros [[] _]; fail).
    intros _ M. cbn in M |- *. destruct (s_ignore_empty r) as [[]|]; auto. now elim M.
  - destruct r; try contradiction; reflexivity.
Qed.
Lemma py_member_field n f : py_shape f -> member_shape f -> py_member pl sc0 emb pn n f = py_field pl sc0 emb pn n f.
Proof. intros A B. unfold py_member. now rewrite member_whole. Qed.
Lemma members_fields n o : Forall py_shape (o_fields o) -> Forall member_shape (o_fields o) ->
  Forall (fun f => py_member pl sc0 emb pn n f = py_field pl sc0 emb pn n f) (o_fields o).
Proof. rewrite !Forall_forall. intros A B f I. apply py_member_field; auto. Qed.

Lemma py_oneof_renders n o : Forall py_shape (o_fields o) -> Forall member_shape (o_fields o) -> renders (py_oneof pl sc0 emb pn n o).
Proof.
  intros Sh Ms. apply seq_renders. rewrite Forall_app. split; [|repeat constructor; apply when_renders].
  rewrite Forall_map. assert (Mf := members_fields n o Sh Ms). rewrite Forall_forall in *. intros f If. rewrite (Mf f If). assert (Hf := Sh f If). destruct (py_field_renders pl sc0 emb pn n f Hf) as (c & ->). apply stmt_renders.
Qed.
Lemma py_body_renders d : Forall py_shape (all_fields d) -> (forall o, In o (md_oneofs d) -> Forall member_shape (o_fields o)) -> renders (py_body pl sc0 emb pn d).
Proof.
  unfold all_fields. rewrite Forall_app, Forall_flat_map. intros [S1 S2] Ms.
  apply seq_renders. rewrite Forall_app, !Forall_map. split.
  - rewrite Forall_forall in S2. apply Forall_forall. intros o Io. destruct (py_oneof_renders (md_name d) o (S2 o Io) (Ms o Io)) as (c & ->). eexists. reflexivity.
  - eapply Forall_impl; [|exact S1]. intros f Hf. destruct (py_field_renders pl sc0 emb pn (md_name d) f Hf) as (c & ->). eexists. reflexivity.
Qed.

Lemma check_oneof_parts o0 o : check_oneof re_ok sc0 o0 = Some o ->
  o_name o = o_name o0 /\ o_required o = o_required o0 /\ Forall2 (fun f0 f => check_field re_ok sc0 f0 = Some f) (o_fields o0) (o_fields o).
Proof.
  unfold check_oneof. destruct (map_opt (check_field re_ok sc0) (o_fields o0)) eqn:E; [|discriminate]. intros [= <-]. cbn. split; auto. split; auto. now apply map_opt_forall2.
Qed.

Lemma map_same {A B} (R : A -> A -> Prop) (P : A -> Prop) (g : A -> B) l0 l : Forall2 R l0 l -> Forall P l ->
  (forall x0 x, R x0 x -> P x -> g x0 = g x) -> map g l0 = map g l.
Proof. intros F. induction F as [|x y t t' Rxy F IH]; intros Hp K; [reflexivity|]. apply Forall_cons_iff in Hp. cbn. f_equal; [apply K; tauto|apply IH; tauto]. Qed.

Lemma headless_same f0 f : check_field re_ok sc0 f0 = Some f -> py_shape f -> headless_member f0 = headless_member f.
Proof.
  unfold check_field, guard. destruct (check_message _ _); [|discriminate]. destruct (check_fr _ _ _ _) as [fr|] eqn:C; [|discriminate].
  intros [= <-]. unfold headless_member, py_shape. cbn [f_type f_rules]. intros Sh.
  destruct (f_rules f0) as [mr [r0|]] eqn:Er; [|cbn in C; injection C as <-; reflexivity].
  destruct (f_type f0) as [e|e|k w] eqn:Et; cbn [fields_embed]; [| |reflexivity].
  - apply check_fr_rule in C; [|eauto]. destruct C as (r & -> & C). apply rule_alike in C. destruct C as [->|(s0 & s & -> & -> & P & T & G)]; [reflexivity|].
    cbn [fr_typ headless]. now rewrite G.
  - destruct r0; try (exfalso; assert (K := check_other re_ok sc0 (FRep e) mr _ fr I C I); destruct fr as [[m'|] [[]|]]; cbn in *; try contradiction; destruct e; contradiction).
    apply check_rep in C. destruct C as (r1 & -> & _). reflexivity.
Qed.
Lemma py_body_same d0 d : check_msg re_ok sc0 d0 = Some d -> Forall py_shape (all_fields d) -> py_body pl sc0 emb pn d0 = py_body pl sc0 emb pn d.
Proof.
  intros C Sh. destruct (check_msg_name _ _ _ _ C) as (N & _ & _).
  destruct (md_disabled d0) eqn:Ed; [unfold check_msg in C; rewrite Ed in C; injection C as <-; reflexivity|].
  destruct (check_msg_parts _ _ _ _ Ed C) as [F1 F2]. unfold all_fields in Sh. rewrite Forall_app, Forall_flat_map in Sh. destruct Sh as [S1 S2].
  unfold py_body. rewrite N. f_equal. f_equal.
  - apply (map_same _ _ _ _ _ F2 S2). intros o0 o Co Ho. destruct (check_oneof_parts _ _ Co) as (E1 & E2 & E3). rewrite E1.
    assert (Hd : forall f0 f, check_field re_ok sc0 f0 = Some f -> py_shape f -> headless_member f0 = headless_member f) by (intros; eapply headless_same; eauto).
    assert (K : py_oneof pl sc0 emb pn (md_name d0) o0 = py_oneof pl sc0 emb pn (md_name d0) o); [|now rewrite K].
    unfold py_oneof. rewrite E2. f_equal. f_equal. apply (map_same _ _ _ _ _ E3 Ho). intros f0 f Cf Hf. unfold py_member.
    rewrite (Hd _ _ Cf Hf), (py_field_same _ _ _ Cf Hf). destruct (check_field_name _ _ _ _ Cf) as [-> _]. reflexivity.
  - apply (map_same _ _ _ _ _ F1 S1). intros f0 f Cf Hf. rewrite (py_field_same _ _ _ Cf Hf). destruct (check_field_name _ _ _ _ Cf) as [-> _]. reflexivity.
Qed.

(** The source of a message runs that of its fields. *)
Definition run_py_field (n : string) (emb : string -> msgval -> outcome) (f : field) (v : value) : outcome := run_code (py_field pl sc0 emb pn n f) v.
End Same.

Lemma only_member (g : field -> outcome) fn l : NoDup (map f_name l) ->
  in_order (map (fun f => only_if (String.eqb fn (f_name f)) (g f)) l) =
  match find (fun f => String.eqb fn (f_name f)) l with Some f => g f | None => Passes end.
Proof.
  induction l as [|f t IH]; [reflexivity|]. cbn [map in_order find]. intros ND. inversion ND as [|x y Ni ND']; subst.
  destruct (String.eqb fn (f_name f)) eqn:E; cbn [only_if]; [|apply IH; auto].
  apply String.eqb_eq in E. subst.
  assert (K : in_order (map (fun f0 => only_if (String.eqb (f_name f) (f_name f0)) (g f0)) t) = Passes).
  { rewrite (IH ND'). destruct (find _ t) as [f'|] eqn:F; auto. apply find_some in F. destruct F as [I Q]. apply String.eqb_eq in Q.
    exfalso. apply Ni. rewrite Q. now apply in_map. }
  rewrite K. apply andthen_passes.
Qed.

Lemma run_py_oneof pl sc0 emb pn n o s : Forall py_shape (o_fields o) -> Forall member_shape (o_fields o) -> NoDup (map f_name (o_fields o)) ->
  run_code (py_oneof pl sc0 emb pn n o) s = run_oneof (run_py_field sc0 pl pn n) emb o s.
Proof.
  intros Sh Ms ND. unfold py_oneof.
  assert (Mf := members_fields sc0 pl emb pn n o Sh Ms). rewrite Forall_forall in Mf.
  rewrite (map_ext_in _ (fun f => match py_field pl sc0 emb pn n f with
      | Some c => stmt (fun s => match s with Some (fn, v) => only_if (String.eqb fn (f_name f)) (run c v) | None => Passes end)
      | None => None end) (o_fields o)) by (intros f If; now rewrite (Mf f If)). clear Mf.
  rewrite run_seq.
  2:{ rewrite Forall_app. split; [|repeat constructor; apply when_renders].
      rewrite Forall_map. eapply Forall_impl; [|exact Sh]. intros f Hf. destruct (py_field_renders pl sc0 emb pn n f Hf) as (c & ->). apply stmt_renders. }
  rewrite map_app, in_order_app, map_map. unfold run_oneof. destruct s as [[fn v]|].
  - assert (E : map (fun f => run_code (match py_field pl sc0 emb pn n f with
                     | Some c => stmt (fun s => match s with Some (fn, v) => only_if (String.eqb fn (f_name f)) (run c v) | None => Passes end)
                     | None => None end) (Some (fn, v))) (o_fields o)
               = map (fun f => only_if (String.eqb fn (f_name f)) (run_py_field sc0 pl pn n emb f v)) (o_fields o)).
    { apply map_ext_in. intros f I. rewrite Forall_forall in Sh. unfold run_py_field. destruct (py_field_renders pl sc0 emb pn n f (Sh f I)) as (c & ->).
      cbn [run_code stmt]. now rewrite run_one. }
    rewrite E, only_member by auto. unfold when. destruct (getb (o_required o)); cbn; apply andthen_passes.
  - assert (E : in_order (map (fun f => run_code (match py_field pl sc0 emb pn n f with
                     | Some c => stmt (fun s => match s with Some (fn, v) => only_if (String.eqb fn (f_name f)) (run c v) | None => Passes end)
                     | None => None end) None) (o_fields o)) = Passes).
    { assert (Q : forall l, (forall x, In x l -> x = Passes) -> in_order l = Passes) by (induction l as [|x t IH]; intros H; [reflexivity|]; cbn; rewrite (H x) by (left; auto); apply IH; intros; apply H; right; auto).
      apply Q. intros x I. apply in_map_iff in I. destruct I as (f & <- & I). rewrite Forall_forall in Sh.
      destruct (py_field_renders pl sc0 emb pn n f (Sh f I)) as (c & ->). reflexivity. }
    rewrite E. unfold when. destruct (getb (o_required o)); reflexivity.
Qed.

Lemma all_pass l : (forall x, In x l -> x = Passes) -> in_order l = Passes.
Proof. induction l as [|x t IH]; intros H; [reflexivity|]. cbn. rewrite (H x) by (left; auto). apply IH. intros; apply H; right; auto. Qed.

(** A field without rules, of messages without rules. *)
Lemma plain_field sc0 pl pn n emb f v :
  (forall m, (f_type f = FOne (TMsg m) \/ f_type f = FRep (TMsg m) \/ exists k, f_type f = FMap k (TMsg m)) ->
     pn_entry pn m = false /\ forall d x, find_msg sc0 m = Some d -> wt_msg sc0 d x -> (S (mheight x) <= vheight v)%nat -> emb m x = Passes) ->
  f_rules f = no_rules -> wt_field sc0 (f_type f) v -> run_py_field sc0 pl pn n emb f v = Passes.
Proof.
  intros H R W. unfold run_py_field, py_field. rewrite R. cbn [no_rules is_some orb negb].
  assert (Pe : forall e x, (forall m, e = TMsg m -> forall d y, find_msg sc0 m = Some d -> wt_msg sc0 d y -> (S (mheight y) <= vheight x)%nat -> emb m y = Passes) ->
     wt_elem sc0 e x -> py_embedded emb e x = Passes).
  { intros e x Q Wx. unfold py_embedded. destruct e; auto. inversion Wx; subst; auto. eapply Q; eauto. }
  inversion W as [e x We Et|e l Wl Et|k w l Wl Et]; subst.
  - destruct e as [| | | | |n0| | | |]; try reflexivity. destruct (google pn n0); [reflexivity|]. destruct (H n0) as [_ K]; [auto|].
    cbn [run_code py_message seq py_required when getb block stmt app]. rewrite run_one. cbn. destruct (py_has v) eqn:Eh; cbn [only_if]; auto.
    rewrite andthen_passes. apply (Pe (TMsg n0) v); auto. intros m [= <-]. exact K.
  - destruct e as [| | | | |n0| | | |]; try reflexivity. destruct (google pn n0); [reflexivity|]. destruct (H n0) as [En K]; [auto|]. rewrite En.
    unfold py_repeated. cbn. rewrite andthen_passes. unfold for_each. apply all_pass. intros y I. apply in_map_iff in I. destruct I as (x & <- & I).
    rewrite run_one. apply (Pe (TMsg n0) x); [|rewrite Forall_forall in Wl; auto]. intros m [= <-] d y F Wy L. eapply K; eauto. etransitivity; [exact L|]. cbn [vheight]. now apply list_height.
  - destruct (google pn n); [reflexivity|]. unfold py_map. cbn. destruct (is_embed w) eqn:Ew; [|reflexivity]. cbn. rewrite andthen_passes.
    unfold for_each. apply all_pass. intros y I. apply in_map_iff in I. destruct I as ([x z] & <- & I). rewrite run_one. cbn [snd].
    rewrite Forall_forall in Wl. destruct (Wl _ I) as [_ Wz]. cbn [snd] in Wz. apply (Pe w z); auto. intros m -> d y F Wy L.
    destruct (H m) as [_ K]; [eauto|]. eapply K; eauto. etransitivity; [exact L|]. cbn [vheight]. exact (list_max_in (fun p => vheight (snd p)) l _ I).
Qed.

Section Run.
Variable re_ok : bytes -> bool.
Variable sc0 sc : schema.
Variable orc : oracles.
Variable pl : py_libs.
Variable pn : py_names.
Hypothesis PS : py_setting re_ok sc0 sc orc pl pn.
Notation V := (valid orc sc0).
Notation leaf := (py_value pl orc).
Notation callable := (fun _ : string => True).
Notation emb_good := (emb_ok sc0 sc V leaf callable).
Let checked := ps_checked _ _ _ _ _ _ PS.
Let wf := ps_wf _ _ _ _ _ _ PS.
Let OK := ps_orc _ _ _ _ _ _ PS.

Definition py_frag (f : field) : Prop := py_shape f /\ py_field_ok pn f.
Lemma py_frag_shape f : py_frag f ->
  match f_type f, fr_typ (f_rules f) with FRep _, Some (RRepeated _) | FRep _, None | FMap _ _, Some (RMap _) | FMap _ _, None | FOne _, _ => True | _, _ => False end.
Proof using. intros [_ J]. unfold py_field_ok in J. destruct (f_rules f) as [mr [[]|]], (f_type f); cbn in *; auto. Qed.

Lemma goo n : validated_type sc0 n = true -> google pn n = false.
Proof. intros H. apply (ps_google _ _ _ _ _ _ PS n H). Qed.

Lemma run_field_says V n : google pn n = false -> forall emb f v, py_frag f -> sane_field f -> wt_field sc0 (f_type f) v ->
  all_field sc leaf (f_type f) (f_rules f) v -> ftype_ok sc0 (f_type f) -> emb_ok sc0 sc V leaf callable emb (vheight v) ->
  says (run_py_field sc0 pl pn n emb f v) (field_flat orc sc0 V f v).
Proof.
  intros G emb f v [Sh J] S W A T E.
  destruct (py_field_says sc0 sc orc pl pn OK (ps_hex _ _ _ _ _ _ PS) V goo n emb f v G Sh J S W A T E) as (l & El & Sl).
  unfold run_py_field. rewrite El. exact Sl.
Qed.

(** The source of a message, run. *)
Lemma run_py_body emb d m : Forall py_shape (all_fields d) -> (forall o, In o (md_oneofs d) -> Forall member_shape (o_fields o)) -> (forall o, In o (md_oneofs d) -> NoDup (map f_name (o_fields o))) ->
  run_code (py_body pl sc0 emb pn d) m =
  andthen (in_order (map (fun o => match assoc (o_name o) (mv_oneofs m) with Some s => run_oneof (run_py_field sc0 pl pn (md_name d)) emb o s | None => Passes end) (md_oneofs d)))
          (in_order (map (fun f => match assoc (f_name f) (mv_fields m) with Some v => run_py_field sc0 pl pn (md_name d) emb f v | None => Passes end) (md_fields d))).
Proof using. clear PS checked wf OK.
  unfold all_fields. rewrite Forall_app, Forall_flat_map. intros [S1 S2] Ms ND. rewrite Forall_forall in S1, S2. unfold py_body. rewrite run_seq.
  2:{ rewrite Forall_app, !Forall_map, !Forall_forall. split.
      - intros o I. destruct (py_oneof_renders sc0 pl emb pn (md_name d) o (S2 o I) (Ms o I)) as (c & ->). eexists. reflexivity.
      - intros f I. destruct (py_field_renders pl sc0 emb pn (md_name d) f (S1 f I)) as (c & ->). eexists. reflexivity. }
  rewrite map_app, in_order_app, !map_map. f_equal; f_equal; apply map_ext_in.
  - intros o I. destruct (py_oneof_renders sc0 pl emb pn (md_name d) o (S2 o I) (Ms o I)) as (c & Ec). rewrite Ec. cbn [option_map run_code]. rewrite run_one.
    destruct (assoc _ _) as [s|]; auto. rewrite <- run_py_oneof by auto. rewrite Ec. reflexivity.
  - intros f I. unfold run_py_field. destruct (py_field_renders pl sc0 emb pn (md_name d) f (S1 f I)) as (c & ->). cbn [option_map run_code]. now rewrite run_one.
Qed.

Lemma oneof_names d0 d o : In d0 (sc_msgs sc0) -> check_msg re_ok sc0 d0 = Some d -> In o (md_oneofs d) -> NoDup (map f_name (o_fields o)).
Proof.
  intros I0 C I. destruct (wf d0 I0) as [[N1 _] _].
  destruct (md_disabled d0) eqn:Ed; [unfold check_msg in C; rewrite Ed in C; injection C as <-; eapply oneof_nodup; eauto|].
  destruct (check_msg_parts _ _ _ _ Ed C) as [_ F2].
  assert (K : exists o0, In o0 (md_oneofs d0) /\ check_oneof re_ok sc0 o0 = Some o).
  { clear - F2 I. induction F2 as [|a b l l' H _ IH]; [contradiction|]. destruct I as [->|I]; [exists a; cbn; auto|]. destruct (IH I) as (o0 & A & B). exists o0. cbn. auto. }
  destruct K as (o0 & Io & Co). destruct (check_oneof_parts _ _ _ _ Co) as (_ & _ & F).
  assert (E : map f_name (o_fields o) = map f_name (o_fields o0)).
  { clear - F. induction F as [|a b l l' H _ IH]; [reflexivity|]. cbn. destruct (check_field_name _ _ _ _ H) as [-> _]. now rewrite IH. }
  rewrite E. eapply oneof_nodup; eauto.
Qed.

Lemma find_name n d : find_msg sc0 n = Some d -> md_name d = n.
Proof using. clear. unfold find_msg. intros F. apply find_some in F. destruct F as [_ F]. now apply String.eqb_eq in F. Qed.

(** A message without rules. *)
Lemma plain_pass emb d0 d m : In d0 (sc_msgs sc0) -> check_msg re_ok sc0 d0 = Some d -> md_disabled d = false -> plain pn sc d ->
  Forall py_shape (all_fields d) -> (forall o, In o (md_oneofs d) -> Forall member_shape (o_fields o)) -> wt_msg sc0 d0 m ->
  (forall n d' x, find_msg sc0 n = Some d' -> md_methods d' = MNone -> wt_msg sc0 d' x -> (S (mheight x) <= mheight m)%nat -> emb n x = Passes) ->
  run_code (py_body pl sc0 emb pn d) m = Passes.
Proof.
  intros I0 C Ed [Pf Po] Sh Ms W H. rewrite run_py_body; [|exact Sh|exact Ms|intros; eapply oneof_names; eauto].
  rewrite Forall_forall in Pf, Po. destruct (check_msg_name _ _ _ _ C) as (N1 & N2 & N3).
  destruct (check_msg_parts re_ok sc0 d0 d ltac:(congruence) C) as [F1 F2]. destruct (wt_parts _ _ _ W) as [W1 W2]. destruct (wf d0 I0) as [[ND1 ND2] _].
  assert (One : forall f v, In f (all_fields d) -> wt_field sc0 (f_type f) v -> (vheight v <= mheight m)%nat -> run_py_field sc0 pl pn (md_name d) emb f v = Passes).
  { intros f v I Wv L. destruct (Pf f I) as [R K]. apply plain_field; auto. intros m' T. destruct (K m' T) as (E & d' & Fd & Md). split; auto.
    intros d9 x F9 Wx Lx. destruct (ck_find re_ok sc0 sc m' d9 checked F9) as (d8 & F8 & C8 & _). rewrite Fd in F8. injection F8 as <-.
    destruct (check_msg_name _ _ _ _ C8) as (_ & Q & _). eapply H; eauto; [congruence|lia]. }
  assert (NDf : NoDup (map f_name (md_fields d0))).
  { unfold all_fields in ND1. rewrite map_app in ND1. clear - ND1. induction (map f_name (md_fields d0)) as [|x l IH]; [constructor|].
    cbn in ND1. apply NoDup_cons_iff in ND1. destruct ND1 as [A B]. constructor; auto. intros K. apply A. apply in_app_iff. auto. }
  assert (X1 : forall f, In f (md_fields d) -> exists f0, In f0 (md_fields d0) /\ check_field re_ok sc0 f0 = Some f).
  { clear - F1. intros f I. induction F1 as [|a b l l' Hh _ IH]; [contradiction|]. destruct I as [->|I]; [exists a; cbn; auto|]. destruct (IH I) as (o0 & A & B). exists o0. cbn. auto. }
  assert (X2 : forall o, In o (md_oneofs d) -> exists o0, In o0 (md_oneofs d0) /\ check_oneof re_ok sc0 o0 = Some o).
  { clear - F2. intros f I. induction F2 as [|a b l l' Hh _ IH]; [contradiction|]. destruct I as [->|I]; [exists a; cbn; auto|]. destruct (IH I) as (o0 & A & B). exists o0. cbn. auto. }
  rewrite !all_pass; [reflexivity| |].
  - intros x I. apply in_map_iff in I. destruct I as (f & <- & I). destruct (X1 f I) as (f0 & If0 & Cf). destruct (check_field_name _ _ _ _ Cf) as [En Et].
    destruct (wt_assoc sc0 _ _ _ W1 NDf If0) as (v & Ev & Wv & Iv). rewrite En, Ev. apply One; [unfold all_fields; apply in_app_iff; auto|now rewrite Et|].
    eapply field_height; eauto.
  - intros x I. apply in_map_iff in I. destruct I as (o & <- & I). destruct (X2 o I) as (o0 & Io0 & Co).
    destruct (check_oneof_parts _ _ _ _ Co) as (En & Er & Ff).
    destruct (wt_assoc_oneof sc0 _ _ _ W2 ND2 Io0) as (s & Es & Ws & Is). rewrite En, Es.
    specialize (Po o I). inversion Ws as [o' E1 E2|o' f0 v If Wv E1 E2]; subst; cbn [run_oneof].
    + destruct (o_required o) as [[]|]; auto. contradiction.
    + destruct (find _ _) as [f|] eqn:Ffi; auto. apply find_some in Ffi. destruct Ffi as [If' Q]. apply String.eqb_eq in Q.
      assert (ND := oneof_nodup _ _ ND1 Io0).
      assert (Tf : f_type f = f_type f0).
      { clear - Ff If If' Q ND. induction Ff as [|a b l l' Hc Fr IH]; [contradiction|]. cbn in ND. apply NoDup_cons_iff in ND. destruct ND as [A B].
        destruct (check_field_name _ _ _ _ Hc) as [En Et].
        assert (Nm : forall g, In g l' -> In (f_name g) (map f_name l)).
        { clear - Fr. induction Fr as [|x y t t' Hh _ IH]; [intros g []|]. destruct (check_field_name _ _ _ _ Hh) as [E _]. intros g [<-|I]; cbn; auto. }
        destruct If as [->|If], If' as [->|If']; auto.
        - exfalso. apply A. rewrite Q. now apply Nm.
        - exfalso. apply A. rewrite <- En, <- Q. now apply in_map. }
      apply One; [unfold all_fields; apply in_app_iff; right; apply in_flat_map; eauto|now rewrite Tf|eapply oneof_height; eauto].
Qed.

Theorem py_validate_says fuel : forall n d0 m, find_msg sc0 n = Some d0 -> wt_msg sc0 d0 m -> py_values sc orc pl n m ->
  (mheight m < fuel)%nat ->
  says (py_validate_f pl pn sc0 fuel n m) (validated_type sc0 n = true -> V n m).
Proof.
  induction fuel as [|k IH]; intros n d0 m F0 W A L; [lia|]. cbn [py_validate_f]. rewrite F0.
  destruct (ck_find re_ok sc0 sc n d0 checked F0) as (d & F & Hck & Hin & Hin0).
  destruct (check_msg_name _ _ _ _ Hck) as (N1 & N2 & N3).
  assert (Hm : validated_type sc0 n = match md_methods d with MNone => false | _ => true end) by (unfold validated_type; rewrite F0, N2; reflexivity).
  assert (Sh := ps_shape _ _ _ _ _ _ PS d Hin).
  assert (Ms := fun o => ps_members _ _ _ _ _ _ PS d o Hin).
  assert (Nm := find_name _ _ F0).
  unfold py_msg. rewrite (py_body_same re_ok sc0 pl _ pn d0 d Hck Sh). rewrite <- N3.
  destruct (py_body_renders sc0 pl (py_validate_f pl pn sc0 k) pn d Sh Ms) as (c & Ec).
  assert (Rc : run c m = run_code (py_body pl sc0 (py_validate_f pl pn sc0 k) pn d) m) by (rewrite Ec; reflexivity).
  rewrite Ec. destruct (md_disabled d) eqn:Ed; cbn [orb].
  { left. split; auto. intros _. apply (valid_step orc sc0 n m d0 F0). left. congruence. }
  destruct (pn_ignored pn (md_name d0)) eqn:Ei.
  { rewrite <- N1 in Ei. apply (ps_ignored _ _ _ _ _ _ PS d Hin) in Ei. rewrite Ei in Hm. left. split; auto. congruence. }
  rewrite Rc.
  destruct (md_methods d) eqn:Em.
  3:{ left. split; [|congruence]. rewrite <- N1 in Ei. apply (plain_pass _ d0 d m Hin0 Hck Ed (ps_plain _ _ _ _ _ _ PS d Hin Em Ei) Sh Ms W).
      intros n' d' x F' M' W' L'.
      assert (Hv : validated_type sc0 n' = false) by (unfold validated_type; rewrite F', M'; reflexivity).
      destruct (ck_find re_ok sc0 sc n' d' checked F') as (d1 & F1 & C1 & _). destruct (check_msg_name _ _ _ _ C1) as (_ & Q & _).
      assert (A' : py_values sc orc pl n' x) by (eapply ev_inactive; [exact F1|]; unfold active; rewrite Q, M'; apply andb_false_r).
      destruct (IH n' d' x F' W' A' ltac:(lia)) as [[-> _]|[_ K]]; auto. exfalso. apply K. rewrite Hv. discriminate. }
  all: assert (Act : active d = true) by (unfold active; rewrite Ed, Em; reflexivity).
  all: assert (Eg : emb_good (py_validate_f pl pn sc0 k) (mheight m)) by (intros n' d' x B1 B2 B3 B4 B5; eapply IH; eauto; lia).
  all: assert (Fr : Forall py_frag (all_fields d)) by (assert (Jf := ps_fields _ _ _ _ _ _ PS d Hin Act); rewrite Forall_forall in *; intros f If; split; auto).
  all: assert (Gn : google pn n = false) by (apply goo; exact Hm).
  all: rewrite run_py_body; [|exact Sh|exact Ms|intros; eapply oneof_names; eauto]; rewrite N1, Nm.
  all: eapply says_iff;
    [etransitivity; [apply and_comm|apply (parts_valid re_ok sc0 orc d0 d n m F0 Hck Act Hm)]
    |apply says_seq;
      [apply (oneofs_say re_ok sc0 sc orc wf OK V leaf callable py_frag py_frag_shape (run_py_field sc0 pl pn n) (run_field_says V n Gn) _ d0 d n m F Hin0 Hck Act W A Fr Eg)
      |intros _; apply (fields_say re_ok sc0 sc orc wf OK V leaf callable py_frag py_frag_shape (run_py_field sc0 pl pn n) (run_field_says V n Gn) _ d0 d n m F Hin0 Hck Act W A Fr Eg)]].
Qed.
End Run.

(** ** No source *)
Lemma seq_none {A} (l : list (code A)) : In None l -> seq l = None.
Proof.
  induction l as [|c t IH]; [intros []|]. intros [->|I]; [reflexivity|]. cbn [seq]. rewrite (IH I). destruct c; reflexivity.
Qed.
Lemma seq_idle {A} (l : list (code A)) : Forall (fun c => c = Some []) l -> seq l = Some [].
Proof. induction 1 as [|c t -> _ IH]; [reflexivity|]. cbn [seq]. now rewrite IH. Qed.
Lemma idle_size {A} (o : option N) (s : N -> A -> outcome) : no_size o -> if_size o s = Some [].
Proof. intros [->| ->]; reflexivity. Qed.
Lemma idle_text {A} (o : option bytes) (s : bytes -> A -> outcome) : no_text o -> if_text o s = Some [].
Proof. intros [->| ->]; reflexivity. Qed.
Lemma idle_none pl sc e r : ignoring r -> idle r -> py_scalar pl sc e r = None.
Proof.
  intros G D. destruct r as [k r|c|r|r|r|r|r|r|r|r]; cbn [ignoring idle] in *; try contradiction; cbn [py_scalar].
  - destruct D as (D1 & D2 & D3 & D4 & D5 & D6 & D7). unfold py_num.
    replace (is_some (n_ignore_empty r)) with true by (destruct (n_ignore_empty r); auto; now destruct G).
    rewrite D1, D2, D3, D4, D5, D6, D7. reflexivity.
  - destruct D as (D1 & D2 & D3 & D4 & D5 & D6). unfold py_string. rewrite G. cbn [getb guarded].
    rewrite seq_idle; [reflexivity|].
    repeat match goal with H : Forall _ (_ :: _) |- _ => inversion_clear H end.
    rewrite D1, D2, D3. repeat (apply Forall_cons; [first [reflexivity|now apply idle_size|now apply idle_text|idtac]|]); [| |apply Forall_nil].
    + unfold py_pattern. destruct (s_wk r) as [[[]|[]|[]|[]|[]|[]|[]|[]|[]|[]]|]; try contradiction; now apply idle_text.
    + destruct (s_wk r) as [[[]|[]|[]|[]|[]|[]|[]|[]|[]|[]]|]; try contradiction; reflexivity.
  - destruct D as (D1 & D2 & D3 & D4 & D5 & D6). unfold py_bytes. rewrite G. cbn [getb guarded].
    rewrite seq_idle; [reflexivity|].
    repeat match goal with H : Forall _ (_ :: _) |- _ => inversion_clear H end.
    rewrite D1, D2, D3. repeat (apply Forall_cons; [first [reflexivity|now apply idle_size|now apply idle_text|idtac]|]); [|apply Forall_nil].
    destruct (b_wk r) as [[[]|[]|[]]|]; try contradiction; reflexivity.
Qed.

(** A field without source. *)
Lemma no_source pl pn sc n d f : find_msg sc n = Some d -> In f (md_fields d) ->
  (forall v, py_field pl sc v pn (md_name d) f = None) -> forall fuel m, py_validate_f pl pn sc fuel n m = Crashes.
Proof.
  intros F I E fuel m. destruct fuel as [|k]; [reflexivity|]. cbn [py_validate_f]. rewrite F. unfold py_msg.
  assert (Q : py_body pl sc (py_validate_f pl pn sc k) pn d = None); [|now rewrite Q].
  unfold py_body. apply seq_none. apply in_app_iff. right. apply in_map_iff. exists f. split; [now rewrite E|exact I].
Qed.
Lemma told_ignoring s : s_ignore_empty s = Some true -> told (RString s) = true.
Proof. intros G. cbn. rewrite G. cbn. rewrite ?orb_true_r. reflexivity. Qed.
Lemma guarded_none {A} b (g : A -> bool) : guarded b g None = None.
Proof. destruct b; reflexivity. Qed.
Lemma items_headless pl sc v pn n f r mr s : f_type f = FRep TString -> f_rules f = FR None (Some (RRepeated r)) ->
  r_items r = Some (FR mr (Some (RString s))) -> s_ignore_empty s = Some true -> py_field pl sc v pn n f = None.
Proof.
  intros T R E G. unfold py_field. rewrite R, T. cbn [is_some orb negb fields_embed is_embed told_message].
  destruct (told (RRepeated r)); [|reflexivity]. unfold py_repeated.
  rewrite (seq_none _); [now rewrite guarded_none|]. do 4 right. left. rewrite E.
  assert (K := told_ignoring _ G). cbn [told_rules py_switcher]. rewrite K. cbn [orb]. rewrite ?orb_true_r.
  unfold py_inline. cbn [headless]. rewrite G. reflexivity.
Qed.
Lemma keys_headless pl sc v pn n f r w mr s : f_type f = FMap TString w -> f_rules f = FR None (Some (RMap r)) ->
  p_keys r = Some (FR mr (Some (RString s))) -> s_ignore_empty s = Some true -> py_field pl sc v pn n f = None.
Proof.
  intros T R E G. unfold py_field. rewrite R, T. cbn [is_some orb negb fields_embed is_embed told_message wrapper_rule andb].
  destruct (told (RMap r)); [|reflexivity]. unfold py_map.
  rewrite (seq_none _); [now rewrite guarded_none|]. do 2 right. left. rewrite E.
  assert (K := told_ignoring _ G). cbn [told_rules py_keys]. rewrite K. cbn [orb]. rewrite ?orb_true_r.
  unfold py_inline. cbn [headless]. rewrite G. reflexivity.
Qed.
Lemma values_headless pl sc v pn n f r k mr s : f_type f = FMap k TString -> f_rules f = FR None (Some (RMap r)) ->
  p_values r = Some (FR mr (Some (RString s))) -> s_ignore_empty s = Some true -> py_field pl sc v pn n f = None.
Proof.
  intros T R E G. unfold py_field. rewrite R, T. cbn [is_some orb negb fields_embed is_embed told_message wrapper_rule andb].
  destruct (told (RMap r)); [|reflexivity]. unfold py_map.
  rewrite (seq_none _); [now rewrite guarded_none|]. do 2 right. left. rewrite E.
  assert (K := told_ignoring _ G). cbn [told_rules py_switcher]. rewrite K. cbn [orb]. rewrite ?orb_true_r.
  unfold py_inline. cbn [headless]. rewrite G. now destruct (py_keys pl sc k (p_keys r)).
Qed.
