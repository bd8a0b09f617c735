(** Validation in C++ agrees with the rules: fields and messages. *)
From Coq Require Import Lia Floats.SpecFloat.
From Verif Require Import Base Utf8 Num Rules Types Time Iface Checker GoSem Spec Meaning Conflict Wt LitSpec BaseFacts Utf8Facts NumFacts TimeFacts
  ExecFacts ExecRule ExecField ExecMsg Main MeaningFacts ConflictFacts Outcome Values Says LangFacts JavaFacts JavaRunFacts Cc CcSpec CcFacts.

Section CcRun.
Variable re_ok : bytes -> bool.
Variable sc0 sc : schema.
Variable orc : oracles.
Variable cl : cc_libs.
Hypothesis checked : check_schema re_ok sc0 = Some sc.
Hypothesis wf : wf_schema sc0.
Hypothesis OK : oracle_ok orc.
Variable V : string -> msgval -> Prop.
Notation leaf := (cc_value cl orc).
Notation callable := (fun _ : string => True).
Notation emb_good := (emb_ok sc0 sc V leaf callable).

Lemma cc_timestamp_says r o : ~ ts_constrained r -> says (cc_timestamp r o) (ts_meaning orc r o).
Proof.
  intros N. unfold cc_timestamp, ts_meaning. apply says_seq; [apply cc_required_says|intros _].
  assert (E : is_some (t_lt r) || is_some (t_lte r) || is_some (t_gt r) || is_some (t_gte r) ||
              is_some (t_lt_now r) || is_some (t_gt_now r) || is_some (t_within r) || is_some (t_const r) = false).
  { apply not_true_iff_false. intros E. apply N. unfold ts_constrained. rewrite !orb_true_iff in E.
    assert (O : forall A (x : option A), is_some x = true -> x <> None) by (intros A []; cbn; congruence).
    destruct E as [[[[[[[E|E]|E]|E]|E]|E]|E]|E]; apply O in E; tauto. }
  rewrite E. left. split; auto. intros t _ K. contradiction.
Qed.

Lemma cc_rule_says p e r v : cc_rule_ok cl p e r -> sane r -> wt_elem sc0 e v -> cc_ruled cl orc r v ->
  says (cc_rule cl sc e r v) (rule_flat orc sc0 e r v).
Proof.
  intros (_ & _ & J) S W R. destruct r; try contradiction; destruct e; try contradiction; inversion W; subst; cbn [cc_rule rule_flat rule_meaning].
  - destruct J as [<- J]. apply cc_num_says; auto.
  - apply cc_bool_says.
  - destruct S as (S1 & S2 & S3 & _). eapply cc_string_says; eauto.
  - apply cc_bytes_says; auto.
  - eapply says_iff; [|apply cc_enum_says; exact S]. unfold enum_meaning. rewrite (defined_same re_ok sc0 sc checked). reflexivity.
  - apply cc_any_says; auto.
  - apply cc_duration_says; auto. discriminate.
  - apply cc_duration_says; auto. intros x [= <-]. exact R.
  - apply cc_timestamp_says; auto.
  - apply cc_timestamp_says; auto.
Qed.

Lemma cc_has_set b v : (b = true -> is_set v) -> cc_has b v = true <-> is_set v.
Proof.
  intros H. unfold cc_has. rewrite orb_true_iff.
  destruct v as [| | | | |[]|[]|[]|[]|[]| |]; cbn in *; split; auto; try congruence; intros [K|K]; auto; try discriminate.
Qed.

Lemma cc_elem_says emb inside u p e fr v : cc_elem_ok cl p e fr -> (inside = true -> p <> PField) -> sane_fr fr -> wt_elem sc0 e v ->
  all_elem sc leaf inside u e fr v -> emb_good emb (vheight v) ->
  says (cc_elem cl sc emb inside e (Some fr) v) (elem_flat orc sc0 V e fr v).
Proof.
  intros J P S W A E. inversion A as [b' u' e' fr' v' (L1 & L3) D X1 X2 X3 X4 X5]. subst b' u' e' fr' v'. clear A.
  destruct fr as [mr [r|]].
  - specialize (L3 mr r eq_refl). cbn [cc_elem_ok sane_fr cc_elem elem_flat] in *.
    destruct e; try (inversion W; subst; eapply cc_rule_says; eauto; fail).
    destruct J as [-> J]. destruct inside; [exfalso; apply P; auto|]. inversion W as [| | | | | | |w'|w' x Wx| | | | |]; subst.
    + cbn [cc_wrapper]. apply says_throw. unfold required. destruct mr as [m0|]; cbn; [destruct (getb (m_required m0))|]; split; auto; discriminate.
    + cbn [cc_wrapper]. eapply cc_rule_says; eauto.
  - cbn [cc_elem elem_flat] in *. destruct (is_embed e) eqn:Ee; cbn [only_if]; [|left; split; auto; discriminate].
    eapply says_iff with (P := (required mr = true -> is_set v) /\ (skipped mr = false -> forall n m1, e = TMsg n -> v = VMsg (Some m1) -> validated_type sc0 n = true -> V n m1)); [tauto|].
    unfold cc_message. fold (skipped mr). fold (required mr).
    assert (Hs := cc_has_set inside v L1).
    apply says_seq; [apply says_if; intros _; apply says_throw; exact Hs|intros _].
    destruct (skipped mr) eqn:Es; cbn [negb only_if]; [left; split; auto; discriminate|].
    destruct (cc_has inside v) eqn:Eh; cbn [only_if].
    + assert (Sv : is_set v) by (now apply Hs). unfold cc_embedded.
      destruct e; try discriminate; try (left; split; auto; intros _ n m1 K; discriminate K).
      inversion W; subst; [cbn in Sv; congruence|]. assert (Df : descends (FR mr None)) by (destruct mr as [mr|]; cbn in *; auto; intros Q; rewrite Q in Es; discriminate).
      eapply says_iff; [|eapply E; eauto].
      split; [intros Q _ n9 m9 [= <-] [= <-]; exact Q|intros Q; apply Q; auto].
    + assert (Sv : ~ is_set v) by (intros Q; apply Hs in Q; discriminate).
      left. split; auto. intros _ n m1 -> -> _. exfalso. apply Sv. cbn. discriminate.
Qed.

Lemma cc_elem_inner emb b e o v : cc_elem cl sc emb b e o v = cc_elem cl sc emb b e (Some (inner o)) v.
Proof. destruct o; reflexivity. Qed.

Lemma cc_equals_iff e x y : is_embed e = false -> wt_elem sc0 e x -> wt_elem sc0 e y -> cc_equals x y = true <-> same_item x y.
Proof.
  intros He Wx Wy. destruct e; try discriminate; inversion Wx; subst; inversion Wy; subst; cbn [cc_equals same_item].
  - apply num_eqb_spec.
  - rewrite Bool.eqb_true_iff. split; congruence.
  - rewrite bytes_eqb_eq. split; congruence.
  - rewrite bytes_eqb_eq. split; congruence.
  - rewrite Z.eqb_eq. split; congruence.
Qed.

Lemma cc_count_says n mn mx : says (cc_count n mn mx) (count_meaning n mn mx).
Proof.
  unfold cc_count, count_meaning. destruct mn as [a|], mx as [b|]; cbn [is_some].
  - destruct (N.eqb_spec a 0) as [->|Na]; cbn [negb]; [|destruct (N.eqb_spec a b) as [->|Nb]]; apply says_throw; split; intros H.
    + split; intros c [= <-]; lia.
    + assert (K := proj2 H b eq_refl). lia.
    + split; intros c [= <-]; lia.
    + assert (K := proj2 H b eq_refl). assert (K' := proj1 H b eq_refl). lia.
    + rewrite negb_true_iff, orb_false_iff in H. split; intros c [= <-]; lia.
    + assert (K := proj2 H b eq_refl). assert (K' := proj1 H a eq_refl). lia.
  - destruct (N.eqb_spec a 0) as [->|Na]; cbn [negb].
    + left. split; auto. split; [|discriminate]. intros c [= <-]. lia.
    + apply says_throw. split; intros H.
      * split; [|discriminate]. intros c [= <-]. lia.
      * destruct H as [H _]. specialize (H a eq_refl). lia.
  - cbn. apply says_throw. split; intros H.
    + split; [discriminate|]. intros c [= <-]. lia.
    + assert (K := proj2 H b eq_refl). lia.
  - left. split; auto. split; discriminate.
Qed.

(** The loop over a list. *)
Lemma cc_items_says emb u e o (G : value -> Prop) (P : value -> Prop) l : forall seen,
  (u = true -> forall x y, G x -> G y -> cc_equals x y = true <-> same_item x y) ->
  (forall x, In x seen \/ In x l -> G x) ->
  (forall x, In x l -> says (cc_elem cl sc emb true e o x) (P x)) ->
  says (cc_items cl sc emb u e o seen l)
    ((u = true -> forall j y, nth_error l j = Some y ->
        (forall x, In x seen -> ~ same_item y x) /\ (forall i x, i < j -> nth_error l i = Some x -> ~ same_item y x)) /\
     (forall x, In x l -> P x)).
Proof.
  induction l as [|a t IH]; intros seen Q Hg Hp; cbn [cc_items].
  - left. split; auto. split; [|contradiction]. intros _ [|j] y; discriminate.
  - assert (H1 : says (only_if u (throw_unless (negb (existsb (cc_equals a) seen)))) (u = true -> forall x, In x seen -> ~ same_item a x)).
    { apply says_if. intros U. apply says_throw. rewrite negb_true_iff, <- not_true_iff_false, existsb_exists. split.
      - intros H x Ix K. apply H. exists x. split; auto. apply Q; auto. apply Hg. right. left. auto.
      - intros H (x & Ix & K). apply (H x Ix). apply Q; auto. apply Hg. right. left. auto. }
    assert (H2 := Hp a (or_introl eq_refl)).
    assert (H3 := IH (a :: seen) Q ltac:(cbn; intros x [[<-|]|]; apply Hg; cbn; auto) ltac:(intros; apply Hp; right; auto)).
    eapply says_iff; [|apply says_seq; [exact H1|intros _; apply says_seq; [exact H2|intros _; exact H3]]]. clear.
    split.
    + intros (A & B & C & D). split.
      * intros U [|j] y Hy; cbn in Hy.
        -- injection Hy as <-. split; [auto|]. intros i x Hi. lia.
        -- destruct (C U j y Hy) as [C1 C2]. split; [intros x Ix; apply C1; right; auto|].
           intros [|i] x Hi Hx; cbn in Hx; [injection Hx as <-; apply C1; left; auto|]. apply (C2 i x); auto. lia.
      * intros x [<-|Ix]; auto.
    + intros (A & B). split; [|split; [|split]].
      * intros U x Ix. destruct (A U 0 a eq_refl) as [A1 _]. auto.
      * apply B. left. auto.
      * intros U j y Hy. destruct (A U (S j) y Hy) as [A1 A2]. split.
        -- intros x [<-|Ix]; auto. apply (A2 0 a); auto. lia.
        -- intros i x Hi Hx. apply (A2 (S i) x); auto. lia.
      * intros x Ix. apply B. right. auto.
Qed.

Lemma cc_none_flat e o x : cc_none e o = true -> elem_flat orc sc0 V e (inner o) x.
Proof. intros H. destruct o as [[mr [r|]]|]; cbn in *; try discriminate; destruct (is_embed e); discriminate. Qed.

Lemma cc_rep_says emb e r l : (r_unique r = Some true -> is_embed e = false) ->
  cc_elem_ok cl PItem e (inner (r_items r)) -> sane_fr (inner (r_items r)) -> Forall (wt_elem sc0 e) l ->
  (forall x, In x l -> all_elem sc leaf true (match r_unique r with Some true => true | _ => false end) e (inner (r_items r)) x) ->
  emb_good emb (list_max (map vheight l)) ->
  says (cc_repeated cl sc emb e r l) (rep_flat orc sc0 V e r l).
Proof.
  intros U J S W A E. unfold cc_repeated, rep_flat. apply says_ignore; [apply is_nil_true|].
  rewrite Forall_forall in W. apply says_seq; [apply cc_count_says|intros _].
  assert (L := cc_items_says emb (getb (r_unique r)) e (r_items r) (wt_elem sc0 e) (elem_flat orc sc0 V e (rules_or_none (r_items r))) l []).
  specialize (L ltac:(intros Hu x y Wx Wy; apply getb_true in Hu; apply (cc_equals_iff e); auto) ltac:(intros x [[]|I]; auto)).
  specialize (L ltac:(intros x Ix; rewrite cc_elem_inner; eapply cc_elem_says; eauto; [discriminate|]; eapply emb_le; [|exact E]; now apply list_height)).
  destruct (getb (r_unique r) || negb (cc_none e (r_items r))) eqn:Ed; cbn [only_if].
  - eapply says_iff; [|exact L]. rewrite getb_true. apply and_iff_compat_r. split.
    + intros H Hu i j x y Hij Hx Hy. destruct (H Hu j y Hy) as [_ K]. eauto.
    + intros H Hu j y Hy. split; [intros x []|]. intros i x Hi Hx. eapply H; eauto.
  - apply orb_false_iff in Ed. destruct Ed as [E1 E2]. apply negb_false_iff in E2. left. split; auto. split.
    + intros Hu. apply getb_true in Hu. congruence.
    + intros x _. now apply cc_none_flat.
Qed.

Lemma cc_map_says emb k w r l : p_no_sparse r <> Some true ->
  cc_elem_ok cl PEntry k (inner (p_keys r)) -> cc_elem_ok cl PEntry w (inner (p_values r)) ->
  sane_fr (inner (p_keys r)) -> sane_fr (inner (p_values r)) -> map_key k = true ->
  Forall (fun p => wt_elem sc0 k (fst p) /\ wt_elem sc0 w (snd p)) l ->
  (forall x y, In (x, y) l -> all_elem sc leaf true false k (inner (p_keys r)) x /\ all_elem sc leaf true false w (inner (p_values r)) y) ->
  emb_good emb (list_max (map (fun p => vheight (snd p)) l)) ->
  says (cc_map cl sc emb k w r l) (map_flat orc sc0 V k w r l).
Proof.
  intros NS J1 J2 S1 S2 MK W A E. unfold cc_map, map_flat. apply says_ignore; [apply is_nil_true|].
  rewrite Forall_forall in W. apply says_seq; [apply cc_count_says|intros _].
  assert (Gs : getb (p_no_sparse r) = false) by (destruct (p_no_sparse r) as [[]|]; auto; congruence). rewrite Gs. cbn [orb only_if].
  apply (says_iff _ (forall x y, In (x, y) l -> elem_flat orc sc0 V k (rules_or_none (p_keys r)) x /\ elem_flat orc sc0 V w (rules_or_none (p_values r)) y)).
  { split; [intros H; split; [congruence|exact H]|tauto]. }
  destruct (_ || _) eqn:Ed; cbn [only_if].
  - rewrite andthen_passes.
    apply (says_iff _ (forall p, In p l -> elem_flat orc sc0 V k (inner (p_keys r)) (fst p) /\ elem_flat orc sc0 V w (inner (p_values r)) (snd p))).
    { split; [intros H x y I; apply (H _ I)|intros H [x y] I; apply (H _ _ I)]. }
    apply says_map with (P := fun p => elem_flat orc sc0 V k (inner (p_keys r)) (fst p) /\ elem_flat orc sc0 V w (inner (p_values r)) (snd p)).
    intros [x y] I. destruct (A x y I) as [Ax Ay]. destruct (W _ I) as [Wx Wy]. cbn [fst snd] in *. rewrite (cc_elem_inner emb true k), (cc_elem_inner emb true w). apply says_seq; [|intros _].
    + eapply cc_elem_says; eauto; [discriminate|]. eapply emb_le; [|exact E]. assert (vheight x = 0) as ->; [|lia]. destruct k; try discriminate; inversion Wx; reflexivity.
    + eapply cc_elem_says; eauto; [discriminate|]. eapply emb_le; [|exact E]. exact (list_max_in (fun p => vheight (snd p)) l _ I).
  - apply orb_false_iff in Ed. rewrite !negb_false_iff in Ed. destruct Ed as [E1 E2]. left. split; auto. intros x y _. split; now apply cc_none_flat.
Qed.

Lemma cc_field_says emb f v : cc_field_ok cl f -> sane_field f -> wt_field sc0 (f_type f) v ->
  all_field sc leaf (f_type f) (f_rules f) v -> ftype_ok sc0 (f_type f) -> emb_good emb (vheight v) ->
  says (cc_field cl sc emb f v) (field_flat orc sc0 V f v).
Proof.
  intros J S W A T E. unfold cc_field_ok, sane_field, cc_field, field_flat, rep_of, map_of in *. destruct (f_rules f) as [mr t] eqn:Er. cbn [fr_typ] in *.
  destruct (f_type f) as [e|e|k w] eqn:Et.
  - inversion W; subst. inversion A; subst. eapply cc_elem_says; eauto. discriminate.
  - inversion W as [|e' l Wl|]; subst. inversion A as [|e' fr' l' Al|]; subst.
    destruct t as [[]|]; try contradiction.
    + destruct J as (_ & _ & J2 & J3). apply cc_rep_says; auto. intros Q. apply J2. exact Q.
    + apply cc_rep_says; auto; try discriminate.
  - inversion W as [| |k' w' l Wl]; subst. inversion A as [| |k' w' fr' l' Al]; subst. destruct T as [MK _].
    assert (Ek : is_embed k = false) by (destruct k; auto; discriminate).
    destruct t as [[]|]; try contradiction.
    + destruct J as (_ & _ & J2 & _ & J3 & J4), S as [S1 S2]. apply cc_map_says; auto.
    + destruct (is_embed w) eqn:Ew; cbn [only_if].
      * apply cc_map_says; cbn [p_min p_max p_no_sparse p_keys p_values inner]; auto; try discriminate; try exact I; try exact Al.
      * left. split; auto. right. cbn [p_min p_max p_no_sparse p_keys p_values rules_or_none]. repeat split; try discriminate; apply key_flat; auto.
Qed.

Lemma cc_field_shape f : cc_field_ok cl f ->
  match f_type f, fr_typ (f_rules f) with FRep _, Some (RRepeated _) | FRep _, None | FMap _ _, Some (RMap _) | FMap _ _, None | FOne _, _ => True | _, _ => False end.
Proof. unfold cc_field_ok. destruct (f_type f), (fr_typ (f_rules f)) as [[]|]; auto. Qed.

End CcRun.

Section CcMsg.
Variable re_ok : bytes -> bool.
Variable sc0 sc : schema.
Variable orc : oracles.
Variable cl : cc_libs.
Hypothesis checked : check_schema re_ok sc0 = Some sc.
Hypothesis wf : wf_schema sc0.
Hypothesis OK : oracle_ok orc.
Notation V := (valid orc sc0).
Notation leaf := (cc_value cl orc).
Notation callable := (fun _ : string => True).
Notation emb_good := (emb_ok sc0 sc V leaf callable).
Hypothesis frag : cc_schema cl sc.

Theorem cc_validate_says fuel : forall n d0 m, find_msg sc0 n = Some d0 -> wt_msg sc0 d0 m -> all_values sc leaf n m ->
  (mheight m < fuel)%nat ->
  says (cc_validate_f cl sc fuel n m) (validated_type sc0 n = true -> V n m).
Proof.
  induction fuel as [|k IH]; intros n d0 m F0 W A L; [lia|]. cbn [cc_validate_f].
  destruct (ck_find re_ok sc0 sc n d0 checked F0) as (d & F & Hck & Hin & Hin0). rewrite F.
  destruct (check_msg_name _ _ _ _ Hck) as (N1 & N2 & N3).
  assert (Hm : validated_type sc0 n = match md_methods d with MNone => false | _ => true end) by (unfold validated_type; rewrite F0, N2; reflexivity).
  destruct (md_methods d) eqn:Em; try (left; split; auto; congruence).
  all: unfold cc_msg; destruct (md_disabled d) eqn:Ed;
    [left; split; auto; intros _; apply (valid_step orc sc0 n m d0 F0); left; congruence|].
  all: assert (Act : active d = true) by (unfold active; rewrite Ed, Em; reflexivity).
  all: assert (Eg : emb_good (cc_validate_f cl sc k) (mheight m)) by (intros n' d' x B1 B2 B3 B4 B5; eapply IH; eauto; lia).
  all: assert (Fr : Forall (cc_field_ok cl) (all_fields d)) by (apply frag; auto).
  all: eapply says_iff;
    [apply (parts_valid re_ok sc0 orc d0 d n m F0 Hck Act Hm)
    |apply says_seq;
      [apply (fields_say re_ok sc0 sc orc wf OK V leaf callable (cc_field_ok cl) (cc_field_shape cl) (cc_field cl sc) (cc_field_says re_ok sc0 sc orc cl checked V) _ d0 d n m F Hin0 Hck Act W A Fr Eg)
      |intros _; apply (oneofs_say re_ok sc0 sc orc wf OK V leaf callable (cc_field_ok cl) (cc_field_shape cl) (cc_field cl sc) (cc_field_says re_ok sc0 sc orc cl checked V) _ d0 d n m F Hin0 Hck Act W A Fr Eg)]].
Qed.
End CcMsg.
