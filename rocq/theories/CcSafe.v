(** C++ code with rules that are not implemented: fields and messages. *)
From Coq Require Import Lia Floats.SpecFloat.
From Verif Require Import GoCompile Base Utf8 Num Rules Types Time Iface Checker GoSem Spec Meaning Conflict Wt LitSpec BaseFacts Utf8Facts NumFacts TimeFacts
  ExecFacts ExecRule ExecField ExecMsg Main MeaningFacts ConflictFacts Outcome Values Says Tells LangFacts LangSafe JavaFacts JavaRunFacts
  Java JavaSpec Cc CcSpec CcFacts CcRunFacts SafeSpec.

Section CcSafe.
Variable re_ok : bytes -> bool.
Variable sc0 sc : schema.
Variable orc : oracles.
Variable cl : cc_libs.
Hypothesis checked : check_schema re_ok sc0 = Some sc.
Hypothesis wf : wf_schema sc0.
Hypothesis OK : oracle_ok orc.
Notation V := (valid orc sc0).
Notation leaf := (cc_value cl orc).
Notation callable := (fun _ : string => True).
Notation emb_good := (emb_safe sc0 sc orc leaf callable).

Lemma guard_false o (s : bytes) : negb (getb o && is_nil s) = false -> o = Some true /\ s = [].
Proof. intros H. apply negb_false_iff, andb_true_iff in H. destruct H as [A B]. destruct o as [[]|]; try discriminate. split; auto. now apply is_nil_true. Qed.

Lemma cc_string_tells r s : (exists r', cc_part (RString r) = RString r' /\ cc_str_ok r') -> is_bytes s = true -> s_in r = [] \/ s_not_in r = [] ->
  check_len (s_len r) (s_min_len r) (s_max_len r) = true -> check_len (s_len_bytes r) (s_min_bytes r) (s_max_bytes r) = true ->
  cc_ruled cl orc (RString r) (VStr s) -> tells (cc_string cl r s) (str_flat orc r s).
Proof.
  intros (r' & E & J) B D L1 L2 R. cbn [cc_part] in E.
  assert (Alt : r' = r \/ (r' = mkStringRules (s_const r) (s_len r) (s_min_len r) (s_max_len r) (s_len_bytes r) (s_min_bytes r) (s_max_bytes r)
      (s_pattern r) (s_prefix r) (s_suffix r) (s_contains r) (s_not_contains r) (s_in r) (s_not_in r) None (s_strict r) (s_ignore_empty r) /\
      cc_well_known cl (s_wk r) s = Unimplemented)).
  { destruct (s_wk r) as [[[]|[]|[]|[]|[]|[]|[]|[]|[]|]|]; injection E as <-; auto. }
  destruct Alt as [->|[-> W]]; [apply tells_says, cc_string_says; auto|].
  assert (S := cc_string_says orc cl _ s J B D L1 L2).
  specialize (S ltac:(destruct R as (R1 & R2 & R3); split; [exact R1|split; [exact R2|discriminate]])).
  unfold cc_string in *. cbn [s_const s_len s_min_len s_max_len s_len_bytes s_min_bytes s_max_bytes s_pattern s_prefix s_suffix s_contains s_not_contains s_in s_not_in s_wk s_strict s_ignore_empty cc_well_known] in S.
  rewrite W.
  match goal with |- tells (only_if ?g (in_order ?l)) _ => change l with (removelast l ++ [Unimplemented])%list end.
  eapply tells_last; [exact S| |].
  - unfold str_flat. cbn [s_const s_len s_min_len s_max_len s_len_bytes s_min_bytes s_max_bytes s_pattern s_prefix s_suffix s_contains s_not_contains s_in s_not_in s_wk s_strict s_ignore_empty].
    intros [H|H]; [left; exact H|right]. decompose [and] H. repeat (split; [assumption|]). discriminate.
  - intros G. left. now apply guard_false.
Qed.

Lemma cc_bytes_tells r s : (exists r', cc_part (RBytes r) = RBytes r' /\ cc_byt_ok r') -> b_in r = [] \/ b_not_in r = [] -> cc_ruled cl orc (RBytes r) (VByt s) ->
  tells (cc_bytes cl r s) (byt_meaning orc r s).
Proof.
  intros (r' & E & J) D R. cbn [cc_part] in E. injection E as <-.
  assert (S := cc_bytes_says orc cl _ s J D R).
  assert (Alt : (b_wk r <> Some (BIp true) /\ b_wk r <> Some (BIpv4 true) /\ b_wk r <> Some (BIpv6 true)) \/
     match b_wk r with Some (BIp true) | Some (BIpv4 true) | Some (BIpv6 true) => Unimplemented | _ => Passes end = Unimplemented).
  { destruct (b_wk r) as [[[]|[]|[]]|]; auto; left; repeat split; discriminate. }
  destruct Alt as [(W1 & W2 & W3)|W].
  - apply tells_says, cc_bytes_says; auto. destruct J as (J1 & J2 & J3 & _). repeat (split; auto).
  - unfold cc_bytes in *. cbn [b_const b_len b_min_len b_max_len b_pattern b_prefix b_suffix b_contains b_in b_not_in b_wk b_ignore_empty] in S. rewrite W.
    match goal with |- tells (only_if ?g (in_order ?l)) _ => change l with (removelast l ++ [Unimplemented])%list end.
    eapply tells_last; [exact S| |].
    + unfold byt_meaning. cbn [b_const b_len b_min_len b_max_len b_pattern b_prefix b_suffix b_contains b_in b_not_in b_wk b_ignore_empty].
      intros [H|H]; [left; exact H|right]. decompose [and] H. repeat (split; [first [assumption|discriminate]|]). assumption.
    + intros G. left. now apply guard_false.
Qed.

Lemma cc_timestamp_tells r o : tells (cc_timestamp r o) (ts_meaning orc r o).
Proof.
  unfold cc_timestamp, ts_meaning. apply tells_seq; [apply tells_says, cc_required_says|intros _].
  destruct (_ || _) eqn:E; cbn [only_if]; [apply tells_never|]. left. split; auto. intros t _ K. exfalso.
  repeat (apply orb_false_iff in E; let B := fresh in destruct E as [E B]).
  unfold ts_constrained in K. assert (N : forall A (x : option A), is_some x = false -> ~ x <> None) by (intros A []; cbn; congruence).
  repeat match goal with X : is_some _ = false |- _ => apply N in X end. tauto.
Qed.

Lemma cc_rule_tells p e r v : cc_rule_ok cl p e (cc_part r) -> sane r -> wt_elem sc0 e v -> cc_ruled cl orc r v ->
  tells (cc_rule cl sc e r v) (rule_flat orc sc0 e r v).
Proof.
  intros J S W R.
  assert (Same : cc_part r = r -> tells (cc_rule cl sc e r v) (rule_flat orc sc0 e r v)).
  { intros Q. rewrite Q in J. apply tells_says. eapply cc_rule_says; eauto. }
  destruct r as [| |rs|rb| | | | | |rt]; try (apply Same; reflexivity).
  - assert (X : exists r', cc_part (RString rs) = RString r') by (cbn; destruct (s_wk rs) as [[[]|[]|[]|[]|[]|[]|[]|[]|[]|]|]; eauto).
    destruct X as [r' X]. rewrite X in J. destruct J as (_ & _ & J), e; try contradiction. inversion W; subst. cbn [cc_rule rule_flat].
    destruct S as (S1 & S2 & S3 & _). apply cc_string_tells; eauto.
  - destruct J as (_ & _ & J). cbn [cc_part] in J. destruct e; try contradiction. inversion W; subst. cbn [cc_rule rule_flat rule_meaning].
    apply cc_bytes_tells; auto. eexists. split; [reflexivity|exact J].
  - destruct J as (_ & _ & J). cbn [cc_part] in J. destruct e; try contradiction. inversion W; subst; cbn [cc_rule rule_flat rule_meaning]; apply cc_timestamp_tells.
Qed.

Lemma cc_elem_tells emb inside u p e fr v : cc_elem_ok cl p e (leaf_part cc_part fr) -> (inside = true -> p <> PField) -> sane_fr fr -> wt_elem sc0 e v ->
  all_elem sc leaf inside u e fr v -> emb_good emb (vheight v) ->
  tells (cc_elem cl sc emb inside e (Some fr) v) (elem_flat orc sc0 V e fr v).
Proof.
  intros J P S W A E. inversion A as [b' u' e' fr' v' (L1 & L3) D X1 X2 X3 X4 X5]. subst b' u' e' fr' v'. clear A.
  destruct fr as [mr [r|]].
  - specialize (L3 mr r eq_refl). cbn [cc_elem_ok leaf_part sane_fr cc_elem elem_flat] in *.
    destruct e; try (inversion W; subst; eapply cc_rule_tells; eauto; fail).
    destruct J as [-> J]. destruct inside; [exfalso; apply P; auto|]. inversion W as [| | | | | | |w'|w' x Wx| | | | |]; subst.
    + cbn [cc_wrapper]. apply tells_throw. unfold required. destruct mr as [m0|]; cbn; [destruct (getb (m_required m0))|]; split; auto; discriminate.
    + cbn [cc_wrapper]. eapply cc_rule_tells; eauto.
  - cbn [cc_elem elem_flat] in *. destruct (is_embed e) eqn:Ee; cbn [only_if]; [|left; split; auto; discriminate].
    eapply tells_iff with (P := (required mr = true -> is_set v) /\ (skipped mr = false -> forall n m1, e = TMsg n -> v = VMsg (Some m1) -> validated_type sc0 n = true -> V n m1)); [tauto|].
    unfold cc_message. fold (skipped mr). fold (required mr).
    assert (Hs := cc_has_set inside v L1).
    apply tells_seq; [apply tells_if; intros _; apply tells_throw; exact Hs|intros _].
    destruct (skipped mr) eqn:Es; cbn [negb only_if]; [left; split; auto; discriminate|].
    destruct (cc_has inside v) eqn:Eh; cbn [only_if].
    + assert (Sv : is_set v) by (now apply Hs). unfold cc_embedded.
      destruct e; try discriminate; try (left; split; auto; intros _ n m1 K; discriminate K).
      inversion W; subst; [cbn in Sv; congruence|]. assert (Df : descends (FR mr None)) by (destruct mr as [mr|]; cbn in *; auto; intros Q; rewrite Q in Es; discriminate).
      eapply tells_iff; [|eapply E; eauto].
      split; [intros Q _ n9 m9 [= <-] [= <-]; exact Q|intros Q; apply Q; auto].
    + assert (Sv : ~ is_set v) by (intros Q; apply Hs in Q; discriminate).
      left. split; auto. intros _ n m1 -> -> _. exfalso. apply Sv. cbn. discriminate.
Qed.

(** The loop over a list. *)
Lemma cc_items_tells emb u e o (G : value -> Prop) (P : value -> Prop) l : forall seen,
  (u = true -> forall x y, G x -> G y -> cc_equals x y = true <-> same_item x y) ->
  (forall x, In x seen \/ In x l -> G x) ->
  (forall x, In x l -> tells (cc_elem cl sc emb true e o x) (P x)) ->
  tells (cc_items cl sc emb u e o seen l)
    ((u = true -> forall j y, nth_error l j = Some y ->
        (forall x, In x seen -> ~ same_item y x) /\ (forall i x, i < j -> nth_error l i = Some x -> ~ same_item y x)) /\
     (forall x, In x l -> P x)).
Proof.
  induction l as [|a t IH]; intros seen Q Hg Hp; cbn [cc_items].
  - left. split; auto. split; [|contradiction]. intros _ [|j] y; discriminate.
  - assert (H1 : tells (only_if u (throw_unless (negb (existsb (cc_equals a) seen)))) (u = true -> forall x, In x seen -> ~ same_item a x)).
    { apply tells_if. intros U. apply tells_throw. rewrite negb_true_iff, <- not_true_iff_false, existsb_exists. split.
      - intros H x Ix K. apply H. exists x. split; auto. apply Q; auto. apply Hg. right. left. auto.
      - intros H (x & Ix & K). apply (H x Ix). apply Q; auto. apply Hg. right. left. auto. }
    assert (H2 := Hp a (or_introl eq_refl)).
    assert (H3 := IH (a :: seen) Q ltac:(cbn; intros x [[<-|]|]; apply Hg; cbn; auto) ltac:(intros; apply Hp; right; auto)).
    eapply tells_iff; [|apply tells_seq; [exact H1|intros _; apply tells_seq; [exact H2|intros _; exact H3]]]. clear.
    split.
    + intros (A & B & C & D). split.
      * intros U [|j] y Hy; cbn in Hy.
        -- injection Hy as <-. split; [auto|]. intros i x Hi. lia.
        -- destruct (C U j y Hy) as [C1 C2]. split; [intros x Ix; apply C1; right; auto|].
           intros [|i] x Hi Hx; cbn in Hx; [injection Hx as <-; apply C1; left; auto|]. apply (C2 i x); auto. lia.
      * intros x [<-|Ix]; auto.
    + intros (A & B). split; [|split; [|split]].
      * intros U x Ix. destruct (A U 0 a eq_refl) as [A1 _]. auto.
      * apply B. left. auto.
      * intros U j y Hy. destruct (A U (S j) y Hy) as [A1 A2]. split.
        -- intros x [<-|Ix]; auto. apply (A2 0 a); auto. lia.
        -- intros i x Hi Hx. apply (A2 (S i) x); auto. lia.
      * intros x Ix. apply B. right. auto.
Qed.

Lemma inner_part part o : inner (option_map (leaf_part part) o) = leaf_part part (inner o).
Proof. destruct o as [[mr [r|]]|]; reflexivity. Qed.

Lemma cc_rep_tells emb e r l : (r_unique r = Some true -> is_embed e = false) ->
  cc_elem_ok cl PItem e (leaf_part cc_part (inner (r_items r))) -> sane_fr (inner (r_items r)) -> Forall (wt_elem sc0 e) l ->
  (forall x, In x l -> all_elem sc leaf true (match r_unique r with Some true => true | _ => false end) e (inner (r_items r)) x) ->
  emb_good emb (list_max (map vheight l)) ->
  tells (cc_repeated cl sc emb e r l) (rep_flat orc sc0 V e r l).
Proof.
  intros U J S W A E. unfold cc_repeated, rep_flat. apply tells_ignore; [apply is_nil_true|].
  rewrite Forall_forall in W. apply tells_seq; [apply tells_says, cc_count_says|intros _].
  assert (L := cc_items_tells emb (getb (r_unique r)) e (r_items r) (wt_elem sc0 e) (elem_flat orc sc0 V e (rules_or_none (r_items r))) l []).
  specialize (L ltac:(intros Hu x y Wx Wy; apply getb_true in Hu; apply (cc_equals_iff sc0 e); auto) ltac:(intros x [[]|I]; auto)).
  specialize (L ltac:(intros x Ix; rewrite cc_elem_inner; eapply cc_elem_tells; eauto; [discriminate|]; eapply emb_safe_le; [|exact E]; now apply list_height)).
  destruct (getb (r_unique r) || negb (cc_none e (r_items r))) eqn:Ed; cbn [only_if].
  - eapply tells_iff; [|exact L]. rewrite getb_true. apply and_iff_compat_r. split.
    + intros H Hu i j x y Hij Hx Hy. destruct (H Hu j y Hy) as [_ K]. eauto.
    + intros H Hu j y Hy. split; [intros x []|]. intros i x Hi Hx. eapply H; eauto.
  - apply orb_false_iff in Ed. destruct Ed as [E1 E2]. apply negb_false_iff in E2. left. split; auto. split.
    + intros Hu. apply getb_true in Hu. congruence.
    + intros x _. now apply cc_none_flat.
Qed.

Lemma cc_map_tells emb k w r l :
  cc_elem_ok cl PEntry k (leaf_part cc_part (inner (p_keys r))) -> cc_elem_ok cl PEntry w (leaf_part cc_part (inner (p_values r))) ->
  sane_fr (inner (p_keys r)) -> sane_fr (inner (p_values r)) -> map_key k = true ->
  Forall (fun p => wt_elem sc0 k (fst p) /\ wt_elem sc0 w (snd p)) l ->
  (forall x y, In (x, y) l -> all_elem sc leaf true false k (inner (p_keys r)) x /\ all_elem sc leaf true false w (inner (p_values r)) y) ->
  emb_good emb (list_max (map (fun p => vheight (snd p)) l)) ->
  tells (cc_map cl sc emb k w r l) (map_flat orc sc0 V k w r l).
Proof.
  intros J1 J2 S1 S2 MK W A E. unfold cc_map, map_flat. apply tells_ignore; [apply is_nil_true|].
  rewrite Forall_forall in W. apply tells_seq; [apply tells_says, cc_count_says|intros _].
  assert (Loop : tells (in_order (map (fun kv => andthen (cc_elem cl sc emb true k (p_keys r) (fst kv)) (cc_elem cl sc emb true w (p_values r) (snd kv))) l))
    (forall p, In p l -> elem_flat orc sc0 V k (inner (p_keys r)) (fst p) /\ elem_flat orc sc0 V w (inner (p_values r)) (snd p))).
  { apply tells_map with (P := fun p => elem_flat orc sc0 V k (inner (p_keys r)) (fst p) /\ elem_flat orc sc0 V w (inner (p_values r)) (snd p)).
    intros [x y] I. destruct (A x y I) as [Ax Ay]. destruct (W _ I) as [Wx Wy]. cbn [fst snd] in *. rewrite (cc_elem_inner sc cl emb true k), (cc_elem_inner sc cl emb true w). apply tells_seq; [|intros _].
    + eapply cc_elem_tells; eauto; [discriminate|]. eapply emb_safe_le; [|exact E]. assert (vheight x = 0) as ->; [|lia]. destruct k; try discriminate; inversion Wx; reflexivity.
    + eapply cc_elem_tells; eauto; [discriminate|]. eapply emb_safe_le; [|exact E]. exact (list_max_in (fun p => vheight (snd p)) l _ I). }
  destruct (getb (p_no_sparse r)) eqn:Gs; cbn [orb only_if].
  - (* never Passes *)
    destruct Loop as [[-> H]|[[-> H]| -> ]]; cbn [andthen]; [apply tells_never|right; left; split; auto|apply tells_never].
    intros [_ K]. apply H. intros [x y] I. exact (K x y I).
  - apply (tells_iff _ (forall x y, In (x, y) l -> elem_flat orc sc0 V k (rules_or_none (p_keys r)) x /\ elem_flat orc sc0 V w (rules_or_none (p_values r)) y)).
    { split; [intros H; split; [intros Q; rewrite Q in Gs; discriminate|exact H]|tauto]. }
    destruct (_ || _) eqn:Ed; cbn [only_if].
    + rewrite andthen_passes. eapply tells_iff; [|exact Loop]. split; [intros H x y I; apply (H _ I)|intros H [x y] I; apply (H _ _ I)].
    + apply orb_false_iff in Ed. rewrite !negb_false_iff in Ed. destruct Ed as [E1 E2]. left. split; auto. intros x y _. split; now apply cc_none_flat.
Qed.

Notation frag := (fun f => cc_field_ok cl (field_part cc_part f)).

Lemma cc_field_tells emb f v : frag f -> sane_field f -> wt_field sc0 (f_type f) v ->
  all_field sc leaf (f_type f) (f_rules f) v -> ftype_ok sc0 (f_type f) -> emb_good emb (vheight v) ->
  tells (cc_field cl sc emb f v) (field_flat orc sc0 V f v).
Proof.
  intros J S W A T E. unfold cc_field_ok, field_part, sane_field, cc_field, field_flat, rep_of, map_of in *. cbn [f_type f_rules] in J.
  destruct (f_rules f) as [mr t] eqn:Er. cbn [fr_typ] in *.
  destruct (f_type f) as [e|e|k w] eqn:Et.
  - inversion W; subst. inversion A; subst.
    assert (J' : cc_elem_ok cl PField e (leaf_part cc_part (FR mr t))).
    { destruct t as [[]|]; try exact J; exfalso; cbn in J; destruct e; cbn in J; intuition. }
    eapply cc_elem_tells; eauto. discriminate.
  - inversion W as [|e' l Wl|]; subst. inversion A as [|e' fr' l' Al|]; subst.
    destruct t as [t|]; [|apply cc_rep_tells; auto; try discriminate].
    destruct t as [| |rs| | |r| | | |]; try (exfalso; exact J); [exfalso; cbn in J; destruct (s_wk rs) as [[[]|[]|[]|[]|[]|[]|[]|[]|[]|]|]; exact J|].
    cbn [fr_typ r_min r_max r_unique r_items] in J. destruct J as (_ & _ & J2 & J3). rewrite inner_part in J3. apply cc_rep_tells; auto. intros Q. apply J2. exact Q.
  - inversion W as [| |k' w' l Wl]; subst. inversion A as [| |k' w' fr' l' Al]; subst. destruct T as [MK _].
    assert (Ek : is_embed k = false) by (destruct k; auto; discriminate).
    destruct t as [t|].
    + destruct t as [| |rs| | | |r| | |]; try (exfalso; exact J); [exfalso; cbn in J; destruct (s_wk rs) as [[[]|[]|[]|[]|[]|[]|[]|[]|[]|]|]; exact J|].
      cbn [fr_typ p_min p_max p_no_sparse p_keys p_values] in J. destruct J as (_ & _ & _ & _ & J3 & J4), S as [S1 S2]. rewrite inner_part in J3, J4. apply cc_map_tells; auto.
    + destruct (is_embed w) eqn:Ew; cbn [only_if].
      * apply cc_map_tells; cbn [p_min p_max p_no_sparse p_keys p_values inner]; auto; try discriminate; try exact I; try exact Al.
      * left. split; auto. right. cbn [p_min p_max p_no_sparse p_keys p_values rules_or_none]. repeat split; try discriminate; apply key_flat; auto.
Qed.

Lemma cc_part_shape f : frag f ->
  match f_type f, fr_typ (f_rules f) with FRep _, Some (RRepeated _) | FRep _, None | FMap _ _, Some (RMap _) | FMap _ _, None | FOne _, _ => True | _, _ => False end.
Proof.
  unfold cc_field_ok, field_part. cbn [f_type f_rules]. destruct (f_type f), (f_rules f) as [mr [[| |rs| | | | | | |]|]]; cbn; auto.
  all: destruct (s_wk rs) as [[[]|[]|[]|[]|[]|[]|[]|[]|[]|]|]; auto.
Qed.

Hypothesis part : cc_partly cl sc.

Theorem cc_validate_tells fuel : forall n d0 m, find_msg sc0 n = Some d0 -> wt_msg sc0 d0 m -> all_values sc leaf n m ->
  (mheight m < fuel)%nat ->
  tells (cc_validate_f cl sc fuel n m) (validated_type sc0 n = true -> V n m).
Proof.
  induction fuel as [|k IH]; intros n d0 m F0 W A L; [lia|]. cbn [cc_validate_f].
  destruct (ck_find re_ok sc0 sc n d0 checked F0) as (d & F & Hck & Hin & Hin0). rewrite F.
  destruct (check_msg_name _ _ _ _ Hck) as (N1 & N2 & N3).
  assert (Hm : validated_type sc0 n = match md_methods d with MNone => false | _ => true end) by (unfold validated_type; rewrite F0, N2; reflexivity).
  destruct (md_methods d) eqn:Em; try (left; split; auto; congruence).
  all: unfold cc_msg; destruct (md_disabled d) eqn:Ed;
    [left; split; auto; intros _; apply (valid_step orc sc0 n m d0 F0); left; congruence|].
  all: assert (Act : active d = true) by (unfold active; rewrite Ed, Em; reflexivity).
  all: assert (Eg : emb_good (cc_validate_f cl sc k) (mheight m)) by (intros n' d' x B1 B2 B3 B4 B5; eapply IH; eauto; lia).
  all: assert (Fr : Forall frag (all_fields d)) by (apply part; auto).
  all: eapply tells_iff;
    [apply (parts_valid re_ok sc0 orc d0 d n m F0 Hck Act Hm)
    |apply tells_seq;
      [apply (fields_tell re_ok sc0 sc orc wf OK leaf callable frag cc_part_shape (cc_field cl sc) cc_field_tells _ d0 d n m F Hin0 Hck Act W A Fr Eg)
      |intros _; apply (oneofs_tell re_ok sc0 sc orc wf OK leaf callable frag cc_part_shape (cc_field cl sc) cc_field_tells _ d0 d n m F Hin0 Hck Act W A Fr Eg)]].
Qed.
End CcSafe.

(** ** What has not been implemented does not pass *)
Lemma andthen_pass a b : andthen a b = Passes -> a = Passes /\ b = Passes.
Proof. destruct a; cbn; intros H; try discriminate; auto. Qed.
Lemma in_order_pass l : in_order l = Passes -> forall o, In o l -> o = Passes.
Proof.
  induction l as [|a t IH]; cbn; intros H o I; [contradiction|]. apply andthen_pass in H. destruct H as [H1 H2]. destruct I as [<-|I]; auto.
Qed.
Lemma map_pass {A} (f : A -> outcome) l : in_order (map f l) = Passes -> forall x, In x l -> f x = Passes.
Proof. intros H x I. apply (in_order_pass _ H). now apply in_map. Qed.
Lemma only_pass (b : bool) o : only_if b o = Passes -> b = true -> o = Passes.
Proof. intros H ->. exact H. Qed.
Lemma guard_open {A} o (s : list A) : ~ (o = Some true /\ s = []) -> negb (getb o && is_nil s) = true.
Proof. intros H. apply negb_true_iff, not_true_iff_false. intros K. apply andb_true_iff in K. destruct K as [K1 K2]. apply H. split; [now apply getb_true|now apply is_nil_true]. Qed.

Section Missing.
Variable re_ok : bytes -> bool.
Variable sc0 sc : schema.
Variable cl : cc_libs.
Hypothesis checked : check_schema re_ok sc0 = Some sc.
Hypothesis wf : wf_schema sc0.

Lemma cc_missing_throws e r v : cc_missing r v -> cc_rule cl sc e r v <> Passes.
Proof.
  intros M P. destruct r; try contradiction; destruct v; try contradiction; cbn [cc_rule cc_missing] in *.
  - destruct M as [M G]. unfold cc_string in P. apply only_pass in P; [|now apply guard_open].
    assert (W : cc_well_known cl (s_wk r) s = Passes) by (apply (in_order_pass _ P); cbn; tauto).
    destruct M as [M|[M|M]]; rewrite M in W; discriminate.
  - destruct M as [M G]. unfold cc_bytes in P. apply only_pass in P; [|now apply guard_open].
    assert (W : match b_wk r with Some (BIp true) | Some (BIpv4 true) | Some (BIpv6 true) => Unimplemented | _ => Passes end = Passes)
      by (apply (in_order_pass _ P); cbn [In]; tauto).
    destruct M as [M|[M|M]]; rewrite M in W; discriminate.
  - unfold cc_timestamp in P. apply andthen_pass in P. destruct P as [_ P].
    assert (B : is_some (t_lt r) || is_some (t_lte r) || is_some (t_gt r) || is_some (t_gte r) ||
              is_some (t_lt_now r) || is_some (t_gt_now r) || is_some (t_within r) || is_some (t_const r) = true).
    { assert (N : forall A (x : option A), x <> None -> is_some x = true) by (intros A []; cbn; congruence).
      unfold ts_constrained in M. rewrite !orb_true_iff. destruct M as [M|[M|[M|[M|[M|[M|[M|M]]]]]]]; apply N in M; tauto. }
    rewrite B in P. discriminate.
Qed.

Notation good := cc_enforceable.

Section Emb.
Variable emb : string -> msgval -> outcome.
Hypothesis emb_good : forall n m, find_msg sc n <> None -> emb n m = Passes -> all_values sc good n m.

Lemma cc_elem_pass b u b' e fr v : type_ok sc e -> cc_elem cl sc emb b e (Some fr) v = Passes -> all_elem sc good b' u e fr v.
Proof.
  intros T P. destruct fr as [mr [r|]]; cbn [cc_elem] in P.
  - apply ev_leaf; [|intros n m _ _ D; destruct mr; contradiction D]. cbn [cc_enforceable].
    assert (K : match v with VWrap (Some x) => cc_missing r x -> False | _ => cc_missing r v -> False end).
    { assert (G : cc_rule cl sc e r v = Passes -> cc_missing r v -> False) by (intros Q M; exact (cc_missing_throws e r v M Q)).
      destruct v as [| | | | | |[x|]| | | | |]; try (destruct e; auto; fail).
      - destruct e; try (destruct r; discriminate P). destruct b; [discriminate|]. cbn [cc_wrapper] in P. intros M. exact (cc_missing_throws _ r x M P).
      - destruct r; intros []. }
    destruct v as [| | | | | |[x|]| | | | |]; exact K.
  - apply ev_leaf; [exact I|]. intros n m -> -> D. cbn [is_embed only_if] in P. unfold cc_message in P. apply andthen_pass in P. destruct P as [_ P].
    apply only_pass in P.
    + apply only_pass in P; [|unfold cc_has; apply orb_true_r]. cbn [cc_embedded] in P. apply emb_good; auto.
    + destruct mr as [mr|]; cbn in *; auto. destruct (m_skip mr) as [[]|]; cbn; auto.
Qed.

Lemma cc_items_pass uq e o l : forall seen, cc_items cl sc emb uq e o seen l = Passes -> forall x, In x l -> cc_elem cl sc emb true e o x = Passes.
Proof.
  induction l as [|a t IH]; intros seen P x I; [contradiction|]. cbn [cc_items] in P. apply andthen_pass in P. destruct P as [_ P].
  apply andthen_pass in P. destruct P as [P1 P2]. destruct I as [<-|I]; eauto.
Qed.

(** An element without rules to enforce. *)
Lemma elem_none b u e o x : cc_none e o = true -> all_elem sc good b u e (inner o) x.
Proof.
  intros N. apply ev_leaf.
  - destruct o as [[mr [r|]]|]; try discriminate; exact I.
  - intros n m -> -> D. destruct o as [[mr [r|]]|]; discriminate.
Qed.

Lemma cc_rep_pass u e r l : type_ok sc e -> cc_repeated cl sc emb e r l = Passes -> forall x, In x l -> all_elem sc good true u e (inner (r_items r)) x.
Proof.
  intros T P x I. unfold cc_repeated in P.
  apply only_pass in P; [|apply guard_open; intros [_ ->]; contradiction]. apply andthen_pass in P. destruct P as [_ P].
  destruct (cc_none e (r_items r)) eqn:N; [now apply elem_none|].
  apply only_pass in P; [|apply orb_true_r].
  assert (Q := cc_items_pass _ _ _ _ _ P x I). rewrite cc_elem_inner in Q. eapply cc_elem_pass; eauto.
Qed.

Lemma cc_map_pass k w r l : type_ok sc k -> type_ok sc w -> cc_map cl sc emb k w r l = Passes -> forall x y, In (x, y) l ->
  all_elem sc good true false k (inner (p_keys r)) x /\ all_elem sc good true false w (inner (p_values r)) y.
Proof.
  intros T1 T2 P x y I. unfold cc_map in P.
  apply only_pass in P; [|apply guard_open; intros [_ ->]; contradiction]. apply andthen_pass in P. destruct P as [_ P].
  destruct (cc_none k (p_keys r)) eqn:N1, (cc_none w (p_values r)) eqn:N2; [split; now apply elem_none| | |].
  all: apply only_pass in P; [|cbn [negb]; rewrite ?orb_true_r; reflexivity]; apply andthen_pass in P; destruct P as [P _];
    assert (Q := map_pass _ _ P _ I); cbn [fst snd] in Q; apply andthen_pass in Q; destruct Q as [Q1 Q2]; rewrite cc_elem_inner in Q1, Q2;
    split; eapply cc_elem_pass; eauto.
Qed.

Lemma cc_field_pass f v : ftype_ok sc (f_type f) -> cc_field cl sc emb f v = Passes -> all_field sc good (f_type f) (f_rules f) v.
Proof.
  intros T P. unfold cc_field in P. destruct (f_rules f) as [mr t] eqn:Er. cbn [fr_typ] in P. destruct (f_type f) as [e|e|k w] eqn:Et.
  - apply ev_one. eapply cc_elem_pass; eauto.
  - destruct t as [[]|]; try discriminate; destruct v; try discriminate; apply ev_rep; intros x I; cbn [item_rules].
    + eapply cc_rep_pass; eauto.
    + exact (cc_rep_pass _ _ _ _ T P x I).
  - destruct T as [MK T2]. assert (T1 : type_ok sc k) by (destruct k; try exact I; discriminate).
    destruct t as [[]|]; try discriminate; destruct v; try discriminate; apply ev_map; intros x y I; cbn [key_rules value_rules].
    + eapply cc_map_pass; eauto.
    + destruct (is_embed w) eqn:Ew; [exact (cc_map_pass _ _ _ _ T1 T2 P x y I)|].
      split; apply (elem_none true false _ None); cbn; [destruct k; try reflexivity; discriminate|now rewrite Ew].
Qed.
End Emb.

Lemma wf_checked d : In d (sc_msgs sc) -> active d = true ->
  NoDup (map f_name (all_fields d)) /\ forall f, In f (all_fields d) -> ftype_ok sc (f_type f).
Proof.
  intros Hd A. destruct (forall2_in_r _ _ _ _ (proj1 (ck_msgs _ _ _ checked)) Hd) as (d0 & Hd0 & C).
  destruct (check_msg_name _ _ _ _ C) as (_ & _ & E). assert (Ed : md_disabled d0 = false) by (rewrite <- E; unfold active in A; destruct (md_disabled d); auto; discriminate).
  assert (F2 := fields_checked re_ok sc0 d0 d Ed C). destruct (wf d0 Hd0) as [[Nd _] W]. split.
  { replace (map f_name (all_fields d)) with (map f_name (all_fields d0)); auto.
    clear - F2. induction F2 as [|f0 f l0 l H _ IH]; auto. cbn. rewrite IH. f_equal. destruct (check_field_name _ _ _ _ H). auto. }
  intros f Hf. destruct (forall2_in_r _ _ _ _ F2 Hf) as (f0 & Hf0 & H). destruct (check_field_name _ _ _ _ H) as [_ T].
  specialize (W f0 Hf0). rewrite T.
  assert (K : forall e, type_ok sc0 e -> type_ok sc e).
  { intros [| | | | |n| | | |]; cbn; auto. intros F. destruct (find_msg sc0 n) as [x|] eqn:X; [|congruence].
    destruct (ck_find re_ok sc0 sc n x checked X) as (y & Y & _). congruence. }
  destruct (f_type f0) as [e|e|k w]; cbn in *; auto. destruct W; auto.
Qed.

Theorem cc_passes_enforced fuel : forall n m, find_msg sc n <> None -> cc_validate_f cl sc fuel n m = Passes -> all_values sc cc_enforceable n m.
Proof.
  induction fuel as [|k IH]; intros n m N P; [discriminate|]. cbn [cc_validate_f] in P.
  destruct (find_msg sc n) as [d|] eqn:F; [|congruence]. destruct (active d) eqn:A; [|exact (ev_inactive _ _ n m d F A)].
  assert (Hd : In d (sc_msgs sc)) by (unfold find_msg in F; apply find_some in F; apply F).
  assert (Q : cc_msg cl sc (cc_validate_f cl sc k) d m = Passes) by (unfold active in A; destruct (md_methods d); auto; rewrite andb_false_r in A; discriminate).
  clear P. unfold cc_msg in Q. destruct (md_disabled d) eqn:Ed; [unfold active in A; rewrite Ed in A; discriminate|].
  apply andthen_pass in Q. destruct Q as [Q1 Q2].
  apply (ev_active sc cc_enforceable n d m F).
  - intros f v I E. assert (Q := map_pass _ _ Q1 f I). cbn in Q. rewrite E in Q. eapply cc_field_pass; eauto. apply (proj2 (wf_checked d Hd A)). unfold all_fields. apply in_app_iff. auto.
  - intros o f v Io If E. assert (Q := map_pass _ _ Q2 o Io). cbn in Q. rewrite E in Q. unfold cc_oneof in Q.
    assert (T : forall g, In g (o_fields o) -> ftype_ok sc (f_type g)).
    { intros g Ig. apply (proj2 (wf_checked d Hd A)). unfold all_fields. apply in_app_iff. right. apply in_flat_map. eauto. }
    assert (X : find (fun g => String.eqb (f_name f) (f_name g)) (o_fields o) = Some f).
    { apply find_field; auto. eapply oneof_nodup; eauto. apply (wf_checked d Hd A). }
    rewrite X in Q. eapply cc_field_pass; eauto.
Qed.
End Missing.

Lemma cc_sparse_throws cl sc fuel n d m f v : find_msg sc n = Some d -> active d = true -> In f (md_fields d) ->
  assoc (f_name f) (mv_fields m) = Some v -> sparse_missing (f_rules f) v -> cc_validate_f cl sc fuel n m <> Passes.
Proof.
  intros F A I E (mr & r & l & R & -> & S & G) P. destruct fuel as [|k]; [discriminate|]. cbn [cc_validate_f] in P. rewrite F in P.
  unfold active in A. apply andb_true_iff in A. destruct A as [A1 A2]. apply negb_true_iff in A1.
  assert (Q : cc_msg cl sc (cc_validate_f cl sc k) d m = Passes) by (destruct (md_methods d); auto; discriminate).
  unfold cc_msg in Q. rewrite A1 in Q. apply andthen_pass in Q. destruct Q as [Q _]. assert (K := map_pass _ _ Q f I). cbn in K. rewrite E in K.
  unfold cc_field in K. rewrite R in K. cbn [fr_typ] in K. destruct (f_type f) as [e|e|k' w]; [destruct e; discriminate|discriminate|].
  unfold cc_map in K. apply only_pass in K; [|now apply guard_open]. apply andthen_pass in K. destruct K as [_ K]. rewrite S in K. cbn [getb orb only_if] in K.
  apply andthen_pass in K. destruct K as [_ K]. discriminate.
Qed.
