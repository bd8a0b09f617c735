(** Java code with maps that must not be sparse, which is not implemented: fields and messages. *)
From Coq Require Import Lia Floats.SpecFloat.
From Verif Require Import Base Utf8 Num Rules Types Time Iface Checker GoSem Spec Meaning Wt LitSpec BaseFacts Utf8Facts NumFacts TimeFacts
  ExecFacts ExecRule ExecField ExecMsg Main MeaningFacts Outcome Values Says Tells LangFacts LangSafe Java JavaSpec JavaFacts JavaRunFacts Cc CcSpec SafeSpec CcSafe.

Section JavaSafe.
Variable re_ok : bytes -> bool.
Variable sc0 sc : schema.
Variable orc : oracles.
Variable jl : java_libs.
Variable ignored : string -> bool.
Hypothesis checked : check_schema re_ok sc0 = Some sc.
Hypothesis wf : wf_schema sc0.
Hypothesis OK : oracle_ok orc.
Notation V := (valid orc sc0).
Notation leaf := (java_value sc orc jl).
Notation callable := (fun n => ignored n = false).
Notation emb_good := (emb_safe sc0 sc orc leaf callable).

Lemma java_elem_tells emb inside m u e fr v : java_elem sc ignored inside m e fr -> sane_fr fr -> wt_elem sc0 e v ->
  all_elem sc leaf inside u e fr v -> emb_good emb (vheight v) ->
  tells (j_elem jl sc emb inside e (Some fr) v) (elem_flat orc sc0 V e fr v).
Proof.
  intros J S W A E. inversion A as [b' u' e' fr' v' (L1 & L2 & L3) D X1 X2 X3 X4 X5]. subst b' u' e' fr' v'. clear A.
  destruct fr as [mr [r|]].
  - specialize (L3 mr r eq_refl). cbn [java_elem sane_fr j_elem elem_flat] in *.
    destruct e; try (inversion W; subst; eapply tells_says, rule_says; eauto; fail).
    destruct J as [-> J]. inversion W as [| | | | | | |w'|w' x Wx| | | | |]; subst.
    + cbn [j_wrapper]. apply tells_throw. unfold required. destruct mr as [m0|]; cbn; [destruct (getb (m_required m0))|]; split; auto; discriminate.
    + cbn [j_wrapper]. eapply tells_says, rule_says; eauto.
  - cbn [java_elem j_elem elem_flat] in *. destruct J as [J1 J2]. destruct (is_embed e) eqn:Ee; cbn [only_if]; [|left; split; auto; discriminate].
    eapply tells_iff with (P := (required mr = true -> is_set v) /\ (skipped mr = false -> forall n m1, e = TMsg n -> v = VMsg (Some m1) -> validated_type sc0 n = true -> V n m1)); [tauto|].
    unfold j_message. fold (skipped mr). fold (required mr). destruct (skipped mr) eqn:Es.
    { left. split; auto. split; [intros R; exfalso; apply J1; auto|discriminate]. }
    assert (Hs : inside || jhas v = true <-> is_set v).
    { rewrite orb_true_iff, has_set. tauto. }
    apply tells_seq.
    + apply tells_if. intros _. apply tells_throw. exact Hs.
    + intros _. destruct (inside || jhas v) eqn:Eh; cbn [only_if].
      * assert (Sv : is_set v) by (now apply Hs). unfold j_embedded.
        assert (Hv : jhas v = true) by (now apply has_set).
        destruct e; try discriminate; try (rewrite Hv; left; split; auto; intros _ n m1 K; discriminate K).
        inversion W; subst; [cbn in Sv; congruence|]. assert (Df : descends (FR mr None)) by (destruct mr as [mr|]; cbn in *; auto; intros Q; rewrite Q in Es; discriminate).
        eapply tells_iff; [|eapply E; eauto].
        split; [intros Q _ n9 m9 [= <-] [= <-]; exact Q|intros Q; apply Q; auto].
      * assert (Sv : ~ is_set v) by (intros Q; apply Hs in Q; discriminate).
        left. split; auto. intros _ n m1 -> -> _. exfalso. apply Sv. cbn. discriminate.
Qed.

Lemma java_rep_tells emb e r l : java_counts (r_min r) (r_max r) -> (r_unique r = Some true -> is_embed e = false) ->
  java_elem sc ignored true false e (inner (r_items r)) -> sane_fr (inner (r_items r)) -> Forall (wt_elem sc0 e) l ->
  (forall x, In x l -> all_elem sc leaf true (match r_unique r with Some true => true | _ => false end) e (inner (r_items r)) x) ->
  emb_good emb (list_max (map vheight l)) ->
  tells (j_repeated jl sc emb e r l) (rep_flat orc sc0 V e r l).
Proof.
  intros (C1 & C2 & C3) U J S W A E. unfold j_repeated, rep_flat. apply tells_ignore; [apply is_nil_true|]. cbn [in_order].
  rewrite Forall_forall in W.
  eapply tells_iff.
  2:{ apply tells_seq; [apply tells_says, min_says|intros _]. apply tells_seq; [apply tells_says, max_says; exact C1|intros _].
      apply tells_seq with (P := r_unique r = Some true -> forall i j x y, i < j -> nth_error l i = Some x -> nth_error l j = Some y -> ~ same_item y x); [|intros _].
      - apply tells_says, says_getb. intros Hu. rewrite Hu in A.
        eapply says_iff; [|apply (unique_says (j_value_equals sc e) (fun x => wt_elem sc0 e x /\ java_unique sc e x)); [|constructor|]].
        + split; [tauto|]. intros Q. split; auto.
        + intros x y [Wx Ux] [Wy Uy]. apply (value_equals_iff sc0); auto.
        + apply Forall_forall. intros x Ix. split; auto. specialize (A x Ix). inversion A as [b' u' e' fr' v' (L1 & L2 & L3) D]; subst. auto.
      - rewrite andthen_passes. apply tells_map with (P := elem_flat orc sc0 V e (rules_or_none (r_items r))). intros x Ix. rewrite (j_elem_inner sc jl emb).
        eapply java_elem_tells; eauto. eapply emb_safe_le; [|exact E]. now apply list_height. }
  unfold count_meaning. tauto.
Qed.

Lemma java_map_tells emb k w r l : java_counts (p_min r) (p_max r) ->
  java_elem sc ignored true true k (inner (p_keys r)) -> java_elem sc ignored true true w (inner (p_values r)) ->
  sane_fr (inner (p_keys r)) -> sane_fr (inner (p_values r)) -> map_key k = true ->
  Forall (fun p => wt_elem sc0 k (fst p) /\ wt_elem sc0 w (snd p)) l ->
  (forall x y, In (x, y) l -> all_elem sc leaf true false k (inner (p_keys r)) x /\ all_elem sc leaf true false w (inner (p_values r)) y) ->
  emb_good emb (list_max (map (fun p => vheight (snd p)) l)) ->
  tells (j_map jl sc emb k w r l) (map_flat orc sc0 V k w r l).
Proof.
  intros (C1 & C2 & C3) J1 J2 S1 S2 MK W A E. unfold j_map, map_flat. apply tells_ignore; [apply is_nil_true|]. cbn [in_order].
  rewrite Forall_forall in W.
  eapply tells_iff.
  2:{ apply tells_seq; [apply tells_says, min_says'|intros _]. apply tells_seq; [apply tells_says, max_says'; exact C1|intros _].
      apply tells_seq with (P := p_no_sparse r = Some true -> forall x y, In (x, y) l -> is_set y); [|intros _].
      - destruct (p_no_sparse r) as [[]|]; [apply tells_never| |]; left; split; auto; discriminate.
      - rewrite andthen_passes.
        apply tells_if with (P := (forall p, In p l -> elem_flat orc sc0 V k (inner (p_keys r)) (fst p)) /\ (forall p, In p l -> elem_flat orc sc0 V w (inner (p_values r)) (snd p))).
        intros _. apply tells_seq; [|intros _].
        + apply tells_map with (P := fun p => elem_flat orc sc0 V k (inner (p_keys r)) (fst p)). intros [x y] I. rewrite (j_elem_inner sc jl emb). destruct (A x y I) as [Ax _]. destruct (W _ I) as [Wx _].
          eapply java_elem_tells; eauto. eapply emb_safe_le; [|exact E]. cbn [fst] in *. assert (vheight x = 0) as ->; [|lia]. destruct k; try discriminate; inversion Wx; reflexivity.
        + apply tells_map with (P := fun p => elem_flat orc sc0 V w (inner (p_values r)) (snd p)). intros [x y] I. rewrite (j_elem_inner sc jl emb). destruct (A x y I) as [_ Ay]. destruct (W _ I) as [_ Wy].
          eapply java_elem_tells; eauto. eapply emb_safe_le; [|exact E]. exact (list_max_in (fun p => vheight (snd p)) l _ I). }
  unfold count_meaning. split.
  - intros (H1 & H2 & H0 & H3). split; [tauto|]. split; [exact H0|]. intros x y I. change rules_or_none with inner.
    destruct (j_none w (p_values r)) eqn:N1, (j_none k (p_keys r)) eqn:N2; cbn in H3.
    + split; now apply none_flat.
    + destruct H3 as [Q1 Q2]; auto. split; [apply (Q1 _ I)|apply (Q2 _ I)].
    + destruct H3 as [Q1 Q2]; auto. split; [apply (Q1 _ I)|apply (Q2 _ I)].
    + destruct H3 as [Q1 Q2]; auto. split; [apply (Q1 _ I)|apply (Q2 _ I)].
  - intros ((H1 & H2) & H0 & H3). split; [exact H1|]. split; [exact H2|]. split; [exact H0|]. intros _. split. all: intros [x y] I; apply (H3 x y I).
Qed.

Lemma leaf_same fr : leaf_part (fun r => r) fr = fr.
Proof. destruct fr as [mr [r|]]; reflexivity. Qed.

Notation frag := (fun f => java_field sc ignored (field_part (fun r => r) f)).

Lemma java_field_tells emb f v : frag f -> sane_field f -> wt_field sc0 (f_type f) v ->
  all_field sc leaf (f_type f) (f_rules f) v -> ftype_ok sc0 (f_type f) -> emb_good emb (vheight v) ->
  tells (j_field jl sc emb f v) (field_flat orc sc0 V f v).
Proof.
  intros J S W A T E. unfold java_field, field_part, sane_field, j_field, field_flat, rep_of, map_of in *. cbn [f_type f_rules] in J. destruct (f_rules f) as [mr t] eqn:Er. cbn [fr_typ] in *.
  destruct (f_type f) as [e|e|k w] eqn:Et.
  - inversion W; subst. inversion A; subst.
    assert (J' : java_elem sc ignored false false e (FR mr t)).
    { destruct t as [[]|]; try exact J; exfalso; cbn in J; destruct e; cbn in J; intuition. }
    eapply java_elem_tells; eauto.
  - inversion W as [|e' l Wl|]; subst. inversion A as [|e' fr' l' Al|]; subst.
    destruct t as [[]|]; try contradiction.
    + cbn [fr_typ r_min r_max r_unique r_items] in J. destruct J as (J1 & J2 & J3). rewrite inner_part, leaf_same in J3. apply java_rep_tells; auto.
    + apply java_rep_tells; auto; try discriminate. repeat split; discriminate.
  - inversion W as [| |k' w' l Wl]; subst. inversion A as [| |k' w' fr' l' Al]; subst. destruct T as [MK _].
    assert (Ek : is_embed k = false) by (destruct k; auto; discriminate).
    destruct t as [[]|]; try contradiction.
    + cbn [fr_typ p_min p_max p_no_sparse p_keys p_values] in J. destruct J as (J1 & J2 & J3 & J4), S as [S1 S2]. rewrite inner_part, leaf_same in J3, J4. apply java_map_tells; auto.
    + destruct (is_embed w) eqn:Ew; cbn [only_if].
      * apply java_map_tells; cbn [p_min p_max p_no_sparse p_keys p_values inner]; auto; try discriminate; try exact I; try exact Al.
        -- repeat split; discriminate.
        -- cbn. split; [intros [_ Q]; discriminate|]. intros _ n ->. discriminate.
      * left. split; auto. right. cbn [p_min p_max p_no_sparse p_keys p_values rules_or_none]. repeat split; try discriminate; apply key_flat; auto.
Qed.

Lemma java_part_shape f : frag f ->
  match f_type f, fr_typ (f_rules f) with FRep _, Some (RRepeated _) | FRep _, None | FMap _ _, Some (RMap _) | FMap _ _, None | FOne _, _ => True | _, _ => False end.
Proof. unfold java_field, field_part. cbn [f_type f_rules]. destruct (f_type f), (f_rules f) as [mr [[]|]]; cbn; auto. Qed.

Hypothesis part : java_partly ignored sc.

Theorem assert_valid_tells fuel : forall n d0 m, find_msg sc0 n = Some d0 -> wt_msg sc0 d0 m -> all_values sc leaf n m -> ignored n = false ->
  (mheight m < fuel)%nat ->
  tells (assert_valid_f jl sc ignored fuel n m) (validated_type sc0 n = true -> V n m).
Proof.
  induction fuel as [|k IH]; intros n d0 m F0 W A C L; [lia|]. cbn [assert_valid_f].
  destruct (ck_find re_ok sc0 sc n d0 checked F0) as (d & F & Hck & Hin & Hin0). rewrite F.
  destruct (check_msg_name _ _ _ _ Hck) as (N1 & N2 & N3).
  assert (Hm : validated_type sc0 n = match md_methods d with MNone => false | _ => true end) by (unfold validated_type; rewrite F0, N2; reflexivity).
  destruct (md_methods d) eqn:Em; try (rewrite C; left; split; auto; congruence).
  all: unfold j_msg; destruct (md_disabled d) eqn:Ed;
    [left; split; auto; intros _; apply (valid_step orc sc0 n m d0 F0); left; congruence|].
  all: assert (Act : active d = true) by (unfold active; rewrite Ed, Em; reflexivity).
  all: assert (Eg : emb_good (assert_valid_f jl sc ignored k) (mheight m)) by (intros n' d' x B1 B2 B3 B4 B5; eapply IH; eauto; lia).
  all: assert (Fr : Forall frag (all_fields d)) by (apply part; auto).
  all: eapply tells_iff;
    [apply (parts_valid re_ok sc0 orc d0 d n m F0 Hck Act Hm)
    |apply tells_seq;
      [apply (fields_tell re_ok sc0 sc orc wf OK leaf callable frag java_part_shape (j_field jl sc) java_field_tells _ d0 d n m F Hin0 Hck Act W A Fr Eg)
      |intros _; apply (oneofs_tell re_ok sc0 sc orc wf OK leaf callable frag java_part_shape (j_field jl sc) java_field_tells _ d0 d n m F Hin0 Hck Act W A Fr Eg)]].
Qed.
End JavaSafe.

Lemma java_sparse_throws jl sc ignored fuel n d m f v : find_msg sc n = Some d -> active d = true -> In f (md_fields d) ->
  assoc (f_name f) (mv_fields m) = Some v -> sparse_missing (f_rules f) v -> assert_valid_f jl sc ignored fuel n m <> Passes.
Proof.
  intros F A I E (mr & r & l & R & -> & S & G) P. destruct fuel as [|k]; [discriminate|]. cbn [assert_valid_f] in P. rewrite F in P.
  unfold active in A. apply andb_true_iff in A. destruct A as [A1 A2]. apply negb_true_iff in A1.
  assert (Q : j_msg jl sc (assert_valid_f jl sc ignored k) d m = Passes) by (destruct (md_methods d); auto; try discriminate; destruct (ignored n); auto; discriminate).
  unfold j_msg in Q. rewrite A1 in Q. apply andthen_pass in Q. destruct Q as [Q _]. assert (K := map_pass _ _ Q f I). cbn in K. rewrite E in K.
  unfold j_field in K. rewrite R in K. cbn [fr_typ] in K. destruct (f_type f) as [e|e|k' w]; [destruct e; discriminate|discriminate|].
  unfold j_map in K. apply only_pass in K; [|now apply guard_open]. rewrite S in K. cbn [getb only_if in_order] in K.
  apply andthen_pass in K. destruct K as [_ K]. apply andthen_pass in K. destruct K as [_ K]. discriminate.
Qed.
