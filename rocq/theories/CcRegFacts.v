(** The registry of C++ validators: which pointers it holds, and that a validation depends on nothing else. *)
From Coq Require Import Lia.
From Verif Require Import Base Rules Types Outcome GoSem Cc Iface Checker Spec Wt GoType GoFit GoTypeFacts GoFieldFacts LangFacts ExecMsg BaseFacts GoCompile PyCacheFacts CcReg CcRegSpec.

(** * A validation depends on the embedded messages and the enums only *)
Section Ext.
Variables (cl : cc_libs) (sc sc' : schema) (v v' : string -> msgval -> outcome) (h : nat).
Hypothesis enums : sc_enums sc = sc_enums sc'.
Hypothesis same : forall n m, mheight m < h -> v n m = v' n m.
Let ok (x : value) : Prop := vheight x <= h.

Lemma rule_same e r x : cc_rule cl sc e r x = cc_rule cl sc' e r x.
Proof using enums. destruct r, x; auto. cbn. unfold cc_enum, cc_enum_valid, find_enum. now rewrite enums. Qed.

Lemma embedded_same e x : ok x -> cc_embedded v e x = cc_embedded v' e x.
Proof using same. unfold ok. destruct e; cbn; auto. destruct x as [| | | | |[y|]| | | | | |]; cbn; auto. Qed.

Lemma elem_same el e fr x : ok x \/ is_embed e = false -> cc_elem cl sc v el e fr x = cc_elem cl sc' v' el e fr x.
Proof using enums same.
  intros H. assert (M : forall mr, only_if (is_embed e) (cc_message v el e mr x) = only_if (is_embed e) (cc_message v' el e mr x)).
  { intros mr. destruct H as [H|H]; [|now rewrite H]. unfold cc_message. now rewrite embedded_same. }
  unfold cc_elem. destruct fr as [[mr [r|]]|]; rewrite ?M, ?rule_same; auto.
  destruct e; auto; destruct x as [| | | | | |o| | | | |]; auto; unfold cc_wrapper; destruct el; auto; destruct o; auto. apply rule_same.
Qed.

Lemma items_same u e fr l : Forall ok l -> forall seen, cc_items cl sc v u e fr seen l = cc_items cl sc' v' u e fr seen l.
Proof using enums same. induction 1 as [|x l H _ IH]; intros seen; cbn [cc_items]; auto. rewrite elem_same, IH; auto. Qed.

Lemma field_same f x : ok x -> (forall k w, f_type f = FMap k w -> is_embed k = false) ->
  cc_field cl sc v f x = cc_field cl sc' v' f x.
Proof using enums same.
  intros H K. unfold cc_field. destruct (f_type f) as [e|e|k w] eqn:T.
  - apply elem_same; auto.
  - assert (R : forall r l, x = VList l -> cc_repeated cl sc v e r l = cc_repeated cl sc' v' e r l).
    { intros r l ->. unfold cc_repeated. rewrite items_same; auto. apply Forall_forall. intros y I.
      assert (Q := list_max_in vheight l y I). unfold ok in *. cbn in H. lia. }
    destruct (fr_typ (f_rules f)) as [[]|]; auto; destruct x; auto.
  - assert (R : forall r l, x = VMap l -> cc_map cl sc v k w r l = cc_map cl sc' v' k w r l).
    { intros r l E. unfold cc_map. do 4 f_equal. f_equal. apply map_ext_in. intros p I. subst x.
      assert (Q := list_max_in (fun p => vheight (snd p)) l p I).
      rewrite (elem_same true k), (elem_same true w); auto; [|right; now apply (K k w)]. left. unfold ok in *. cbn in H, Q. lia. }
    destruct (fr_typ (f_rules f)) as [[]|]; auto; destruct x; auto. now rewrite R.
Qed.

Lemma msg_same d m : (forall f k w, In f (all_fields d) -> f_type f = FMap k w -> is_embed k = false) -> mheight m <= h ->
  cc_msg cl sc v d m = cc_msg cl sc' v' d m.
Proof using enums same.
  intros K H. unfold cc_msg. destruct (md_disabled d); auto. unfold all_fields in K. f_equal; f_equal; apply map_ext_in.
  - intros f I. destruct (assoc (f_name f) (mv_fields m)) as [x|] eqn:E; auto. apply assoc_in, field_height in E.
    apply field_same; [unfold ok; lia|]. intros k w. apply K. apply in_app_iff. auto.
  - intros o I. destruct (assoc (o_name o) (mv_oneofs m)) as [s|] eqn:E; auto. unfold cc_oneof. destruct s as [[n x]|]; auto.
    destruct (find _ (o_fields o)) as [f|] eqn:F; auto. apply find_some in F. destruct F as [F _].
    apply assoc_in, oneof_height in E. apply field_same; [unfold ok; lia|]. intros k w. apply K.
    apply in_app_iff. right. apply in_flat_map. eauto.
Qed.
End Ext.

(** * The registry *)
Lemma assoc_filter {A} t u (r : list (string * A)) : assoc u (filter (fun e => negb (String.eqb t (fst e))) r) = if String.eqb t u then None else assoc u r.
Proof.
  induction r as [|[k p] r IH]; cbn; [destruct (String.eqb t u); auto|]. destruct (String.eqb t k) eqn:E; cbn.
  - apply String.eqb_eq in E. subst k. rewrite IH. destruct (String.eqb t u) eqn:F; auto.
    rewrite String.eqb_sym in F. now rewrite F.
  - rewrite IH. destruct (String.eqb u k) eqn:F; auto. apply String.eqb_eq in F. subst k. now rewrite E.
Qed.
Lemma pointer_construct r t u : pointer (construct r t) u = if String.eqb t u then Some t else pointer r u.
Proof.
  unfold pointer, construct. cbn [assoc]. rewrite (String.eqb_sym u t). destruct (String.eqb t u) eqn:E; auto.
  now rewrite assoc_filter, E.
Qed.
Lemma pointer_subscript r t u : pointer (subscript r t) u = pointer r u.
Proof.
  unfold pointer, subscript. destruct (assoc t r) eqn:E; auto. cbn [assoc]. destruct (String.eqb u t) eqn:F; auto.
  apply String.eqb_eq in F. subst u. now rewrite E.
Qed.

Lemma pointer_history ds r : history ds r -> forall n,
  pointer r n = if existsb (fun d => String.eqb n (md_name d) && registers d) ds then Some n else None.
Proof.
  induction 1 as [|ds r d _ IH|ds r t _ IH]; intros n; cbn [existsb]; auto; [|rewrite pointer_subscript; apply IH].
  unfold init. destruct (registers d); [|rewrite andb_false_r; apply IH].
  rewrite pointer_construct, andb_true_r, (String.eqb_sym (md_name d)). destruct (String.eqb n (md_name d)) eqn:E; [|apply IH].
  apply String.eqb_eq in E. now subst n.
Qed.

Section Run.
Variables (cl : cc_libs) (sc full : schema) (now : registry -> Prop).
Definition live (n : string) : bool := match find_msg sc n with Some d => registers d | None => false end.
Hypothesis enums : sc_enums sc = sc_enums full.
Hypothesis from : forall n d, find_msg sc n = Some d -> registers d = true -> find_msg full n = Some d.
Hypothesis pointers : forall r n, now r -> pointer r n = if live n then Some n else None.
Hypothesis keys : forall n d f k w, find_msg full n = Some d -> In f (all_fields d) -> f_type f = FMap k w -> is_embed k = false.

Lemma live_run fuel n m : live n = false -> cc_validate_f cl sc (S fuel) n m = Passes.
Proof using.
  unfold live. cbn. destruct (find_msg sc n) as [d|]; auto. unfold registers, cc_msg. destruct (md_methods d), (md_disabled d); auto; discriminate.
Qed.
Lemma live_msg fuel n m d : live n = true -> find_msg full n = Some d -> cc_validate_f cl sc (S fuel) n m = cc_msg cl sc (cc_validate_f cl sc fuel) d m.
Proof using from.
  unfold live. cbn. destruct (find_msg sc n) as [d'|] eqn:E; [|discriminate]. intros R F. assert (X := from n d' E R).
  assert (d' = d) by congruence. subst d'. unfold registers in R. destruct (md_methods d); auto. discriminate.
Qed.

Lemma check_run n m o : check cl full now n m o -> forall fuel, mheight m < fuel -> o = cc_validate_f cl sc fuel n m.
Proof using keys pointers from enums.
  induction 1 as [n m r R P|n m r t d inner R P F _ IH]; intros [|fuel] H; try lia.
  - rewrite (pointers r n R) in P. destruct (live n) eqn:L; [discriminate|]. now rewrite live_run.
  - rewrite (pointers r n R) in P. destruct (live n) eqn:L; [|discriminate]. injection P as <-.
    rewrite (live_msg fuel n m d L F). apply (msg_same cl full sc inner (cc_validate_f cl sc fuel) (mheight m)); auto.
    + intros n' m' Q. apply IH; auto. lia.
    + intros f k w. now apply (keys n d).
Qed.

Lemma check_exists : (exists r, now r) -> forall fuel n m, mheight m < fuel -> check cl full now n m (cc_validate_f cl sc fuel n m).
Proof using keys pointers from enums.
  intros [r R]. induction fuel as [|fuel IH]; intros n m H; [lia|]. destruct (live n) eqn:L.
  - assert (F : exists d, find_msg full n = Some d).
    { unfold live in L. destruct (find_msg sc n) as [d|] eqn:E; [|discriminate]. exists d. now apply from. }
    destruct F as [d F]. rewrite (live_msg fuel n m d L F).
    rewrite <- (msg_same cl full sc (cc_validate_f cl sc fuel) (cc_validate_f cl sc fuel) (mheight m)); auto;
      [|intros f k w; now apply (keys n d)].
    apply (has_validator cl full now n m r n d); auto; [now rewrite (pointers r n R), L|]. intros n' m' Q. apply IH. lia.
  - rewrite live_run; auto. apply (no_validator cl full now n m r); auto. now rewrite (pointers r n R), L.
Qed.

Lemma call_run n d m o : (exists r, now r) -> find_msg full n = Some d -> find_msg sc n = Some d -> md_methods d <> MNone ->
  forall fuel, mheight m < fuel -> call cl full now n m o <-> o = cc_validate_f cl sc fuel n m.
Proof using keys pointers from enums.
  intros N F F' M fuel H. destruct fuel as [|fuel]; [lia|].
  assert (E : cc_validate_f cl sc (S fuel) n m = cc_msg cl sc (cc_validate_f cl sc fuel) d m).
  { cbn. rewrite F'. destruct (md_methods d); auto. now contradiction M. }
  assert (K : forall f k w, In f (all_fields d) -> f_type f = FMap k w -> is_embed k = false) by (intros f k w; now apply (keys n d)).
  rewrite E. split.
  - intros C. inversion C as [n' m' d' inner F2 _ I]; subst. assert (d' = d) by congruence. subst d'.
    apply (msg_same cl full sc inner (cc_validate_f cl sc fuel) (mheight m)); auto.
    intros n' m' Q. apply check_run; [auto|]. lia.
  - intros ->. rewrite <- (msg_same cl full sc (cc_validate_f cl sc fuel) (cc_validate_f cl sc fuel) (mheight m)); auto.
    apply called; auto. intros n' m' Q. apply check_exists; auto. lia.
Qed.
End Run.

(** * Schemas *)
Lemma key_plain k : map_key k = true -> is_embed k = false.
Proof. destruct k; cbn; auto; discriminate. Qed.
Lemma wf_keys sc : wf_schema sc -> forall n d f k w, find_msg sc n = Some d -> In f (all_fields d) -> f_type f = FMap k w -> is_embed k = false.
Proof.
  intros W n d f k w F Hf T. apply find_some in F. destruct F as [F _]. destruct (W d F) as [_ X]. specialize (X f Hf). rewrite T in X.
  apply key_plain, X.
Qed.
Lemma ck_keys re_ok sc0 sc : check_schema re_ok sc0 = Some sc -> wf_schema sc0 ->
  forall n d f k w, find_msg sc n = Some d -> In f (all_fields d) -> f_type f = FMap k w -> is_embed k = false.
Proof.
  intros C W n d f k w F Hf T. apply find_some in F. destruct F as [F _].
  destruct (forall2_in_r _ _ _ _ (proj1 (ck_msgs _ _ _ C)) F) as (d0 & Hd0 & X). destruct (W d0 Hd0) as [_ Y].
  destruct (md_disabled d0) eqn:E.
  - unfold check_msg in X. rewrite E in X. injection X as <-. specialize (Y f Hf). rewrite T in Y. apply key_plain, Y.
  - destruct (forall2_in_r _ _ _ _ (fields_checked re_ok sc0 d0 d E X) Hf) as (f0 & Hf0 & Z).
    destruct (check_field_name _ _ _ _ Z) as [_ N]. specialize (Y f0 Hf0). rewrite N in T. rewrite T in Y. apply key_plain, Y.
Qed.

Definition cut (ds : list msgdesc) (d : msgdesc) : msgdesc :=
  if existsb (fun d' => String.eqb (md_name d) (md_name d')) ds then d
  else mkMsg (md_name d) (md_fields d) (md_oneofs d) (md_disabled d) MNone.
Lemma find_restrict ds sc n : find_msg (restrict ds sc) n = option_map (cut ds) (find_msg sc n).
Proof.
  unfold find_msg, restrict. cbn [sc_msgs]. change (fun d => if existsb _ ds then d else _) with (cut ds).
  induction (sc_msgs sc) as [|d l IH]; cbn; auto. rewrite IH.
  assert (E : md_name (cut ds d) = md_name d) by (unfold cut; destruct (existsb _ ds); reflexivity).
  rewrite E. destruct (String.eqb n (md_name d)); auto.
Qed.

Lemma found_name sc n d : find_msg sc n = Some d -> md_name d = n.
Proof. intros F. apply find_some in F. destruct F as [_ E]. apply String.eqb_eq in E. auto. Qed.

Lemma restrict_pointers ds sc r n : part_of ds sc -> history ds r -> pointer r n = if live (restrict ds sc) n then Some n else None.
Proof.
  intros P H. rewrite (pointer_history ds r H n). unfold live. rewrite find_restrict.
  assert (E : existsb (fun d => String.eqb n (md_name d) && registers d) ds =
    match option_map (cut ds) (find_msg sc n) with Some d => registers d | None => false end); [|now rewrite E].
  apply Bool.eq_iff_eq_true. rewrite existsb_exists. split.
  - intros (d & Hd & E). apply andb_true_iff in E. destruct E as [E R]. apply String.eqb_eq in E. subst n. rewrite (P d Hd). cbn.
    unfold cut. destruct (existsb _ ds) eqn:X; auto. exfalso.
    assert (Y : existsb (fun d' => String.eqb (md_name d) (md_name d')) ds = true) by (apply existsb_exists; exists d; split; auto; apply String.eqb_refl).
    congruence.
  - destruct (find_msg sc n) as [d|] eqn:F; cbn; [|discriminate]. unfold cut. destruct (existsb _ ds) eqn:X; [|discriminate].
    intros R. apply existsb_exists in X. destruct X as (d' & Hd & X). apply String.eqb_eq in X. assert (N := found_name _ _ _ F).
    assert (Q := P d' Hd). rewrite <- X, N, F in Q. injection Q as <-. exists d. split; auto. rewrite N, String.eqb_refl, R. reflexivity.
Qed.

Lemma complete_pointers ds sc r n : part_of ds sc -> (forall n d, find_msg sc n = Some d -> In d ds) -> history ds r ->
  pointer r n = if live sc n then Some n else None.
Proof.
  intros P A H. rewrite (restrict_pointers ds sc r n P H). unfold live. rewrite find_restrict. destruct (find_msg sc n) as [d|] eqn:F; auto. cbn.
  unfold cut. destruct (existsb _ ds) eqn:X; auto. exfalso.
  assert (Y : existsb (fun d' => String.eqb (md_name d) (md_name d')) ds = true) by (apply existsb_exists; exists d; split; eauto; apply String.eqb_refl).
  congruence.
Qed.

Lemma restrict_from ds sc n d : find_msg (restrict ds sc) n = Some d -> registers d = true -> find_msg sc n = Some d.
Proof.
  rewrite find_restrict. destruct (find_msg sc n) as [d'|]; [|discriminate]. cbn. unfold cut. destruct (existsb _ ds); intros [= <-]; auto.
  discriminate.
Qed.
Lemma restrict_linked ds sc n d : In d ds -> find_msg sc n = Some d -> find_msg (restrict ds sc) n = Some d.
Proof.
  intros H F. rewrite find_restrict, F. cbn. unfold cut.
  assert (Y : existsb (fun d' => String.eqb (md_name d) (md_name d')) ds = true) by (apply existsb_exists; exists d; split; auto; apply String.eqb_refl).
  now rewrite Y.
Qed.
