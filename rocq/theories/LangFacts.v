(** What the theorems about Java, Python and C++ share: validity in a form that follows the
    structure of the generated code, and the induction over embedded messages. *)
From Coq Require Import Lia.
From Verif Require Import Base Utf8 Num Rules Types Time Iface Checker GoSem Spec Meaning Wt BaseFacts Utf8Facts NumFacts TimeFacts
  ExecFacts ExecRule ExecField ExecMsg Main ValidSame MeaningFacts Outcome Values Says.

(** ** Strings after the checker has filled in patterns *)
Definition str_flat (orc : oracles) (r : string_rules) (s : bytes) : Prop :=
  (s_ignore_empty r = Some true /\ s = []) \/
  ((forall c, s_const r = Some c -> s = c) /\
   listed (fun x => s = x) (s_in r) (s_not_in r) /\
   (forall n, s_len r = Some n -> chars_count s n) /\
   (forall n, s_min_len r = Some n -> exists k, chars_count s k /\ (n <= k)%N) /\
   (forall n, s_max_len r = Some n -> exists k, chars_count s k /\ (k <= n)%N) /\
   (forall n, s_len_bytes r = Some n -> bytes_count s n) /\
   (forall n, s_min_bytes r = Some n -> exists k, bytes_count s k /\ (n <= k)%N) /\
   (forall n, s_max_bytes r = Some n -> exists k, bytes_count s k /\ (k <= n)%N) /\
   (forall p, s_prefix r = Some p -> starts_with s p) /\
   (forall p, s_suffix r = Some p -> ends_with s p) /\
   (forall p, s_contains r = Some p -> has_inside s p) /\
   (forall p, s_not_contains r = Some p -> ~ has_inside s p) /\
   (forall p, s_pattern r = Some p -> o_match orc p s = true) /\
   (forall w, s_wk r = Some w -> (forall k, w <> WRegex k) -> format_meaning orc w true s)).

Lemma str_flat_iff re_ok orc r0 r s : oracle_ok orc -> check_string re_ok r0 = Some r -> str_meaning orc r0 s <-> str_flat orc r s.
Proof.
  intros OK C. assert (C' := C). unfold check_string, guard in C. destruct (_ && _); [|discriminate].
  destruct (check_wkr r0) as [r'|] eqn:E; [|discriminate].
  destruct (_ && _); [|discriminate]. injection C as ->.
  assert (Hsame : s_const r = s_const r0 /\ s_len r = s_len r0 /\ s_min_len r = s_min_len r0 /\ s_max_len r = s_max_len r0
    /\ s_len_bytes r = s_len_bytes r0 /\ s_min_bytes r = s_min_bytes r0 /\ s_max_bytes r = s_max_bytes r0
    /\ s_prefix r = s_prefix r0 /\ s_suffix r = s_suffix r0 /\ s_contains r = s_contains r0
    /\ s_not_contains r = s_not_contains r0 /\ s_in r = s_in r0 /\ s_not_in r = s_not_in r0 /\ s_wk r = s_wk r0
    /\ s_ignore_empty r = s_ignore_empty r0).
  { unfold check_wkr in E. destruct (get_wkr r0); unfold guard in E; try (injection E as <-; repeat split; reflexivity);
      (destruct (is_none (s_pattern r0)); [|discriminate]); injection E as <-; repeat split; reflexivity. }
  unfold str_flat, str_meaning.
  destruct Hsame as (-> & -> & -> & -> & -> & -> & -> & -> & -> & -> & -> & -> & -> & -> & ->).
  assert (K : (forall p, s_pattern r0 = Some p -> o_match orc p s = true) /\
      (forall w, s_wk r0 = Some w -> format_meaning orc w (match s_strict r0 with Some b => b | None => true end) s) <->
    (forall p, s_pattern r = Some p -> o_match orc p s = true) /\
      (forall w, s_wk r0 = Some w -> (forall k, w <> WRegex k) -> format_meaning orc w true s)).
  2:{ clear E C'. intuition. }
  assert (I : forall w st, (forall k', w <> WRegex k') -> format_meaning orc w st s <-> format_meaning orc w true s).
  { intros w st N. destruct w; cbn; try tauto. exfalso. eapply N; reflexivity. }
  unfold check_wkr in E. unfold get_wkr in E.
  set (st := match s_strict r0 with Some b => b | None => true end).
  assert (Plain : (forall k, s_wk r0 <> Some (WRegex k)) \/ (exists k, s_wk r0 = Some (WRegex k))).
  { destruct (s_wk r0) as [[]|]; eauto; left; congruence. }
  destruct Plain as [Pl|[k Pl]].
  - assert (r = r0) as -> by (destruct (s_wk r0) as [[]|]; try (injection E as <-; reflexivity); exfalso; eapply Pl; reflexivity).
    split; intros [H1 H2]; (split; [exact H1|]); intros w Hw.
    + intros N. apply (I w st N), H2, Hw.
    + apply I; [intros k ->; now apply (Pl k)|]. apply H2; auto. intros k ->. now apply (Pl k).
  - rewrite Pl in *. unfold guard in E.
    assert (NW : forall w, Some (WRegex k) = Some w -> (forall k', w <> WRegex k') -> format_meaning orc w true s) by (intros w [= <-] N; exfalso; eapply N; reflexivity).
    destruct k; try (injection E as <-; split; intros [H1 H2]; (split; [exact H1|]); auto; intros w [= <-]; exact I0 || (intros; exact Logic.I)).
    all: destruct (s_pattern r0) eqn:Ep; try discriminate; cbn in E; injection E as <-; cbn [s_pattern set_pattern].
    + assert (NN := ok_name _ OK s). assert (L := ok_line _ OK s). split; intros [H1 H2]; (split; [|auto]); try discriminate.
      * intros p Hp. specialize (H2 _ eq_refl). cbn in H2. unfold header_ok in H2. subst st. destruct (s_strict r0) as [[]|]; injection Hp as <-; [apply NN|apply L|apply NN]; exact H2.
      * intros w [= <-]. cbn. unfold header_ok. specialize (H1 _ eq_refl). subst st. destruct (s_strict r0) as [[]|]; [apply NN in H1|apply L in H1|apply NN in H1]; exact H1.
    + assert (NN := ok_value _ OK s). assert (L := ok_line _ OK s). split; intros [H1 H2]; (split; [|auto]); try discriminate.
      * intros p Hp. specialize (H2 _ eq_refl). cbn in H2. unfold header_ok in H2. subst st. destruct (s_strict r0) as [[]|]; injection Hp as <-; [apply NN|apply L|apply NN]; exact H2.
      * intros w [= <-]. cbn. unfold header_ok. specialize (H1 _ eq_refl). subst st. destruct (s_strict r0) as [[]|]; [apply NN in H1|apply L in H1|apply NN in H1]; exact H1.
    + split; intros [H1 H2]; (split; [|auto]); try discriminate. intros w [= <-]. exact Logic.I.
Qed.

(** The patterns the checker fills in. *)
Definition filled (r : string_rules) : Prop :=
  match s_wk r with
  | Some (WRegex KRHeaderName) => s_pattern r = Some (match s_strict r with Some false => re_header_string | _ => re_header_name end)
  | Some (WRegex KRHeaderValue) => s_pattern r = Some (match s_strict r with Some false => re_header_string | _ => re_header_value end)
  | _ => True
  end.
Lemma string_filled re_ok r0 r : check_string re_ok r0 = Some r -> filled r.
Proof.
  unfold check_string, guard. destruct (_ && _) eqn:E; [|discriminate]. destruct (check_wkr r0) as [r'|] eqn:W; [|discriminate].
  destruct (_ && _) in |- *; [|discriminate]. intros [= <-]. unfold check_wkr, get_wkr, guard in W. unfold filled.
  destruct (s_wk r0) as [[b|b|b|b|b|b|b|b|b|k]|] eqn:Ew; try (injection W as <-; rewrite Ew; exact I).
  destruct k; try (injection W as <-; rewrite Ew; exact I); destruct (is_none (s_pattern r0)); try discriminate;
    injection W as <-; cbn [s_wk s_pattern s_strict set_pattern]; rewrite Ew; try exact I; destruct (s_strict r0) as [[]|]; reflexivity.
Qed.

Lemma string_lists re_ok r0 r : check_string re_ok r0 = Some r ->
  (s_in r = [] \/ s_not_in r = []) /\
  check_len (s_len r) (s_min_len r) (s_max_len r) = true /\ check_len (s_len_bytes r) (s_min_bytes r) (s_max_bytes r) = true.
Proof.
  unfold check_string, guard. destruct (_ && _) eqn:E; [|discriminate]. destruct (check_wkr r0) as [r'|] eqn:W; [|discriminate].
  destruct (_ && _) in |- *; [|discriminate]. intros [= <-]. rewrite !andb_true_iff in E. destruct E as [[[[E1 E2] _] _] E]. apply ins_excl in E.
  unfold check_wkr, guard in W. destruct (get_wkr r0); try (injection W as <-; auto; fail); destruct (is_none (s_pattern r0)); try discriminate;
    injection W as <-; auto.
Qed.

(** ** Names after the check *)
Lemma ck_msgs re_ok sc0 sc : check_schema re_ok sc0 = Some sc ->
  Forall2 (fun d0 d => check_msg re_ok sc0 d0 = Some d) (sc_msgs sc0) (sc_msgs sc) /\ sc_enums sc = sc_enums sc0.
Proof.
  unfold check_schema. destruct (map_opt (check_msg re_ok sc0) (sc_msgs sc0)) eqn:E; [|discriminate].
  intros [= <-]. split; [now apply map_opt_forall2|reflexivity].
Qed.
Lemma ck_enums re_ok sc0 sc e : check_schema re_ok sc0 = Some sc -> find_enum sc e = find_enum sc0 e.
Proof. intros C. unfold find_enum. now rewrite (proj2 (ck_msgs _ _ _ C)). Qed.
Lemma ck_find re_ok sc0 sc n d0 : check_schema re_ok sc0 = Some sc -> find_msg sc0 n = Some d0 ->
  exists d, find_msg sc n = Some d /\ check_msg re_ok sc0 d0 = Some d /\ In d (sc_msgs sc) /\ In d0 (sc_msgs sc0).
Proof.
  intros C. unfold find_msg. induction (proj1 (ck_msgs _ _ _ C)) as [|a b l0 l H _ IH]; cbn; [discriminate|].
  destruct (check_msg_name _ _ _ _ H) as (E & _ & _). rewrite E. destruct (String.eqb n (md_name a)).
  - intros [= <-]. exists b. auto.
  - intros F. destruct (IH F) as (d & A1 & A2 & A3 & A4). exists d. auto.
Qed.

(** ** Rules after the check *)
Lemma sch_rule_meaning orc sc sc' e r v : (forall e, find_enum sc e = find_enum sc' e) -> rule_meaning orc sc e r v <-> rule_meaning orc sc' e r v.
Proof.
  intros E. destruct r, v; cbn [rule_meaning]; try tauto. unfold enum_meaning, defined. rewrite E. tauto.
Qed.

Section Flat.
Variable re_ok : bytes -> bool.
Variable orc : oracles.
Variable sc : schema.
Variable V : string -> msgval -> Prop.
Hypothesis OK : oracle_ok orc.
Notation th l := (Forall t_holds l).

Definition rule_flat (e : etype) (r : rule_type) (v : value) : Prop :=
  match r, v with
  | RString r, VStr s => str_flat orc r s
  | _, _ => rule_meaning orc sc e r v
  end.

(** What the check leaves to know about a rule. *)
Definition sane (r : rule_type) : Prop :=
  match r with
  | RNum _ r => check_num r = true
  | RString r =>
      (s_in r = [] \/ s_not_in r = []) /\
      check_len (s_len r) (s_min_len r) (s_max_len r) = true /\ check_len (s_len_bytes r) (s_min_bytes r) (s_max_bytes r) = true /\
      filled r
  | RBytes r => b_in r = [] \/ b_not_in r = []
  | REnum r => e_in r = [] \/ e_not_in r = []
  | RAny r => a_in r = [] \/ a_not_in r = []
  | RDuration r => check_duration r = true
  | RTimestamp r => check_timestamp r = true
  | RRepeated _ | RMap _ => False
  | _ => True
  end.
Definition sane_fr (fr : field_rules) : Prop := match fr with FR _ (Some r) => sane r | _ => True end.

Lemma rule_flat_iff c mr r0 fr : (exists e, c = CElem e \/ c = CField (FOne e)) ->
  check_fr re_ok sc c (FR mr (Some r0)) = Some fr ->
  exists r, fr = FR mr (Some r) /\ sane r /\ forall e v, rule_meaning orc sc e r0 v <-> rule_flat e r v.
Proof.
  intros Hc C. assert (C' := C). apply check_fr_rule in C'; auto. destruct C' as (r & -> & C').
  exists r. split; auto. destruct r0; cbn [rule_checked] in C'; try contradiction.
  all: try (subst r; split; [|intros e [] ; reflexivity]; exact I).
  3,4,5: subst r; (split; [|intros e []; reflexivity]); cbn in C; unfold guard in C;
    match type of C with (if ?b then _ else _) = _ => destruct b eqn:E; [|discriminate] end;
    unfold check_bytes, check_enum, check_any in E; rewrite ?andb_true_iff in E; apply ins_excl; apply E.
  - subst r. split; [|intros e [] ; reflexivity]. cbn in C. unfold guard in C. destruct (_ && check_num _) eqn:E; [|discriminate].
    apply andb_true_iff in E. apply E.
  - destruct C' as (s & Es & ->). split; [destruct (string_lists _ _ _ Es) as (L1 & L2 & L3); exact (conj L1 (conj L2 (conj L3 (string_filled _ _ _ Es))))|]. intros e []; try reflexivity. cbn. eapply str_flat_iff; eauto.
  - destruct C' as [C1 ->]. split; [exact C1|intros e []; reflexivity].
  - destruct C' as [C1 ->]. split; [exact C1|intros e []; reflexivity].
Qed.

(** ** Elements, lists and maps *)
Definition elem_flat (e : etype) (fr : field_rules) (v : value) : Prop :=
  match fr with
  | FR mr (Some r) =>
      match e, v with
      | TWrap w, VWrap (Some x) => rule_flat (wrapped_type w) r x
      | TWrap w, VWrap None => required mr = false
      | _, _ => rule_flat e r v
      end
  | FR mr None => is_embed e = true ->
      (required mr = true -> is_set v) /\
      (skipped mr = false -> forall n m, e = TMsg n -> v = VMsg (Some m) -> validated_type sc n = true -> V n m)
  end.

Lemma elem_flat_iff c fr0 fr e v : (exists e, c = CElem e \/ c = CField (FOne e)) -> check_fr re_ok sc c fr0 = Some fr ->
  sane_fr fr /\ (holds (elem_reqs orc sc V e fr0 v) <-> elem_flat e fr v).
Proof.
  intros Hc C. destruct fr0 as [mr [r0|]].
  - destruct (rule_flat_iff _ _ _ _ Hc C) as (r & -> & Sr & M). split; [exact Sr|].
    change (holds (elem_reqs orc sc V e (FR mr (Some r0)) v)) with (holds (elem_reqs orc sc T e (FR mr (Some r0)) v)).
    rewrite (elem_meant re_ok orc sc c _ _ e v C). cbn [elem_meaning elem_flat].
    destruct e; try apply M. destruct v as [| | | | | |[x|]| | | | |]; try apply M. tauto.
  - injection C as <-. split; [exact I|]. cbn [elem_flat elem_reqs]. destruct (is_embed e) eqn:Ee; [|rewrite h_nil; intuition discriminate].
    unfold message_reqs. rewrite Forall_app, !h_whenb, h_one, negb_true_iff.
    assert (K : holds (match e, v with
        | TMsg n, VMsg (Some m) => whenb (validated_type sc n) [mkReq (V n m) [PStr "embedded message failed validation"] (Embedded n m)]
        | _, _ => [] end) <-> forall n m, e = TMsg n -> v = VMsg (Some m) -> validated_type sc n = true -> V n m).
    { destruct e; try (rewrite h_nil; split; auto; discriminate).
      destruct v as [| | | | |[x|]| | | | | |]; try (rewrite h_nil; split; auto; discriminate).
      rewrite h_whenb, Forall_cons_iff. cbn [rq_holds]. split.
      - intros H n m0 [= <-] [= <-] Hv. apply H; auto.
      - intros H Hv. split; auto. }
    rewrite K. split; [intros H _; exact H|auto].
Qed.

Lemma items_flat e u fr l : forall ea i,
  th (items_reqs orc sc V e u fr ea i l) <->
  (u = true -> forall j y, nth_error l j = Some y -> ~ Exists (same_item y) (ea ++ firstn j l)) /\
  (forall x, In x l -> holds (elem_reqs orc sc V e fr x)).
Proof.
  induction l as [|x t IH]; intros ea i; cbn [items_reqs].
  - split; [|constructor]. intros _. split; [|contradiction]. intros _ [|j] y; discriminate.
  - rewrite Forall_app, tag_holds, Forall_app, h_whenb, h_one, IH. split.
    + intros [[A B] [C D]]. split.
      * intros U [|j] y; cbn [nth_error firstn].
        -- intros [= <-]. rewrite app_nil_r. auto.
        -- intros Hy. specialize (C U j y Hy). rewrite <- app_assoc in C. exact C.
      * intros y [<-|Hy]; auto.
    + intros [A B]. split; [split|split].
      * intros U. specialize (A U 0 x eq_refl). cbn in A. now rewrite app_nil_r in A.
      * apply B. left; auto.
      * intros U j y Hy. specialize (A U (S j) y Hy). rewrite <- app_assoc. exact A.
      * intros y Hy. apply B. right; auto.
Qed.

Definition rep_flat (e : etype) (r : rep_rules field_rules) (l : list value) : Prop :=
  (r_ignore_empty r = Some true /\ l = []) \/
  (count_meaning (N.of_nat (List.length l)) (r_min r) (r_max r) /\
   (r_unique r = Some true -> forall i j x y, i < j -> nth_error l i = Some x -> nth_error l j = Some y -> ~ same_item y x) /\
   (forall x, In x l -> elem_flat e (rules_or_none (r_items r)) x)).

Definition map_flat (k v : etype) (r : map_rules field_rules) (l : list (value * value)) : Prop :=
  (p_ignore_empty r = Some true /\ l = []) \/
  (count_meaning (N.of_nat (List.length l)) (p_min r) (p_max r) /\
   (p_no_sparse r = Some true -> forall x y, In (x, y) l -> is_set y) /\
   (forall x y, In (x, y) l -> elem_flat k (rules_or_none (p_keys r)) x /\ elem_flat v (rules_or_none (p_values r)) y)).

Lemma rep_flat_iff e r0 r l : r_min r = r_min r0 -> r_max r = r_max r0 -> r_unique r = r_unique r0 -> r_ignore_empty r = r_ignore_empty r0 ->
  opt_checked re_ok sc e (r_items r0) (r_items r) ->
  th (rep_reqs orc sc V e r0 l) <-> rep_flat e r l.
Proof.
  intros E1 E2 E3 E4 C. unfold rep_reqs, rep_flat. rewrite E1, E2, E3, E4. apply th_ignore; [apply is_nil_true|].
  rewrite Forall_app, tag_holds, count_meant, items_flat, getb_true. apply and_iff_compat_l. cbn [app].
  rewrite firstn_pairs.
  assert (K : forall x, holds (elem_reqs orc sc V e (rules_or_none (r_items r0)) x) <-> elem_flat e (rules_or_none (r_items r)) x)
    by (intros; eapply elem_flat_iff; [|exact C]; eauto).
  split; intros [H1 H2]; (split; [exact H1|]); intros x Hx; apply K; auto.
Qed.

Lemma map_flat_iff k v r0 r l : p_min r = p_min r0 -> p_max r = p_max r0 -> p_no_sparse r = p_no_sparse r0 -> p_ignore_empty r = p_ignore_empty r0 ->
  opt_checked re_ok sc k (p_keys r0) (p_keys r) -> opt_checked re_ok sc v (p_values r0) (p_values r) ->
  th (map_reqs orc sc V k v r0 l) <-> map_flat k v r l.
Proof.
  intros E1 E2 E3 E4 C1 C2. unfold map_reqs, map_flat. rewrite E1, E2, E3, E4. apply th_ignore; [apply is_nil_true|].
  rewrite Forall_app, tag_holds, count_meant. apply and_iff_compat_l.
  rewrite Forall_flat_map, Forall_forall.
  assert (K1 : forall x, holds (elem_reqs orc sc V k (rules_or_none (p_keys r0)) x) <-> elem_flat k (rules_or_none (p_keys r)) x) by (intros; eapply elem_flat_iff; [|exact C1]; eauto).
  assert (K2 : forall x, holds (elem_reqs orc sc V v (rules_or_none (p_values r0)) x) <-> elem_flat v (rules_or_none (p_values r)) x) by (intros; eapply elem_flat_iff; [|exact C2]; eauto).
  split.
  - intros H. split.
    + intros S x y Hxy. specialize (H _ Hxy). rewrite tag_holds, Forall_app, h_whenb, h_one, getb_true in H. apply H. exact S.
    + intros x y Hxy. specialize (H _ Hxy). rewrite tag_holds, !Forall_app in H. rewrite <- K1, <- K2. tauto.
  - intros [H1 H2] [x y] Hxy. rewrite tag_holds, !Forall_app, h_whenb, h_one, getb_true, K1, K2. cbn [fst snd]. split; [|apply H2; auto].
    intros S. eapply H1; eauto.
Qed.

Definition field_flat (f : field) (v : value) : Prop :=
  match f_type f, v with
  | FOne e, _ => elem_flat e (f_rules f) v
  | FRep e, VList l => rep_flat e (rep_of (f_rules f)) l
  | FMap k w, VMap l => map_flat k w (map_of (f_rules f)) l
  | _, _ => True
  end.

(** Sanity of the rules of a field and of its parts. *)
Definition sane_field (f : field) : Prop :=
  match f_type f with
  | FOne _ => sane_fr (f_rules f)
  | FRep _ => sane_fr (item_rules (f_rules f))
  | FMap _ _ => sane_fr (key_rules (f_rules f)) /\ sane_fr (value_rules (f_rules f))
  end.

Lemma opt_sane e o0 o : opt_checked re_ok sc e o0 o -> sane_fr (rules_or_none o).
Proof. intros C. exact (proj1 (elem_flat_iff _ _ _ e (VBool true) (ex_intro _ e (or_introl eq_refl)) C)). Qed.

Lemma field_flat_iff f0 f v : check_field re_ok sc f0 = Some f ->
  match f_type f, fr_typ (f_rules f) with FRep _, Some (RRepeated _) | FRep _, None | FMap _ _, Some (RMap _) | FMap _ _, None | FOne _, _ => True | _, _ => False end ->
  sane_field f /\ (th (field_reqs orc sc V f0 v) <-> field_flat f v).
Proof.
  unfold check_field, guard. destruct (check_message _ _); [|discriminate]. destruct (check_fr _ _ _ _) as [fr'|] eqn:C; [|discriminate].
  intros [= <-]. cbn [f_type f_rules]. unfold field_reqs, field_flat, sane_field, rep_of, map_of. cbn [f_type f_rules]. destruct (f_type f0) as [e|e|k w] eqn:Et.
  - intros _. rewrite tag_holds. eapply elem_flat_iff; eauto.
  - intros Hf. destruct (f_rules f0) as [mr [r0|]] eqn:Er.
    2:{ cbn in C. injection C as <-. cbn [fr_typ item_rules no_rules sane_fr]. split; auto. destruct v; try (split; constructor).
        apply rep_flat_iff; auto. reflexivity. }
    destruct r0; try (exfalso; assert (K := check_other re_ok sc (FRep e) mr _ fr' I C I); destruct fr' as [m' [[]|]]; cbn in *; contradiction).
    apply check_rep in C. destruct C as (r1 & -> & A1 & A2 & A3 & A4 & A5). cbn [fr_typ item_rules].
    split; [exact (opt_sane _ _ _ A5)|]. destruct v; try (split; constructor). apply rep_flat_iff; auto.
  - intros Hf. destruct (f_rules f0) as [mr [r0|]] eqn:Er.
    2:{ cbn in C. injection C as <-. cbn [fr_typ key_rules value_rules no_rules sane_fr]. split; auto. destruct v; try (split; constructor).
        apply map_flat_iff; auto; reflexivity. }
    destruct r0; try (exfalso; assert (K := check_other re_ok sc (FMap k w) mr _ fr' I C I); destruct fr' as [m' [[]|]]; cbn in *; contradiction).
    apply check_map in C. destruct C as (r1 & -> & A1 & A2 & A3 & A4 & A5 & A6). cbn [fr_typ key_rules value_rules].
    split; [split; [exact (opt_sane _ _ _ A5)|exact (opt_sane _ _ _ A6)]|]. destruct v; try (split; constructor). apply map_flat_iff; auto.
Qed.

(** ** Messages *)
Definition oneof_flat (o : oneof) (s : option (string * value)) : Prop :=
  match s with
  | None => getb (o_required o) = false
  | Some (fn, v) => forall f, find (fun f => String.eqb fn (f_name f)) (o_fields o) = Some f -> th (field_reqs orc sc V f v)
  end.

Lemma msg_flat d m :
  Forall it_holds (msg_reqs orc sc V d m) <->
  (forall f, In f (md_fields d) -> forall v, assoc (f_name f) (mv_fields m) = Some v -> th (field_reqs orc sc V f v)) /\
  (forall o, In o (md_oneofs d) -> forall s, assoc (o_name o) (mv_oneofs m) = Some s -> oneof_flat o s).
Proof.
  unfold msg_reqs. rewrite Forall_app, !Forall_flat_map, !Forall_forall.
  assert (NM : forall fn l, Forall it_holds (map (fun r => (fn, r)) l) <-> th l) by (intros; rewrite Forall_map; reflexivity).
  assert (A : forall f, Forall it_holds (match assoc (f_name f) (mv_fields m) with Some v => map (fun r => (f_name f, r)) (field_reqs orc sc V f v) | None => [] end)
     <-> forall v, assoc (f_name f) (mv_fields m) = Some v -> th (field_reqs orc sc V f v)).
  { intros f. destruct (assoc _ _) as [v|].
    - rewrite NM. split; [intros H w [= <-]; exact H|auto].
    - split; [discriminate|constructor]. }
  assert (B : forall o, Forall it_holds (match assoc (o_name o) (mv_oneofs m) with Some set => oneof_reqs orc sc V o set | None => [] end)
     <-> forall s, assoc (o_name o) (mv_oneofs m) = Some s -> oneof_flat o s).
  { intros o. destruct (assoc _ _) as [s|].
    - assert (K : Forall it_holds (oneof_reqs orc sc V o s) <-> oneof_flat o s).
      { destruct s as [[fn v]|]; cbn [oneof_reqs oneof_flat].
        - destruct (find _ _) as [f|].
          + rewrite NM. split; [intros H g [= <-]; exact H|auto].
          + split; [discriminate|constructor].
        - destruct (getb _); split; try constructor; try discriminate.
          intros H. apply Forall_cons_iff in H. destruct H as [H _]. exfalso. exact H. }
      rewrite K. split; [intros H w [= <-]; exact H|auto].
    - split; [discriminate|constructor]. }
  split; intros [H1 H2]; split.
  - intros f Hf. apply A. auto.
  - intros o Ho. apply B. auto.
  - intros f Hf. apply A. auto.
  - intros o Ho. apply B. auto.
Qed.
End Flat.

(** ** Running the generated code of a language *)
Section Lang.
Variable re_ok : bytes -> bool.
Variable sc0 sc : schema.
Variable orc : oracles.
Hypothesis checked : check_schema re_ok sc0 = Some sc.
Hypothesis wf : wf_schema sc0.
Hypothesis OK : oracle_ok orc.
Variable V : string -> msgval -> Prop.
Notation th l := (Forall t_holds l).

Variable leaf : bool -> bool -> etype -> field_rules -> value -> Prop.
Variable callable : string -> Prop.
Variable frag : field -> Prop.
Hypothesis frag_shape : forall f, frag f ->
  match f_type f, fr_typ (f_rules f) with FRep _, Some (RRepeated _) | FRep _, None | FMap _ _, Some (RMap _) | FMap _ _, None | FOne _, _ => True | _, _ => False end.

(** The code for an embedded message, on messages of limited nesting. *)
Definition emb_ok (emb : string -> msgval -> outcome) (h : nat) : Prop :=
  forall n d x, find_msg sc0 n = Some d -> wt_msg sc0 d x -> all_values sc leaf n x -> callable n -> (S (mheight x) <= h)%nat ->
    says (emb n x) (validated_type sc0 n = true -> V n x).

Variable run_field : (string -> msgval -> outcome) -> field -> value -> outcome.
Hypothesis field_says : forall emb f v, frag f -> sane_field f -> wt_field sc0 (f_type f) v ->
  all_field sc leaf (f_type f) (f_rules f) v -> ftype_ok sc0 (f_type f) -> emb_ok emb (vheight v) ->
  says (run_field emb f v) (field_flat orc sc0 V f v).

Definition run_oneof emb (o : oneof) (s : option (string * value)) : outcome :=
  match s with
  | Some (fn, v) =>
      match find (fun f => String.eqb fn (f_name f)) (o_fields o) with
      | Some f => run_field emb f v
      | None => Passes
      end
  | None => throw_unless (negb (getb (o_required o)))
  end.

Lemma wt_parts d m : wt_msg sc0 d m -> Forall2 (wt_named sc0) (md_fields d) (mv_fields m) /\ Forall2 (wt_oneof sc0) (md_oneofs d) (mv_oneofs m).
Proof. intros W. destruct W. auto. Qed.
Lemma field_height k v m : In (k, v) (mv_fields m) -> (vheight v <= mheight m)%nat.
Proof. destruct m as [fs os]. cbn [mv_fields mheight]. intros I. assert (H := list_max_in (fun p => vheight (snd p)) fs _ I). cbn in H. lia. Qed.
Lemma oneof_height k g v m : In (k, Some (g, v)) (mv_oneofs m) -> (vheight v <= mheight m)%nat.
Proof.
  destruct m as [fs os]. cbn [mv_oneofs mheight]. intros I.
  assert (H := list_max_in (fun p => match snd p with Some (_, v) => vheight v | None => O end) os _ I). cbn in H. lia.
Qed.

Lemma emb_le emb h h' : (h' <= h)%nat -> emb_ok emb h -> emb_ok emb h'.
Proof using. clear. intros L H n d x A1 A2 A3 A4 A5. eapply H; eauto. lia. Qed.

Lemma check_msg_parts d0 d : md_disabled d0 = false -> check_msg re_ok sc0 d0 = Some d ->
  Forall2 (fun f0 f => check_field re_ok sc0 f0 = Some f) (md_fields d0) (md_fields d) /\
  Forall2 (fun o0 o => check_oneof re_ok sc0 o0 = Some o) (md_oneofs d0) (md_oneofs d).
Proof.
  intros Hd C. unfold check_msg in C. rewrite Hd in C.
  destruct (map_opt (check_field re_ok sc0) (md_fields d0)) eqn:E1; [|discriminate].
  destruct (map_opt (check_oneof re_ok sc0) (md_oneofs d0)) eqn:E2; [|discriminate].
  injection C as <-. split; now apply map_opt_forall2.
Qed.

Section Msg.
Variable emb : string -> msgval -> outcome.
Variable d0 d : msgdesc.
Variable n : string.
Variable m : msgval.
Hypothesis Hfind0 : find_msg sc0 n = Some d0.
Hypothesis Hfind : find_msg sc n = Some d.
Hypothesis Hin : In d0 (sc_msgs sc0).
Hypothesis Hck : check_msg re_ok sc0 d0 = Some d.
Hypothesis Hact : active d = true.
Hypothesis Hwt : wt_msg sc0 d0 m.
Hypothesis Hall : all_values sc leaf n m.
Hypothesis Hfr : Forall frag (all_fields d).
Hypothesis Hemb : emb_ok emb (mheight m).

Lemma msg_enabled : md_disabled d0 = false.
Proof.
  destruct (check_msg_name _ _ _ _ Hck) as (_ & _ & E). rewrite <- E. unfold active in Hact. destruct (md_disabled d); auto; discriminate.
Qed.
Lemma all_parts : (forall f v, In f (md_fields d) -> assoc (f_name f) (mv_fields m) = Some v -> all_field sc leaf (f_type f) (f_rules f) v) /\
    (forall o f v, In o (md_oneofs d) -> In f (o_fields o) ->
       assoc (o_name o) (mv_oneofs m) = Some (Some (f_name f, v)) -> all_field sc leaf (f_type f) (f_rules f) v).
Proof.
  clear - Hall Hfind Hact. inversion Hall as [n' m' d' F A|n' d' m' F A B]; subst.
  - rewrite Hfind in F. injection F as <-. congruence.
  - rewrite Hfind in F. injection F as <-. auto.
Qed.

Lemma one_field f0 f v : check_field re_ok sc0 f0 = Some f -> In f0 (all_fields d0) -> In f (all_fields d) -> wt_field sc0 (f_type f0) v ->
  all_field sc leaf (f_type f) (f_rules f) v -> (vheight v <= mheight m)%nat ->
  says (run_field emb f v) (th (field_reqs orc sc0 V f0 v)).
Proof.
  intros C I0 I1 W A L. destruct (check_field_name _ _ _ _ C) as [En Et].
  assert (F : frag f) by (rewrite Forall_forall in Hfr; auto).
  destruct (field_flat_iff re_ok orc sc0 V OK f0 f v C (frag_shape f F)) as [Sn Iff].
  eapply says_iff; [symmetry; exact Iff|]. apply field_says; auto.
  - now rewrite Et.
  - rewrite Et. destruct (wf d0 Hin) as [_ W']. auto.
  - eapply emb_le; eauto.
Qed.

Lemma fields_say :
  says (in_order (map (fun f => match assoc (f_name f) (mv_fields m) with Some v => run_field emb f v | None => Passes end) (md_fields d)))
    (forall f, In f (md_fields d0) -> forall v, assoc (f_name f) (mv_fields m) = Some v -> th (field_reqs orc sc0 V f v)).
Proof.
  destruct (check_msg_parts d0 d msg_enabled Hck) as [F1 _]. destruct all_parts as [P1 _]. destruct (wf d0 Hin) as [[N1 N2] _].
  apply (says_map2 _ _ _ _ _ F1). intros f0 f I0 I1 C. destruct (check_field_name _ _ _ _ C) as [En Et]. rewrite En.
  destruct (wt_parts _ _ Hwt) as [W1 _].
  assert (ND : NoDup (map f_name (md_fields d0))).
  { unfold all_fields in N1. rewrite map_app in N1. clear - N1. induction (map f_name (md_fields d0)) as [|x l IH]; [constructor|].
    cbn in N1. apply NoDup_cons_iff in N1. destruct N1 as [A B]. constructor; auto. intros K. apply A. apply in_app_iff. auto. }
  destruct (wt_assoc sc0 _ _ _ W1 ND I0) as (v & Ev & Wv & Iv). rewrite Ev.
  eapply says_iff; [|apply (one_field f0 f v); auto].
  - split; [intros H w [= <-]; exact H|auto].
  - unfold all_fields. apply in_app_iff; auto.
  - unfold all_fields. apply in_app_iff; auto.
  - apply P1; auto. now rewrite En.
  - eapply field_height; eauto.
Qed.

Lemma oneofs_say :
  says (in_order (map (fun o => match assoc (o_name o) (mv_oneofs m) with Some s => run_oneof emb o s | None => Passes end) (md_oneofs d)))
    (forall o, In o (md_oneofs d0) -> forall s, assoc (o_name o) (mv_oneofs m) = Some s -> oneof_flat orc sc0 V o s).
Proof.
  destruct (check_msg_parts d0 d msg_enabled Hck) as [_ F2]. destruct all_parts as [_ P2]. destruct (wf d0 Hin) as [[N1 N2] _].
  apply (says_map2 _ _ _ _ _ F2). intros o0 o I0 I1 C.
  unfold check_oneof in C. destruct (map_opt (check_field re_ok sc0) (o_fields o0)) as [fl|] eqn:Ef; [|discriminate]. injection C as <-.
  apply map_opt_forall2 in Ef. cbn [o_name].
  destruct (wt_parts _ _ Hwt) as [_ W2].
  destruct (wt_assoc_oneof sc0 _ _ _ W2 N2 I0) as (s & Es & Ws & Is). rewrite Es.
  eapply says_iff with (P := oneof_flat orc sc0 V o0 s); [split; [intros H w [= <-]; exact H|auto]|].
  inversion Ws as [o' E1 E2|o' f0 v If Wv E1 E2]; subst; cbn [run_oneof oneof_flat o_fields o_required].
  - apply says_throw. destruct (getb _); cbn; split; auto; discriminate.
  - assert (ND := oneof_nodup _ _ N1 I0). rewrite (find_field _ _ ND If).
    assert (K : exists f, find (fun g => String.eqb (f_name f0) (f_name g)) fl = Some f /\ In f fl /\ check_field re_ok sc0 f0 = Some f).
    { clear - Ef If ND. induction Ef as [|a b l l' H _ IH]; [contradiction|]. cbn in ND. apply NoDup_cons_iff in ND. destruct ND as [A B].
      destruct (check_field_name _ _ _ _ H) as [En Et]. cbn. rewrite En. destruct (String.eqb_spec (f_name f0) (f_name a)) as [E|E].
      - destruct If as [->|If]; [exists b; auto|]. exfalso. apply A. rewrite <- E. now apply in_map.
      - destruct If as [->|If]; [congruence|]. destruct (IH If B) as (f & X & Y & Z). exists f. auto. }
    destruct K as (f & Ff & If' & C). rewrite Ff. destruct (check_field_name _ _ _ _ C) as [En Et].
    eapply says_iff; [|apply (one_field f0 f v); auto].
    + split; [intros H w [= <-]; exact H|auto].
    + unfold all_fields. apply in_app_iff. right. apply in_flat_map. eauto.
    + unfold all_fields. apply in_app_iff. right. apply in_flat_map. eexists. split; [exact I1|exact If'].
    + eapply P2; [exact I1|exact If'|]. cbn [o_name]. now rewrite Es, En.
    + eapply oneof_height; eauto.
Qed.

(** Fields and oneofs in either order. *)
Lemma parts_valid : validated_type sc0 n = true ->
  ((forall f, In f (md_fields d0) -> forall v, assoc (f_name f) (mv_fields m) = Some v -> th (field_reqs orc sc0 (valid orc sc0) f v)) /\
   (forall o, In o (md_oneofs d0) -> forall s, assoc (o_name o) (mv_oneofs m) = Some s -> oneof_flat orc sc0 (valid orc sc0) o s)) <->
  (validated_type sc0 n = true -> valid orc sc0 n m).
Proof.
  intros Hv. rewrite <- msg_flat. assert (St := valid_step orc sc0 n m d0 Hfind0). rewrite msg_enabled in St.
  rewrite St. intuition discriminate.
Qed.
End Msg.
End Lang.
