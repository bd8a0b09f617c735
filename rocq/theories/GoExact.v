(** Packages that compile are supported, up to rules that have no effect; the patterns of a package compile. *)
From Coq Require Import Floats.SpecFloat Lia.
From Verif Require Import Base Num Rules Types Time Iface Checker GoIR GoGen GoSem Spec Wt WtDec ExecField ExecMsg Main LangFacts GoType GoFit GoTypeFacts
  GoFieldFacts GoCompile GoIdent Setting.

Lemma lens_both l mn mx : check_len l mn mx = true -> lens_fit l mn mx -> lens_ok [l; mn; mx].
Proof.
  unfold check_len, lens_fit. destruct l.
  - rewrite andb_true_iff. intros [A B] H m [[= <-]|[->|[->|[]]]]; auto; discriminate.
  - intros _ [A B] m [?|[->|[->|[]]]]; [discriminate|now apply A|now apply B].
Qed.
Lemma lens_app a b : lens_ok a -> lens_ok b -> lens_ok (a ++ b).
Proof. intros A B n H. apply in_app_iff in H. destruct H; auto. Qed.

Lemma find_enum_known sc n : In n (map en_name (sc_enums sc)) -> find_enum sc n <> None.
Proof.
  unfold find_enum. induction (sc_enums sc) as [|e l IH]; cbn; [tauto|]. intros [->|H].
  - rewrite String.eqb_refl. discriminate.
  - destruct (String.eqb _ _); [discriminate|auto].
Qed.

Section S.
Variables (re_ok : bytes -> bool) (sc0 sc : schema).
Hypothesis pk : package re_ok sc0 sc.

Lemma check_fr_string t fr0 m r : check_fr re_ok sc0 t fr0 = Some (FR m (Some (RString r))) -> exists r0, check_string re_ok r0 = Some r.
Proof using.
  clear. intros H. destruct fr0 as [m0 [r0|]]; [|discriminate H]. destruct r0; cbn [Checker.check_fr] in H;
    try (apply guard_some in H; destruct H as [A H]; discriminate H).
  - apply guard_some in H. destruct H as [A H]. destruct (check_string _ _) eqn:E; [|discriminate]. injection H as <- <-. eauto.
  - destruct t as [[]|]; try discriminate. apply guard_some in H. destruct H as [_ H]. destruct r0 as [? ? ? [] ?]; [destruct (check_fr _ _ _ _)|]; discriminate.
  - destruct t as [[]|]; try discriminate. apply guard_some in H. destruct H as [_ H]. destruct r0.
    destruct (match p_keys with None => Some None | Some _ => _ end); [|discriminate]. destruct (match p_values with None => Some None | Some _ => _ end); discriminate.
Qed.

(** The rule of a checked element. *)
Lemma leaf_ok p w t e r : leaf_fit (file_uuid sc) p w t r -> rule_typed r -> (w = true -> is_embed e = false) ->
  (w = false -> t = go_type e) ->
  match r with
  | RNum k _ => e = TNum k | RBool _ => e = TBool
  | RString r => e = TString /\ check_len (s_len r) (s_min_len r) (s_max_len r) = true /\ check_len (s_len_bytes r) (s_min_bytes r) (s_max_bytes r) = true
  | RBytes r => e = TBytes /\ (forall n, In (Some n) [b_len r; b_min_len r; b_max_len r] -> int_fits n) /\ (p <> PTop -> b_pattern r = None)
  | REnum _ => exists n, e = TEnum n /\ In n (map en_name (sc_enums sc))
  | RAny _ => e = TAny | RDuration _ => e = TDur | RTimestamp _ => e = TTs
  | _ => False
  end -> rule_ok sc p w e r.
Proof using.
  clear. intros F T W G M. destruct r as [k r|c|r|r|r|r|r|r|r|r]; try contradiction.
  - subst e. cbn [rule_ok]. split; auto. split; [exact T|exact F].
  - now subst.
  - destruct M as (-> & L1 & L2). destruct F as (F1 & F2 & F). split; [|exact F].
    exact (lens_app _ _ (lens_both _ _ _ L1 F1) (lens_both _ _ _ L2 F2)).
  - destruct M as (-> & L & P). destruct F as (_ & F1 & F). split; [exact L|]. split; [exact F1|]. split; [exact P|exact F].
  - destruct M as (n & -> & K). destruct F as (A & B & C). split; [exact A|]. split; [exact B|]. split; [exact C|]. now apply find_enum_known.
  - subst e. destruct F as [_ [[A B]|(_ & -> & A & B)]].
    + split; [intros _; split; auto|]. rewrite A, B. auto.
    + split; [intros []; reflexivity|]. auto.
  - subst e. destruct F as [_ [(A1 & A2 & A3 & A4 & A5 & A6 & A7)|[_ F]]]; [|exact F].
    split; [intros d; rewrite A1, A2, A3, A4, A5; intuition discriminate|]. split; [split; auto|]. rewrite A6, A7. auto.
  - subst e. destruct F as [_ [F|[_ F]]]; [|exact F]. intros d. destruct F as (_ & _ & _ & _ & _ & _ & _ & ->). discriminate.
Qed.

Lemma elem_ok_of t e p fr0 fr : t = CElem e \/ t = CField (FOne e) ->
  check_fr re_ok sc0 t fr0 = Some fr -> (forall n, e = TEnum n -> In n (map en_name (sc_enums sc))) ->
  (forall r, fr_typ fr = Some r -> rule_typed r) ->
  elem_fit (file_uuid sc) p e (Some fr) -> apt e (Some fr) -> (p <> PTop -> bytes_pattern (Some fr) = false) -> elem_ok sc p e fr.
Proof using.
  intros Ht C KE T F A B. destruct fr as [mr [r|]]; [|exact I]. specialize (T r eq_refl).
  destruct (elem_checked _ _ _ _ _ _ _ Ht C) as [_ R].
  assert (CS : forall s, r = RString s -> check_len (s_len s) (s_min_len s) (s_max_len s) = true /\ check_len (s_len_bytes s) (s_min_bytes s) (s_max_bytes s) = true).
  { intros s ->. destruct (check_fr_string _ _ _ _ C) as [r0 H]. apply string_lists in H. tauto. }
  assert (CB : forall s, r = RBytes s -> p <> PTop -> b_pattern s = None).
  { intros s -> P. specialize (B P). cbn in B. destruct (b_pattern s); [discriminate|auto]. }
  cbn [elem_fit] in F. cbn [apt] in A.
  destruct (on_wrapped e r) eqn:W.
  - destruct e; try discriminate W. destruct F as [-> F]. split; [reflexivity|].
    apply (leaf_ok _ _ _ _ _ F T); [destruct w; reflexivity|discriminate|].
    destruct r; try discriminate W; cbn [rule_at] in R.
    + destruct R as [R|(w' & [= <-] & R)]; [discriminate|exact R].
    + destruct R as [R|[= ->]]; [discriminate|reflexivity].
    + destruct R as [R|[= ->]]; [discriminate|]. split; [reflexivity|]. now apply CS.
    + destruct R as [R|[= ->]]; [discriminate|]. split; [reflexivity|]. split; [exact A|]. now apply CB.
  - assert (X : rule_ok sc p false e r).
    { apply (leaf_ok _ _ _ _ _ F T); [discriminate|reflexivity|]. destruct r; cbn [rule_at] in R; try contradiction R; auto.
      - destruct R as [R|(w & -> & R)]; [exact R|discriminate W].
      - destruct R as [R| ->]; [exact R|discriminate W].
      - destruct R as [R| ->]; [|discriminate W]. split; [exact R|]. now apply CS.
      - destruct R as [R| ->]; [|discriminate W]. split; [exact R|]. split; [exact A|]. now apply CB.
      - destruct R as [n ->]. exists n. auto. }
    destruct e; try exact X. destruct r; try discriminate W; contradiction X.
Qed.

Lemma item_ok_of e p fr : (forall fr1, fr = Some fr1 -> exists fr0, check_fr re_ok sc0 (CElem e) fr0 = Some fr1) ->
  (forall n, e = TEnum n -> In n (map en_name (sc_enums sc))) -> (forall r, fr_typ (rules_or_none fr) = Some r -> rule_typed r) ->
  elem_fit (file_uuid sc) p e fr -> apt e fr -> bytes_pattern fr = false -> elem_ok sc p e (rules_or_none fr).
Proof using.
  intros C KE T F A B. destruct fr as [fr|]; [|exact I]. destruct (C fr eq_refl) as [fr0 C0].
  apply (elem_ok_of (CElem e) e p fr0 fr); auto.
Qed.

Lemma field_ok_of d f : In d (sc_msgs sc) -> md_disabled d = false -> In f (all_fields d) -> field_fit (file_uuid sc) f -> field_apt f -> field_ok sc f.
Proof using pk.
  intros Hd D Hf F A. destruct (field_from _ _ _ pk d f Hd D Hf) as [[fr0 C] KM]. destruct (pk_typed _ _ _ pk d f Hd Hf) as [T E].
  unfold field_ok, field_apt, field_fit in *. destruct (f_type f) as [e|e|k v] eqn:FT.
  - destruct (f_rules f) as [mr [r|]] eqn:FR; [|exact I].
    destruct (elem_checked _ _ _ _ _ _ _ (or_intror eq_refl) C) as [RC _].
    apply (elem_ok_of _ e PTop _ _ (or_intror eq_refl) C); auto.
    + intros n ->. apply E. auto.
    + intros r' [= <-]. destruct r; try exact T; contradiction RC.
    + cbn [fr_typ] in F. destruct r; try exact F; contradiction RC.
    + intros []. reflexivity.
  - destruct (f_rules f) as [mr [r|]] eqn:FR; [|exact I]. cbn [fr_typ] in *. 
    assert (O := other_checked _ _ _ _ _ _ (or_introl (ex_intro _ e eq_refl)) C). destruct r; try contradiction.
    destruct O as (e' & [= <-] & U & I). destruct F as ((F1 & F2) & F & B).
    split; [|split; [exact U|]].
    + intros n [H|[H|[]]]; [now apply F1|now apply F2].
    + apply item_ok_of; auto. intros n ->. apply E. auto.
  - destruct (f_rules f) as [mr [r|]] eqn:FR; [|exact I]. cbn [fr_typ] in *.
    assert (O := other_checked _ _ _ _ _ _ (or_intror (ex_intro _ k (ex_intro _ v eq_refl))) C). destruct r; try contradiction.
    destruct O as (k' & v' & [= <- <-] & U & IK & IV). destruct F as ((F1 & F2) & FK & FV & PP & _). destruct A as (AK & AV & B).
    cbn in T. specialize (KM k v eq_refl).
    split; [|split; [exact U|]].
    + intros n [H|[H|[]]]; [now apply F1|now apply F2].
    + split; [|split; [|exact PP]].
      * apply item_ok_of; auto.
        -- intros n ->. discriminate KM.
        -- destruct (p_keys r) as [[m [[]|]]|] eqn:PK; auto. exfalso.
           destruct (IK _ eq_refl) as [fr1 CK]. destruct (elem_checked _ _ _ _ _ _ _ (or_introl eq_refl) CK) as [_ [-> | ->]]; discriminate KM.
      * apply item_ok_of; auto. intros n ->. apply E. right. right. eauto.
Qed.

(** A package that compiles, with rules on fields that they apply to, is supported. *)
Lemma compiles_supported : compiles sc -> go_apt sc -> supported sc.
Proof using pk.
  intros CO A. assert (F : go_fits sc) by (now apply (compiles_iff re_ok sc0 sc pk)). split.
  - destruct CO as (N & _). unfold package_names in N. rewrite List.app_assoc in N. apply NoDup_app_iff in N. tauto.
  - intros d Hd D M. specialize (F d Hd M D). specialize (A d Hd M D). rewrite Forall_forall in *. intros f Hf.
    apply (field_ok_of d); auto.
Qed.
End S.

(** * Patterns *)
Section Init.
Variables (re_ok : bytes -> bool) (sc0 sc : schema).
Hypothesis ck : check_schema re_ok sc0 = Some sc.

Lemma string_pattern r0 r p : check_string re_ok r0 = Some r -> s_pattern r = Some p -> re_ok p = true.
Proof using.
  clear. unfold check_string. intros H E. apply guard_some in H. destruct H as [_ H]. destruct (check_wkr r0) as [r1|]; [|discriminate].
  apply guard_some in H. destruct H as [A [= <-]]. rewrite !andb_true_iff in A. destruct A as [[A _] _]. rewrite E in A. cbn in A.
  first [apply andb_prop in A; apply A|apply A].
Qed.

Definition pattern_of (r : rule_type) : option bytes :=
  match r with RString r => s_pattern r | RBytes r => b_pattern r | _ => None end.
Lemma elem_pattern t fr0 fr r p : check_fr re_ok sc0 t fr0 = Some fr -> fr_typ fr = Some r -> pattern_of r = Some p -> re_ok p = true.
Proof using.
  clear. intros H T P. destruct fr as [m [r'|]]; [|discriminate T]. injection T as ->. destruct r; try discriminate P; cbn in P.
  - destruct (check_fr_string _ _ _ _ _ _ H) as [r0 C]. exact (string_pattern _ _ _ C P).
  - destruct fr0 as [m0 [r0|]]; [|discriminate H]. destruct r0; cbn [Checker.check_fr] in H;
      try (apply guard_some in H; destruct H as [A H]; discriminate H).
    + apply guard_some in H. destruct H as [A H]. destruct (check_string _ _); discriminate.
    + apply guard_some in H. destruct H as [A H]. injection H as -> ->. apply andb_prop in A. destruct A as [_ A].
      unfold check_bytes in A. rewrite !andb_true_iff in A. destruct A as [[_ A] _]. rewrite P in A. cbn in A. apply andb_prop in A. apply A.
    + destruct t as [[]|]; try discriminate. apply guard_some in H. destruct H as [_ H]. destruct r0 as [? ? ? [] ?]; [destruct (check_fr _ _ _ _)|]; discriminate.
    + destruct t as [[]|]; try discriminate. apply guard_some in H. destruct H as [_ H]. destruct r0.
      destruct (match p_keys with None => Some None | Some _ => _ end); [|discriminate]. destruct (match p_values with None => Some None | Some _ => _ end); discriminate.
Qed.

Lemma decl_opt_in x p o n : In (x, DRegex p) (decl_opt o n) -> o = Some p.
Proof using. clear. destruct o; cbn; [intros [[= _ ->]|[]]; auto|tauto]. Qed.
Lemma decl_if_in {A} x p (l : list A) n v : (forall q, v <> DRegex q) -> ~ In (x, DRegex p) (decl_if l n v).
Proof using. clear. intros N. unfold decl_if. destruct l; cbn; [tauto|]. intros [[= _ E]|[]]. exact (N p E). Qed.

Lemma num_set_re ty l q : num_set ty l <> DRegex q.
Proof using. clear. unfold num_set. destruct (_ && _); discriminate. Qed.
Lemma str_set_re ty l q : str_set ty l <> DRegex q.
Proof using. clear. unfold str_set. destruct (nodupb _ _); discriminate. Qed.
Lemma byt_set_re ty l q : byt_set ty l <> DRegex q.
Proof using. clear. unfold byt_set. destruct (in_type _ _); try discriminate. destruct (_ && _); discriminate. Qed.
Lemma enum_set_re ty l q : enum_set ty l <> DRegex q.
Proof using. clear. unfold enum_set. destruct (nodupb _ _); discriminate. Qed.
Lemma dur_set_re ty l q : dur_set ty l <> DRegex q.
Proof using. clear. unfold dur_set. destruct (nodupb _ _); discriminate. Qed.

Lemma field_regex mn f fr0 x p : check_fr re_ok sc0 (CField (f_type f)) fr0 = Some (f_rules f) ->
  In (x, DRegex p) (field_decls mn f) -> re_ok p = true.
Proof using.
  clear. intros C H. unfold field_decls in H. destruct (f_rules f) as [m [r|]] eqn:E; [|contradiction]. cbn [fr_typ] in H.
  assert (O : forall q, pattern_of r = Some q -> re_ok q = true) by (intros q; apply (elem_pattern _ _ _ r q C eq_refl)).
  assert (R : forall fr0 r, check_fr re_ok sc0 (CField (f_type f)) fr0 = Some (FR m (Some (RRepeated r))) -> 
     forall fr s, r_items r = Some fr -> fr_typ fr = Some (RString s) -> s_pattern s = Some p -> re_ok p = true).
  { intros g0 r' H' fr s I T P. destruct (f_type f) as [e|e|k v]; [destruct (elem_checked _ _ _ _ _ _ _ (or_intror eq_refl) H') as [[] _]| |].
    - destruct (other_checked _ _ _ _ _ _ (or_introl (ex_intro _ e eq_refl)) H') as (e' & _ & _ & Q).
      destruct (Q _ I) as [fr1 Q1]. apply (elem_pattern _ _ _ (RString s) p Q1 T P).
    - destruct (other_checked _ _ _ _ _ _ (or_intror (ex_intro _ k (ex_intro _ v eq_refl))) H') as (e' & Z & _); discriminate Z. }
  assert (M : forall fr0 r, check_fr re_ok sc0 (CField (f_type f)) fr0 = Some (FR m (Some (RMap r))) -> 
     forall fr s, p_keys r = Some fr \/ p_values r = Some fr -> fr_typ fr = Some (RString s) -> s_pattern s = Some p -> re_ok p = true).
  { intros g0 r' H' fr s I T P. destruct (f_type f) as [e|e|k v]; [destruct (elem_checked _ _ _ _ _ _ _ (or_intror eq_refl) H') as [[] _]| |].
    - destruct (other_checked _ _ _ _ _ _ (or_introl (ex_intro _ e eq_refl)) H') as (e' & v' & Z & _); discriminate Z.
    - destruct (other_checked _ _ _ _ _ _ (or_intror (ex_intro _ k (ex_intro _ v eq_refl))) H') as (k' & v' & _ & _ & Q1 & Q2).
      destruct I as [I|I]; [destruct (Q1 _ I) as [fr1 Q]|destruct (Q2 _ I) as [fr1 Q]]; apply (elem_pattern _ _ _ (RString s) p Q T P). }
  destruct r as [k r|c|r|r|r|r|r|r|r|r]; try contradiction H; rewrite ?in_app_iff in H.
  - destruct H as [H|H]; apply decl_if_in in H; try contradiction; intros; apply num_set_re.
  - destruct H as [H|[H|H]]; [apply decl_if_in in H; [contradiction|intros; apply str_set_re] ..|]. apply decl_opt_in in H. now apply O.
  - destruct H as [H|[H|H]]; [apply decl_if_in in H; [contradiction|intros; apply byt_set_re] ..|]. apply decl_opt_in in H. now apply O.
  - destruct H as [H|H]; apply decl_if_in in H; try contradiction; intros; apply enum_set_re.
  - destruct H as [H|H].
    + destruct (str_rules_of (r_items r)) as [s|] eqn:S; [|contradiction]. rewrite ?in_app_iff in H.
      destruct H as [H|[H|H]]; [|apply decl_if_in in H; [contradiction|intros; apply str_set_re] ..].
      apply decl_opt_in in H. unfold str_rules_of in S. destruct (r_items r) as [[m' [[]|]]|] eqn:I; try discriminate S. injection S as ->.
      exact (R _ _ C _ _ I eq_refl H).
    + destruct (enum_rules_of (r_items r)) as [s|] eqn:S; [|contradiction]. rewrite ?in_app_iff in H.
      destruct H as [H|H]; apply decl_if_in in H; try contradiction; intros; apply enum_set_re.
  - destruct H as [H|H].
    + destruct (str_rules_of (p_keys r)) as [s|] eqn:S; [|contradiction].
      apply decl_opt_in in H. unfold str_rules_of in S. destruct (p_keys r) as [[m' [[]|]]|] eqn:I; try discriminate S. injection S as ->.
      exact (M _ _ C _ _ (or_introl I) eq_refl H).
    + destruct (str_rules_of (p_values r)) as [s|] eqn:S; [|contradiction].
      apply decl_opt_in in H. unfold str_rules_of in S. destruct (p_values r) as [[m' [[]|]]|] eqn:I; try discriminate S. injection S as ->.
      exact (M _ _ C _ _ (or_intror I) eq_refl H).
  - destruct H as [H|H]; apply decl_if_in in H; try contradiction; intros; apply str_set_re.
  - destruct H as [H|H]; apply decl_if_in in H; try contradiction; intros; apply dur_set_re.
Qed.

Lemma init_regex x p : (forall d f, In d (sc_msgs sc) -> md_disabled d = true -> In f (all_fields d) -> fr_typ (f_rules f) = None) ->
  In (x, DRegex p) (pkg_decls sc) -> re_ok p = true.
Proof using ck.
  intros DI H. unfold pkg_decls in H. apply in_flat_map in H. destruct H as (d & Hd & H). apply filter_In in Hd. destruct Hd as [Hd _].
  cbn in H. destruct H as [[=]|[[=]|H]]. apply in_flat_map in H. destruct H as (f & Hf & H).
  destruct (md_disabled d) eqn:D.
  - specialize (DI d f Hd D Hf). unfold field_decls in H. rewrite DI in H. contradiction.
  - destruct (forall2_in_r _ _ _ _ (proj1 (ck_msgs _ _ _ ck)) Hd) as (d0 & Hd0 & C).
    destruct (check_msg_name _ _ _ _ C) as (_ & _ & E'). rewrite D in E'.
    destruct (forall2_in_r _ _ _ _ (fields_checked _ _ d0 d (eq_sym E') C) Hf) as (f0 & Hf0 & Q).
    destruct (check_field_name _ _ _ _ Q) as [N T].
    unfold check_field in Q. apply guard_some in Q. destruct Q as [_ Q].
    destruct (check_fr re_ok sc0 (CField (f_type f0)) (f_rules f0)) as [fr|] eqn:E; [|discriminate]. injection Q as <-.
    apply (field_regex _ _ (f_rules f0) x p) in H; auto.
Qed.
End Init.
