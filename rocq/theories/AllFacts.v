(** The fragment of AllSpec.v lies in those of the four languages. *)
From Coq Require Import Floats.SpecFloat Lia.
From Verif Require Import Base Utf8 Num Rules Types Time Iface Checker GoGen GoSem Spec Meaning LitSpec Wt Setting BaseFacts
  LangFacts Main Values Outcome Says JavaFacts KnownFacts RegexFacts Utf8Facts LitFacts  GoType GoFit GoCompile GoIdent Java JavaSpec Cc CcSpec Py PySpec PyFacts JavaEx AllSpec.

(** ** Conditions on all values *)
Section Mono.
Variable sc : schema.
Variables P Q : bool -> bool -> etype -> field_rules -> value -> Prop.

(** Where the values of a field sit. *)
Definition place_of (f : field) (b u : bool) (e : etype) (fr : field_rules) : Prop :=
  match f_type f with
  | FOne e' => b = false /\ u = false /\ e = e' /\ fr = f_rules f
  | FRep e' => b = true /\ u = is_unique (f_rules f) /\ e = e' /\ fr = item_rules (f_rules f)
  | FMap k w => b = true /\ u = false /\ (e = k /\ fr = key_rules (f_rules f) \/ e = w /\ fr = value_rules (f_rules f))
  end.
Hypothesis PQ : forall d f, In d (sc_msgs sc) -> In f (all_fields d) ->
  forall b u e fr v, place_of f b u e fr -> P b u e fr v -> Q b u e fr v.

Fixpoint elem_mono b u e fr v (H : all_elem sc P b u e fr v) {struct H} :
  forall d f, In d (sc_msgs sc) -> In f (all_fields d) -> place_of f b u e fr -> all_elem sc Q b u e fr v
with field_mono t fr v (H : all_field sc P t fr v) {struct H} :
  forall d f, In d (sc_msgs sc) -> In f (all_fields d) -> f_type f = t -> f_rules f = fr -> all_field sc Q t fr v
with all_values_mono n m (H : all_values sc P n m) {struct H} : all_values sc Q n m.
Proof.
  - destruct H as [b u e fr v Hv IH]. intros d f Hd Hf Hp. apply ev_leaf; [eapply PQ; eauto|].
    intros n m E1 E2 D. apply all_values_mono. now apply IH.
  - destruct H as [e fr v IH|e fr l IH|k w fr l IH]; intros d f Hd Hf Ht Hr.
    + apply ev_one. apply (elem_mono _ _ _ _ _ IH d f Hd Hf). unfold place_of. rewrite Ht, Hr. auto.
    + apply ev_rep. intros x Hx. apply (elem_mono _ _ _ _ _ (IH x Hx) d f Hd Hf). unfold place_of. rewrite Ht, Hr. auto.
    + apply ev_map. intros x y Hx. destruct (IH x y Hx) as [IH1 IH2].
      split; [apply (elem_mono _ _ _ _ _ IH1 d f Hd Hf)|apply (elem_mono _ _ _ _ _ IH2 d f Hd Hf)]; unfold place_of; rewrite Ht, Hr; auto.
  - destruct H as [n m d F A|n d m F I1 I2]; [now apply ev_inactive with d|].
    assert (Hd : In d (sc_msgs sc)) by (apply find_some in F; tauto).
    apply ev_active with d; [exact F| |].
    + intros f v Hf Hv. apply (field_mono _ _ _ (I1 f v Hf Hv) d f Hd); auto. unfold all_fields. apply in_or_app. now left.
    + intros o f v Ho Hf Hv. apply (field_mono _ _ _ (I2 o f v Ho Hf Hv) d f Hd); auto. unfold all_fields. apply in_or_app. right. apply in_flat_map. eauto.
Qed.
End Mono.

(** ** Constants *)
Lemma text_ascii s : common_text s -> Forall (fun c => c < 128)%N s.
Proof. intros [H _]. eapply Forall_impl; [|exact H]. cbn. lia. Qed.
Lemma text_utf8 s : common_text s -> valid_utf8 s.
Proof.
  intros H. apply ascii_utf8. apply forallb_forall. intros c I. apply text_ascii in H. rewrite Forall_forall in H. apply N.ltb_lt. auto.
Qed.
Lemma text_not s c : common_text s -> In c [34; 39; 92; 63]%N \/ (c < 32)%N -> ~ In c s.
Proof. intros [H _] C I. rewrite Forall_forall in H. specialize (H c I). cbn in C. intuition lia. Qed.
Lemma text_java s : common_text s -> java_text s.
Proof. intros H. split; [now apply text_utf8|]. intros c C. apply text_not; auto. cbn in *. intuition (subst; auto). all: right; lia. Qed.
Lemma text_cc s : common_text s -> cc_text s.
Proof.
  intros H. split; [split; [now apply text_utf8|split]|apply text_not; auto; right; lia].
  - intros a c d b -> X _. destruct H as [H _]. rewrite Forall_forall in H. specialize (H c). unfold hex_escaped in X.
    assert (I : In c (a ++ c :: d :: b)%list) by (apply in_or_app; right; now left). specialize (H I). lia.
  - intros (a & b & E). assert (~ In 63%N s) by (apply text_not; auto; left; cbn; auto). apply H0. rewrite E.
    apply in_or_app. right. apply in_or_app. left. cbn. auto.
Qed.
Lemma text_py s : common_text s -> py_text s.
Proof.
  intros H. split; [now apply text_utf8|]. rewrite ascii_runes by now apply text_ascii. destruct H as [H _].
  eapply Forall_impl; [|exact H]. cbn. intros c C. repeat split; try lia.
Qed.
Lemma text_quoted s : common_text s -> py_quoted s.
Proof. intros H. split; [now apply text_utf8|]. split; apply text_not; auto; left; cbn; auto. Qed.

Lemma nodup_b {A} (eqA : A -> A -> bool) l : (forall x y, In x l -> In y l -> eqA x y = true -> x = y) -> NoDup l -> nodupb eqA l = true.
Proof.
  intros E. induction 1 as [|x l N _ IH]; cbn; auto. rewrite IH; [|intros; apply E; auto; now right]. rewrite andb_true_r.
  apply negb_true_iff, not_true_iff_false. intros H. apply existsb_exists in H. destruct H as (y & Hy & H).
  apply N. rewrite (E x y); auto; [now left|now right].
Qed.

Lemma ints_lit l : (forall n, In n l -> exists z, n = NI z) -> map lit_num l = l.
Proof.
  induction l as [|n l IH]; intros H; cbn; auto. rewrite IH by (intros; apply H; now right).
  destruct (H n (or_introl eq_refl)) as (z & ->). reflexivity.
Qed.

(** ** Rules *)
Section Common.
Variable sc : schema.
Hypothesis C : common sc.

Lemma num_go p k r : common_num k r -> (p <> PTop -> no_lists (n_in r) (n_not_in r)) -> num_ok p k r.
Proof.
  intros (S & B & N1 & N2 & _) L.
  assert (Z : forall l, (forall n, In n l -> In n (n_in r) \/ In n (n_not_in r)) -> forall n, In n l -> exists z, n = NI z).
  { intros l K n Hn. destruct (B n) as (z & E & _); [destruct (K n Hn); auto 10|]. eauto. }
  assert (Q : forall l, (forall n, In n l -> In n (n_in r) \/ In n (n_not_in r)) -> NoDup l -> nodupb num_eqb (map lit_num l) = true).
  { intros l K N. rewrite ints_lit by now apply Z. apply nodup_b; auto. intros x y Hx Hy E.
    destruct (Z l K x Hx) as (a & ->), (Z l K y Hy) as (b & ->). cbn in E. apply Z.eqb_eq in E. congruence. }
  split; [intros n H; destruct (B n H) as (z & _ & K & _); exact K|].
  split; [intros n H; destruct (B n) as (z & -> & _); [intuition|reflexivity]|].
  split; [exact L|]. split; [|split; apply Q; auto].
  apply forallb_forall. intros n Hn. apply in_app_iff in Hn. destruct (B n) as (z & -> & _); [intuition|reflexivity].
Qed.

Lemma sizes_lt l : Forall common_size l -> forall n, In (Some n) l -> (0 < n < 2^31)%N.
Proof. intros F n H. rewrite Forall_forall in F. apply (F _ H). reflexivity. Qed.

Lemma str_go p u r : common_str r -> (p = PTop \/ p = Wt.PItem) -> str_ok p u r.
Proof.
  intros (T & S & N1 & N2 & _ & W) P. split; [intros n H; apply (sizes_lt _ S) in H; lia|].
  split; [intros [->| ->]; destruct P; discriminate|].
  split; [|split]; try (apply nodup_b; auto; intros x y _ _ E; now apply bytes_eqb_eq). rewrite W. discriminate.
Qed.

Lemma enum_go p n r : common_enum sc n r -> (p = PTop \/ p = Wt.PItem) -> enum_ok sc p n r.
Proof.
  intros (F & D & N1 & N2 & _) P. split; [intros [->| ->]; destruct P; discriminate|].
  split; [|split]; auto; apply nodup_b; auto; intros x y _ _ E; now apply Z.eqb_eq.
Qed.

Definition go_pos (b : bool) : pos := if b then Wt.PItem else PTop.
Lemma elem_go b e fr : common_elem sc b e fr -> elem_ok sc (go_pos b) e fr.
Proof.
  destruct fr as [[mr|] [r|]]; cbn [common_elem]; try contradiction; try (intros _; exact I).
  intros [[_ R] L].
  assert (P : go_pos b = PTop \/ go_pos b = Wt.PItem) by (destruct b; cbn; auto).
  destruct r, e; try contradiction; cbn [elem_ok rule_ok].
  - destruct R as [<- R]. split; auto. apply num_go; auto. intros H. apply (L ltac:(destruct b; [reflexivity|now contradiction H])) with (k := k). reflexivity.
  - exact I.
  - now apply str_go.
  - now apply enum_go.
Qed.

Lemma field_go f : common_field sc f -> field_ok sc f.
Proof.
  destruct f as [fn t fr]. unfold common_field, field_ok. cbn [f_type f_rules]. destruct t as [e|e|k v].
  - intros H. apply (elem_go false) in H. destruct fr as [mr [[]|]]; auto.
  - destruct fr as [[mr|] [[]|]]; cbn [fr_typ]; try contradiction; auto. intros (A & B & U & _ & E).
    split; [intros n [H|[H|[]]]; [apply A in H|apply B in H]; lia|]. split; [|exact (elem_go true _ _ E)].
    intros H. destruct U as [->|[k [-> _]]]; auto. destruct (r_unique r) as [[]|]; auto; discriminate.
  - destruct fr as [[mr|] [[]|]]; cbn [fr_typ]; try contradiction; auto. intros (A & B & _ & N & K & V).
    split; [intros n [H|[H|[]]]; [apply A in H|apply B in H]; lia|]. split; [|rewrite K, V; cbn; auto].
    intros H. destruct (p_no_sparse r) as [[]|]; [now contradiction N|discriminate ..].
Qed.

Lemma field_typed f : common_field sc f -> rules_typed (f_rules f).
Proof.
  destruct C as [CE _].
  assert (R : forall b e mr r, common_elem sc b e (FR mr (Some r)) -> rule_typed r).
  { intros b e mr r. destruct mr; cbn [common_elem]; [contradiction|]. intros [[_ H] _].
    destruct r, e; try (exfalso; exact H); cbn [rule_typed]; auto.
    - destruct H as [<- (_ & B & _)]. intros n K. destruct (B n K) as (z & _ & Q & _). exact Q.
    - destruct H as (_ & D & _). intros z K. destruct (D z K) as (d & F & I). apply find_some in F.
      specialize (CE d (proj1 F)). rewrite Forall_forall in CE. exact (CE z I). }
  destruct f as [fn t fr]. unfold common_field, rules_typed. cbn [f_type f_rules]. destruct t as [e|e|k v].
  - intros H. destruct fr as [mr [r|]]; cbn [fr_typ]; auto.
    assert (X : rule_typed r) by (eapply R; eauto). destruct mr; cbn in H; [contradiction|]. destruct r; auto; destruct H as [[_ []] _].
  - destruct fr as [[mr|] [[]|]]; cbn [fr_typ]; try contradiction; auto. intros (_ & _ & _ & _ & E) r' H.
    destruct (r_items r) as [[mr tr]|]; cbn in H; [|discriminate]. subst tr. eapply R, E.
  - destruct fr as [[mr|] [[]|]]; cbn [fr_typ]; try contradiction; auto. intros (_ & _ & _ & _ & K & V) r' H.
    rewrite K, V in H. cbn in H. destruct H; discriminate.
Qed.

Lemma in_common d f : In d (sc_msgs sc) -> In f (all_fields d) -> common_field sc f.
Proof. intros Hd Hf. destruct C as [_ D]. destruct (D d Hd) as (_ & F & _). rewrite Forall_forall in F. auto. Qed.

Lemma common_package re_ok sc0 : check_schema re_ok sc0 = Some sc -> wf_schema sc0 ->
  NoDup (type_names sc) -> Forall exported (type_names sc) -> NoDup (paths sc) -> package re_ok sc0 sc.
Proof.
  intros K W T E P. constructor; auto.
  - intros d f Hd Hf. split; [now apply field_typed, (in_common d)|]. destruct C as [_ D]. destruct (D d Hd) as (_ & _ & _ & F & _).
    rewrite Forall_forall in F. auto.
  - intros d f Hd X Hf. destruct C as [_ D]. destruct (D d Hd) as (_ & _ & F & _). specialize (F X). rewrite Forall_forall in F.
    rewrite (F f Hf). reflexivity.
Qed.

Lemma common_fits : go_fits sc.
Proof.
  intros d Hd _ _. apply Forall_forall. intros f Hf. assert (Q := in_common d f Hd Hf). apply field_ok_fit; [now apply field_go|].
  intros k v r Ht Hr. unfold common_field in Q. destruct f as [fn t [mr tr]]. cbn in Ht, Hr, Q. subst t tr. destruct mr; [contradiction|].
  destruct Q as (_ & _ & _ & N & K & V). unfold map_loops, key_named. rewrite K, V. rewrite !orb_false_r. auto.
Qed.

Lemma common_go re_ok sc0 orc : package re_ok sc0 sc -> oracle_ok orc -> setting re_ok sc0 sc orc.
Proof.
  intros P O. constructor; [apply P|apply P| |exact O]. split.
  - assert (CO : compiles sc) by (apply (compiles_iff re_ok sc0 sc P); exact common_fits).
    destruct CO as (N & _). unfold package_names in N. rewrite List.app_assoc in N. apply NoDup_app_iff in N. tauto.
  - intros d Hd _ _. apply Forall_forall. intros f Hf. now apply field_go, (in_common d).
Qed.

(** ** Java *)
Lemma signed_half k z : signed k -> half k z.
Proof using. clear. intros S. destruct k; try exact I; cbn in S; intuition discriminate. Qed.
Lemma elem_java b e fr ignored : (forall n, ignored n = false) -> common_elem sc b e fr -> java_elem sc ignored b false e fr.
Proof.
  intros IG. destruct fr as [[mr|] [r|]]; cbn [common_elem java_elem]; try contradiction; auto.
  - intros (_ & _ & _ & N). split; [|auto]. intros [A B]. apply N. unfold skipped, required in *. destruct mr as [[[]|] [[]|]]; cbn in *; auto; discriminate.
  - intros [[_ R] L]. destruct r, e; try contradiction; cbn [java_rule]; auto.
    + destruct R as [<- (S & B & _)]. split; auto. intros n H. destruct (B n H) as (z & -> & K & Z). split; auto.
      now apply signed_half.
    + destruct R as (T & S & _). split; [intros s H; now apply text_java, T|]. eapply Forall_impl; [|exact S].
      intros o H n E. specialize (H n E). lia.
    + destruct R as (_ & D & _). split; [exact D|discriminate].
  - intros _. split; [|auto]. intros [A _]. discriminate.
Qed.

Lemma common_java ignored : (forall n, ignored n = false) -> java_schema sc ignored.
Proof.
  intros IG d Hd _. apply Forall_forall. intros f Hf. assert (Q := in_common d f Hd Hf). clear Hf.
  destruct f as [fn t fr]. unfold common_field in Q. unfold java_field. cbn [f_type f_rules] in *.
  assert (CN : forall a b, common_size a -> common_size b -> java_counts a b).
  { intros a b A B. split; [intros H; specialize (B 0%N H); lia|]. split; intros n H; [apply A in H|apply B in H]; lia. }
  destruct t as [e|e|k v].
  - now apply elem_java.
  - destruct fr as [[mr|] [[]|]]; cbn [fr_typ]; try contradiction.
    + destruct Q as (A & B & U & _ & E). split; auto. split; [|now apply elem_java]. intros H. destruct (U H) as [->|[k [-> _]]]; reflexivity.
    + apply (elem_java true e no_rules ignored IG). exact I.
  - destruct fr as [[mr|] [[]|]]; cbn [fr_typ]; try contradiction.
    + destruct Q as (A & B & _ & N & K & V). split; auto. split; auto. rewrite K, V. cbn. repeat split; auto; intros [X _]; discriminate.
    + cbn. split; auto. intros [X _]; discriminate.
Qed.

Lemma place_elem d f b u e fr : In d (sc_msgs sc) -> In f (all_fields d) -> place_of f b u e fr ->
  common_elem sc b e fr /\ (u = true -> e = TString \/ exists k, e = TNum k /\ signed k).
Proof.
  intros Hd Hf P. assert (Q := in_common d f Hd Hf). clear Hd Hf. destruct f as [fn t fr']. unfold common_field in Q. unfold place_of in P.
  cbn [f_type f_rules] in *. destruct t as [e'|e'|k w].
  - destruct P as (-> & -> & -> & ->). split; [exact Q|discriminate].
  - destruct P as (-> & -> & -> & ->). destruct fr' as [[mr|] [[]|]]; try contradiction; cbn; [|split; [exact I|discriminate]].
    destruct Q as (_ & _ & U & _ & E). split; [exact E|]. intros H. apply U. destruct (r_unique r) as [[]|]; [reflexivity|discriminate ..].
  - destruct P as (-> & -> & P). split; [|discriminate].
    assert (N : key_rules fr' = no_rules /\ value_rules fr' = no_rules).
    { destruct fr' as [[mr|] [[]|]]; try contradiction; cbn; auto. destruct Q as (_ & _ & _ & _ & -> & ->). auto. }
    destruct N as [N1 N2]. rewrite N1, N2 in P. destruct P as [[_ ->]|[_ ->]]; exact I.
Qed.

(** The rule at a place, and the value under it. *)
Lemma place_rule d f b u e mr r v : In d (sc_msgs sc) -> In f (all_fields d) -> place_of f b u e (FR mr (Some r)) ->
  common_value b u e (FR mr (Some r)) v ->
  (exists k r' z, r = RNum k r' /\ signed k /\ v = VNum (NI z)) \/ (exists c, r = RBool c) \/ (exists r', r = REnum r') \/
  exists r' s, r = RString r' /\ common_str r' /\ v = VStr s /\ valid_utf8 s.
Proof.
  intros Hd Hf P (_ & T & N). destruct (place_elem _ _ _ _ _ _ Hd Hf P) as [E _]. destruct mr; cbn in E; [contradiction|].
  destruct E as [[_ E] _]. destruct r, e; try contradiction; eauto.
  - destruct E as [<- E]. left. destruct (N k eq_refl (proj1 E)) as (z & ->). exists k, r, z. split; auto. split; auto. apply E.
  - right. right. right. destruct (T eq_refl) as (s & -> & U). eauto 10.
Qed.

Lemma value_java orc jl d f b u e fr v : In d (sc_msgs sc) -> In f (all_fields d) -> place_of f b u e fr ->
  common_value b u e fr v -> java_value sc orc jl b u e fr v.
Proof.
  intros Hd Hf P V. split; [apply V|]. split.
  - intros ->. destruct (proj2 (place_elem _ _ _ _ _ _ Hd Hf P) eq_refl) as [-> |(k & -> & S)]; destruct V as (_ & T & N).
    + destruct (T eq_refl) as (s & -> & U). exact U.
    + destruct (N k eq_refl S) as (z & ->). now apply signed_half.
  - intros mr r ->. destruct (place_rule _ _ _ _ _ _ _ _ Hd Hf P V) as [(k & r' & z & -> & S & ->)|[(c & ->)|[(r' & ->)|(r' & s & -> & R & -> & U)]]].
    + now apply signed_half.
    + destruct v as [| | | | | |[]| | | | |]; exact I.
    + destruct v as [| | | | | |[]| | | | |]; exact I.
    + destruct R as (_ & _ & _ & _ & Pn & W). split; [exact U|]. rewrite Pn, W. split; discriminate.
Qed.

(** ** C++ *)
Definition cc_place (b : bool) : rule_place := if b then CcSpec.PItem else PField.
Lemma elem_cc cl b e fr : common_elem sc b e fr -> cc_elem_ok cl (cc_place b) e fr.
Proof.
  destruct fr as [[mr|] [r|]]; cbn [common_elem cc_elem_ok]; try contradiction; auto.
  intros [[_ R] L].
  assert (LP : has_lists r -> list_place (cc_place b) r).
  { intros H. destruct b; [|exact I]. cbn [cc_place list_place]. destruct r, e; try contradiction; auto.
    destruct (proj1 (L eq_refl) _ _ eq_refl) as [A B]. cbn in H. rewrite A, B in H. destruct H as [H|H]; now apply H. }
  destruct r, e; try contradiction; (split; [exact LP|]); (split; [destruct b; exact I|]); auto.
  - destruct R as [<- (S & B & _)]. split; auto. split; [|split].
    + intros n' H. destruct (B n' H) as (z & -> & K & Z). split; auto. cbn in K. destruct k; cbn in S; try (intuition discriminate);
        unfold in_kind in K; cbn in K; apply andb_prop in K as [K1 K2]; apply Z.leb_le in K1; apply Z.ltb_lt in K2 || apply Z.leb_le in K2; lia.
    + intros -> ; cbn in S; intuition discriminate.
    + intros -> ; cbn in S; intuition discriminate.
  - destruct R as (T & S & _ & _ & Pn & W). split; [intros s' H; now apply text_cc, T|]. split; [rewrite Pn; discriminate|].
    split; [|rewrite W; repeat split; discriminate]. eapply Forall_impl; [|exact S]. intros o H n' E. specialize (H n' E). lia.
Qed.

Lemma common_cc cl : cc_schema cl sc.
Proof.
  intros d Hd _. apply Forall_forall. intros f Hf. assert (Q := in_common d f Hd Hf). clear Hf.
  destruct f as [fn t fr]. unfold common_field in Q. unfold cc_field_ok. cbn [f_type f_rules] in *.
  assert (CN : forall a, common_size a -> cc_size a) by (intros a A n H; apply A in H; lia).
  destruct t as [e|e|k v].
  - apply (elem_cc cl) in Q. exact Q.
  - destruct fr as [[mr|] [[]|]]; cbn [fr_typ]; try contradiction; auto.
    destruct Q as (A & B & U & _ & E). split; auto. split; auto. split; [|apply (elem_cc cl) in E; exact E].
    intros H. destruct (U H) as [->|[k [-> _]]]; split; auto; discriminate.
  - destruct fr as [[mr|] [[]|]]; cbn [fr_typ]; try contradiction; auto.
    destruct Q as (A & B & _ & N & K & V). split; auto. split; auto. split; auto. rewrite K, V. cbn. split; auto. intros [[] _].
Qed.

Lemma value_cc orc cl d f b u e fr v : In d (sc_msgs sc) -> In f (all_fields d) -> place_of f b u e fr ->
  common_value b u e fr v -> cc_value cl orc b u e fr v.
Proof.
  intros Hd Hf P V. split; [apply V|].
  intros mr r ->. destruct (place_rule _ _ _ _ _ _ _ _ Hd Hf P V) as [(k & r' & z & -> & S & ->)|[(c & ->)|[(r' & ->)|(r' & s & -> & R & -> & U)]]].
  - intros _ H. discriminate H.
  - destruct v as [| | | | | |[]| | | | |]; exact I.
  - destruct v as [| | | | | |[]| | | | |]; exact I.
  - destruct R as (_ & _ & _ & _ & Pn & W). split; auto. rewrite Pn, W. split; discriminate.
Qed.

(** ** Python *)
Lemma not_blank e r : common_rule sc e r -> ~ blank r.
Proof.
  intros [NI R] B. apply NI. destruct r, e; try contradiction; cbn in B; subst; cbn; auto 20.
  - repeat split; auto; repeat constructor; left; reflexivity.
  - repeat split; auto; try discriminate; left; reflexivity.
Qed.
Lemma rule_fits e r : common_rule sc e r -> PySpec.fits e r.
Proof. intros [_ R]. destruct r, e; try contradiction; cbn; auto. apply R. Qed.
Lemma rule_py e r : common_rule sc e r -> py_rule_ok r.
Proof.
  intros [_ R]. destruct r, e; try contradiction; cbn; auto.
  - destruct R as (<- & S & B & _ & _ & E). split; auto. intros n' H. destruct (B n' H) as (z & -> & K & _).
    split; auto. split; [intros ?|]; discriminate.
  - destruct R as (T & S & _ & _ & Pn & W). rewrite !Forall_cons_iff in S.
    destruct S as (S1 & S2 & S3 & S4 & S5 & S6 & _).
    split; [intros s' H; apply text_py, T; tauto|]. split; [intros s' H; apply text_quoted, T; tauto|].
    split; [rewrite Pn; discriminate|]. split; [rewrite W; discriminate|].
    split; [intros H; specialize (S1 _ H); lia|]. split; [intros H; specialize (S3 _ H); lia|].
    split; [intros H; specialize (S4 _ H); lia|]. split; [intros H; specialize (S6 _ H); lia|].
    intros H. assert (X : common_text []) by (apply T; tauto). now apply X.
  - apply R.
Qed.

Lemma common_py_shape d : In d (sc_msgs sc) -> Forall py_shape (all_fields d).
Proof.
  intros Hd. apply Forall_forall. intros f Hf. assert (Q := in_common d f Hd Hf). clear Hf Hd.
  destruct f as [fn t fr]. unfold common_field in Q. unfold py_shape. cbn [f_type f_rules] in *.
  destruct t as [e|e|k w].
  - destruct fr as [[mr|] [r|]]; cbn [common_elem] in Q; try contradiction; auto.
    + destruct Q as (_ & (n & ->) & M & _). exact M.
    + destruct Q as [Q _]. assert (A := rule_fits _ _ Q). assert (B := not_blank _ _ Q). destruct Q as [NI Q].
      assert (Z : dur_apart r) by (destruct r; try exact I; destruct e; contradiction).
      destruct e; auto; destruct r; try contradiction; tauto.
    + now destruct e.
  - destruct fr as [[mr|] [[]|]]; try contradiction; [|exact I].
    destruct Q as (A & B & U & S & E). split; [|split].
    + intros X. cbn in X. subst r. cbn in S. destruct S as [S|[S|[S|S]]]; now apply S || discriminate.
    + intros _ (X1 & X2 & X3 & _ & X4). rewrite X4 in S. unfold no_size, common_size in *.
      destruct S as [S|[S|[S|S]]]; [| |contradiction|now apply S].
      * destruct X1 as [X1|X1]; [contradiction|]. specialize (A _ X1). lia.
      * destruct X2 as [X2|X2]; [contradiction|]. specialize (B _ X2). lia.
    + destruct (Values.inner (r_items r)) as [[mr|] [r'|]]; cbn in E; try contradiction; try exact I.
      destruct E as [E El]. split; [now apply rule_fits|]. split; auto. split; [intros [_ X]; now apply E|].
      split; [exact (proj2 (El eq_refl))|]. destruct E as [_ E]. destruct r'; try exact I. destruct e; contradiction.
  - destruct fr as [[mr|] [[]|]]; try contradiction; [|exact I].
    destruct Q as (A & B & S & N & K & V). rewrite K, V. split; [|split; [|split; exact I]].
    + intros X. cbn in X. subst r. cbn in S. destruct S as [S|S]; now apply S.
    + intros _ (X1 & X2 & _). unfold no_size, common_size in *. destruct S as [S|S].
      * destruct X1 as [X1|X1]; [contradiction|]. specialize (A _ X1). lia.
      * destruct X2 as [X2|X2]; [contradiction|]. specialize (B _ X2). lia.
Qed.

Lemma common_py_fields pn d : (forall m, pn_entry pn m = false) -> In d (sc_msgs sc) -> Forall (py_field_ok pn) (all_fields d).
Proof.
  intros PE Hd. apply Forall_forall. intros f Hf. assert (Q := in_common d f Hd Hf). clear Hf Hd.
  destruct f as [fn t fr]. unfold common_field in Q. unfold py_field_ok. cbn [f_type f_rules] in *.
  destruct t as [e|e|k w].
  - destruct fr as [[mr|] [r|]]; cbn [common_elem] in Q; try contradiction; auto.
    destruct Q as [Q _]. now apply rule_py in Q.
  - destruct fr as [[mr|] [[]|]]; try contradiction; [|intros; apply PE].
    destruct Q as (A & B & U & S & E). split; [intros H; specialize (B _ H); lia|]. split.
    + intros H. destruct (U H) as [->|(k & -> & _)]; reflexivity.
    + destruct (Values.inner (r_items r)) as [[mr|] [r'|]]; cbn in E; try contradiction; try exact I; [now destruct E|].
      destruct E as [E _]. split; [now apply rule_py in E|]. destruct E as [_ E]. destruct r'; try contradiction; exact I.
  - destruct fr as [[mr|] [[]|]]; try contradiction; [|exact I].
    destruct Q as (A & B & S & N & K & V). rewrite K, V. split; [intros H; specialize (B _ H); lia|]. cbn. auto.
Qed.

Lemma value_py orc pl d f b u e fr v : In d (sc_msgs sc) -> In f (all_fields d) -> place_of f b u e fr ->
  common_value b u e fr v -> py_value pl orc b u e fr v.
Proof.
  intros Hd Hf P V. split; [apply V|]. split.
  - intros s -> ->. destruct (proj2 (place_elem _ _ _ _ _ _ Hd Hf P) eq_refl) as [-> |(k & -> & S)]; destruct V as (_ & T & N).
    + destruct (T eq_refl) as (s' & E & U). now injection E as <-.
    + destruct (N k eq_refl S) as (z & E). discriminate.
  - intros mr r ->. destruct (place_rule _ _ _ _ _ _ _ _ Hd Hf P V) as [(k & r' & z & -> & S & ->)|[(c & ->)|[(r' & ->)|(r' & s & -> & R & -> & U)]]].
    + exact I.
    + destruct v as [| | | | | |[]| | | | |]; exact I.
    + destruct v as [| | | | | |[]| | | | |]; exact I.
    + destruct R as (_ & _ & _ & _ & Pn & W). split; [exact U|]. rewrite Pn, W. split; discriminate.
Qed.
End Common.

(** ** One verdict *)
Section One.
Variables (re_ok : bytes -> bool) (sc0 sc : schema) (orc : oracles) (pl : py_libs) (pn : py_names).
Hypothesis S : common_setting re_ok sc0 sc orc pl pn.

Lemma co_go : setting re_ok sc0 sc orc.
Proof. destruct S. apply (common_go sc co_common); auto. apply (common_package sc co_common); auto. Qed.
Lemma co_java : java_setting re_ok sc0 sc orc (fun _ => false).
Proof. destruct S. constructor; auto. apply common_java; auto. Qed.
Lemma co_cc cl : cc_setting re_ok sc0 sc orc cl.
Proof. destruct S. constructor; auto. now apply common_cc. Qed.
Lemma co_py : py_setting re_ok sc0 sc orc pl pn.
Proof.
  destruct S. constructor; auto.
  - now apply common_py_shape.
  - intros d o Hd Ho. destruct co_common as [_ D]. destruct (D d Hd) as (_ & _ & _ & _ & E). apply Forall_forall. intros f Hf.
    unfold member_shape. destruct (f_type f) as [[]| |]; auto. destruct (f_rules f) as [mr [r|]] eqn:R; auto. exact (E o f mr r Ho Hf R).
  - intros d Hd _. now apply (common_py_fields sc co_common).
  - intros d _. rewrite co_ignored. discriminate.
  - intros d Hd M. destruct co_common as [_ D]. destruct (D d Hd) as (E & _). rewrite E in M. discriminate M.
Qed.

Lemma co_values n m : common_values sc n m ->
  forall jl cl, java_message sc orc jl (fun _ => false) n m /\ cc_values sc orc cl n m /\ py_values sc orc pl n m.
Proof.
  intros V jl cl. assert (C := co_common _ _ _ _ _ _ S). split; [constructor; [reflexivity|]|split].
  all: refine (all_values_mono sc _ _ _ n m V); intros d f Hd Hf b u e fr v P; eauto using value_java, value_cc, value_py.
Qed.
End One.
