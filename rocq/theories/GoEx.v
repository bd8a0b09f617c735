(** Checking the assumptions about packages by computation, and example schemas. *)
From Coq Require Import Floats.SpecFloat Lia.
From Verif Require Import Base Num Rules Types Time Iface Checker GoIR GoGen GoSem Spec Wt WtDec GoType GoFit GoTypeFacts GoFieldFacts GoCompile GoIdent
  Setting Example Values JavaEx.
Local Open Scope string_scope.

Definition wf_numb (k : numkind) (r : num_rules) : bool :=
  forallb (num_of_kind k)
    (olist (n_const r) ++ olist (n_lt r) ++ olist (n_lte r) ++ olist (n_gt r) ++ olist (n_gte r) ++ n_in r ++ n_not_in r)%list.
Lemma wf_numb_sound k r : wf_numb k r = true -> wf_num k r.
Proof.
  unfold wf_numb, wf_num. rewrite forallb_forall. intros A n H. apply A. rewrite !in_app_iff.
  intuition auto using in_olist.
Qed.

Definition rule_typedb (r : rule_type) : bool :=
  match r with
  | RNum k r => wf_numb k r
  | REnum r => forallb (fun z => (- 2^31 <=? z)%Z && (z <? 2^31)%Z) (olist (e_const r) ++ e_in r ++ e_not_in r)%list
  | _ => true
  end.
Lemma rule_typedb_sound r : rule_typedb r = true -> rule_typed r.
Proof.
  destruct r; cbn; auto using wf_numb_sound. rewrite forallb_forall. intros A z H.
  assert (B : In z (olist (e_const r) ++ e_in r ++ e_not_in r)%list) by (rewrite !in_app_iff; intuition auto using in_olist).
  apply A in B. rewrite andb_true_iff, Z.leb_le, Z.ltb_lt in B. exact B.
Qed.

Definition inner_typedb (o : option field_rules) : bool :=
  match fr_typ (rules_or_none o) with Some r => rule_typedb r | None => true end.
Definition rules_typedb (fr : field_rules) : bool :=
  match fr_typ fr with
  | Some (RRepeated r) => inner_typedb (r_items r)
  | Some (RMap r) => inner_typedb (p_keys r) && inner_typedb (p_values r)
  | Some r => rule_typedb r
  | None => true
  end.
Lemma rules_typedb_sound fr : rules_typedb fr = true -> rules_typed fr.
Proof.
  unfold rules_typedb, rules_typed, inner_typedb. destruct (fr_typ fr) as [[]|]; auto; intros H; try (now apply rule_typedb_sound in H).
  - intros r' E. rewrite E in H. now apply rule_typedb_sound.
  - apply andb_true_iff in H. destruct H as [A B].
    intros r' [E|E]; [rewrite E in A|rewrite E in B]; now apply rule_typedb_sound.
Qed.

Definition enum_knownb (sc : schema) (t : ftype) : bool :=
  match t with
  | FOne (TEnum e) | FRep (TEnum e) | FMap _ (TEnum e) => existsb (String.eqb e) (map en_name (sc_enums sc))
  | _ => true
  end.
Lemma enum_knownb_sound sc t : enum_knownb sc t = true -> enum_known sc t.
Proof.
  intros H e E. assert (X : existsb (String.eqb e) (map en_name (sc_enums sc)) = true).
  { destruct E as [-> |[-> |[k ->]]]; exact H. }
  apply existsb_exists in X. destruct X as (y & Hy & E'). apply String.eqb_eq in E'. now subst.
Qed.

Definition exportedb (n : string) : bool := match n with String c _ => negb (Ascii.eqb c "_") | EmptyString => true end.
Definition packageb (sc0 sc : schema) : bool :=
  wf_schemab sc0 && nodup_str (type_names sc) && forallb exportedb (type_names sc) && nodup_str (paths sc) &&
  forallb (fun d => forallb (fun f => rules_typedb (f_rules f) && enum_knownb sc (f_type f) &&
                                      (negb (md_disabled d) || negb (is_some (fr_typ (f_rules f))))) (all_fields d)) (sc_msgs sc).
Lemma packageb_sound re_ok sc0 sc : check_schema re_ok sc0 = Some sc -> packageb sc0 sc = true -> package re_ok sc0 sc.
Proof.
  unfold packageb. rewrite !andb_true_iff, forallb_forall. intros C [[[[A B] D] E] F]. rewrite forallb_forall in F.
  assert (F' : forall d f, In d (sc_msgs sc) -> In f (all_fields d) -> rules_typedb (f_rules f) = true /\
    enum_knownb sc (f_type f) = true /\ (md_disabled d = true -> fr_typ (f_rules f) = None)).
  { intros d f Hd Hf. specialize (F d Hd). rewrite forallb_forall in F. specialize (F f Hf).
    rewrite !andb_true_iff in F. destruct F as [[F1 F2] F3]. repeat split; auto.
    intros X. rewrite X in F3. destruct (fr_typ (f_rules f)); [discriminate|reflexivity]. }
  constructor; auto using nodup_str_sound, wf_schemab_sound.
  - apply Forall_forall. intros n Hn. apply D in Hn. unfold exportedb in Hn. unfold exported. destruct n; auto.
    apply negb_true_iff, Ascii.eqb_neq in Hn. exact Hn.
  - intros d f Hd Hf. destruct (F' d f Hd Hf) as (F1 & F2 & _). auto using rules_typedb_sound, enum_knownb_sound.
  - intros d f Hd X Hf. apply (F' d f Hd Hf). exact X.
Qed.

(** A schema that the plugin accepts and what it makes of it. *)
Definition checked (sc0 : schema) : schema :=
  match check_schema re_any sc0 with Some s => s | None => mkSchema [] [] [] end.
Lemma checked_package sc0 : (match check_schema re_any sc0 with Some sc => packageb sc0 sc | None => false end) = true ->
  package re_any sc0 (checked sc0).
Proof.
  unfold checked. destruct (check_schema re_any sc0) as [sc|] eqn:E; [|discriminate]. intros H. now apply packageb_sound.
Qed.

Lemma ex_package : package re_any ex_schema (checked ex_schema).
Proof. apply checked_package. vm_compute. reflexivity. Qed.
