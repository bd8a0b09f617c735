(** Proofs of the theorems in PropField.v. *)
From Coq Require Import Lia Floats.SpecFloat.
From Verif Require Import Base Utf8 Num Rules Types Time Iface Checker GoGen GoSem Spec SpecErr Meaning Wt Setting MainFacts
  BaseFacts NumFacts TimeFacts ExecFacts ExecField ExecMsg Main MeaningFacts FieldFacts WtDec Example.

Section R.
Variables (re_ok : bytes -> bool) (ms : list msgdesc) (es : list enumdesc) (top : list string).
Variables (sc : schema) (orc : oracles) (all : bool).
Notation on t fr := (setting re_ok (with_field ms es top t fr) sc orc).
Notation accepts v := (validate sc orc all "M" (one v) = VNil).

Ltac pl t fr v := apply (run_plain re_ok ms es top sc orc all t fr v); [reflexivity|assumption|].
Lemma p_num k r v : on (FOne (TNum k)) (FR None (Some (RNum k r))) -> num_of_kind k v = true ->
  (accepts (VNum v) <-> num_meaning r v).
Proof. intros st W. pl (FOne (TNum k)) (FR None (Some (RNum k r))) (VNum v). repeat constructor. auto. Qed.
Lemma p_bool c v : on (FOne TBool) (FR None (Some (RBool c))) -> (accepts (VBool v) <-> forall x, c = Some x -> v = x).
Proof. intros st. pl (FOne TBool) (FR None (Some (RBool c))) (VBool v). repeat constructor. Qed.
Lemma p_string r s : on (FOne TString) (FR None (Some (RString r))) -> is_bytes s = true ->
  (accepts (VStr s) <-> str_meaning orc r s).
Proof. intros st W. pl (FOne TString) (FR None (Some (RString r))) (VStr s). repeat constructor. auto. Qed.
Lemma p_bytes r s : on (FOne TBytes) (FR None (Some (RBytes r))) -> is_bytes s = true ->
  (accepts (VByt s) <-> byt_meaning orc r s).
Proof. intros st W. pl (FOne TBytes) (FR None (Some (RBytes r))) (VByt s). repeat constructor. auto. Qed.
Lemma p_enum e r z : on (FOne (TEnum e)) (FR None (Some (REnum r))) ->
  (accepts (VEnum z) <-> enum_meaning (with_field ms es top (FOne (TEnum e)) (FR None (Some (REnum r)))) e r z).
Proof. intros st. pl (FOne (TEnum e)) (FR None (Some (REnum r))) (VEnum z). repeat constructor. Qed.
Lemma p_any r o : on (FOne TAny) (FR None (Some (RAny r))) -> (accepts (VAny o) <-> any_meaning r o).
Proof. intros st. pl (FOne TAny) (FR None (Some (RAny r))) (VAny o). repeat constructor. Qed.
Lemma p_duration r o : on (FOne TDur) (FR None (Some (RDuration r))) -> (forall d, o = Some d -> is_sn d) ->
  (accepts (VDur o) <-> dur_meaning r o).
Proof.
  intros st W. pl (FOne TDur) (FR None (Some (RDuration r))) (VDur o). destruct o; constructor; constructor. auto.
Qed.
Lemma p_timestamp r o : on (FOne TTs) (FR None (Some (RTimestamp r))) -> (forall d, o = Some d -> is_sn d) ->
  (accepts (VTs o) <-> ts_meaning orc r o).
Proof.
  intros st W. pl (FOne TTs) (FR None (Some (RTimestamp r))) (VTs o). destruct o; constructor; constructor. auto.
Qed.

(** Messages. *)
Lemma p_message n mr d o : let s0 := with_field ms es top (FOne (TMsg n)) (FR mr None) in
  setting re_ok s0 sc orc -> find_msg s0 n = Some d -> (forall m, o = Some m -> wt_msg s0 d m) ->
  (accepts (VMsg o) <->
   (required mr = true -> o <> None) /\
   (forall m, o = Some m -> skipped mr = false -> md_methods d <> MNone -> validate sc orc all n m = VNil)).
Proof.
  intros s0 st Hd W. assert (Wf : wt_field s0 (FOne (TMsg n)) (VMsg o)).
  { constructor. destruct o; econstructor; eauto. }
  rewrite (run_one re_ok ms es top sc orc all _ _ (VMsg o) st Wf). fold s0.
  unfold field_meaning, field_embeds, elem_embeds. cbn [f_type f_rules elem_meaning is_embed fr_typ fr_msg is_set].
  split.
  - intros [A B]. split; [auto|]. intros m -> S Hm. apply (run_meant _ _ _ _ st all n d m); [constructor; auto; unfold has_methods; destruct (md_methods d); congruence|].
    apply B. repeat split; auto. unfold validated_type. rewrite Hd. destruct (md_methods d); auto.
  - intros [A B]. split; [auto|]. intros n' m ([= <-] & [= ->] & _ & S & Vt).
    assert (Hm : md_methods d <> MNone) by (unfold validated_type in Vt; rewrite Hd in Vt; destruct (md_methods d); congruence).
    apply (run_meant _ _ _ _ st all n d m); [constructor; auto; unfold has_methods; destruct (md_methods d); congruence|]. apply B; auto.
Qed.

(** Repeated fields and maps of anything but messages. *)
Lemma p_repeated e r l : on (FRep e) (FR None (Some (RRepeated r))) -> plain_t (FRep e) = true ->
  Forall (wt_elem (with_field ms es top (FRep e) (FR None (Some (RRepeated r)))) e) l ->
  (accepts (VList l) <-> rep_meaning orc (with_field ms es top (FRep e) (FR None (Some (RRepeated r)))) e r l).
Proof. intros st P W. apply (run_plain re_ok ms es top sc orc all (FRep e) (FR None (Some (RRepeated r))) (VList l)); auto. constructor. auto. Qed.

Lemma p_map k v r l : let s0 := with_field ms es top (FMap k v) (FR None (Some (RMap r))) in
  setting re_ok s0 sc orc -> plain_t (FMap k v) = true ->
  (forall x y, In (x, y) l -> wt_elem s0 k x /\ wt_elem s0 v y) ->
  (accepts (VMap l) <-> map_meaning orc s0 k v r l).
Proof.
  intros s0 st P W. apply (run_plain re_ok ms es top sc orc all (FMap k v) (FR None (Some (RMap r))) (VMap l)); auto. constructor. apply Forall_forall. intros [x y]; auto.
Qed.
End R.

Lemma wrapped_plain w n : wrapped_type w <> TMsg n.
Proof. destruct w; discriminate. Qed.

(** Reports of two one-field schemas with equal requirements. *)
Lemma report_one re_ok re_ok' ms ms' es es' top top' sc sc' orc t t' fr fr' v v' :
  setting re_ok (with_field ms es top t fr) sc orc -> setting re_ok' (with_field ms' es' top' t' fr') sc' orc ->
  wt_field (with_field ms es top t fr) t v -> wt_field (with_field ms' es' top' t' fr') t' v' ->
  field_reqs orc (with_field ms es top t fr) (valid orc (with_field ms es top t fr)) (mkField "F" t fr) v =
  field_reqs orc (with_field ms' es' top' t' fr') (valid orc (with_field ms' es' top' t' fr')) (mkField "F" t' fr') v' ->
  forall all, report (validate sc orc all "M" (one v)) = report (validate sc' orc all "M" (one v')).
Proof.
  intros st st' W W' E. eapply same_report; eauto using one_message. rewrite !one_reqs. now f_equal.
Qed.

(** Wrappers: the checker and the templates treat the wrapped value like a plain one. *)
Lemma p_wrapper re_ok re_ok' ms es top sc sc' orc w mr r x :
  setting re_ok (with_field ms es top (FOne (TWrap w)) (FR mr (Some r))) sc orc ->
  setting re_ok' (with_field ms es top (FOne (wrapped_type w)) (FR None (Some r))) sc' orc ->
  wt_elem (with_field ms es top (FOne (wrapped_type w)) (FR None (Some r))) (wrapped_type w) x ->
  forall all, report (validate sc orc all "M" (one (VWrap (Some x)))) = report (validate sc' orc all "M" (one x)).
Proof.
  intros st st' W. eapply report_one; eauto.
  - constructor. constructor. destruct w; inversion W; subst; constructor; auto.
  - constructor. exact W.
  - unfold field_reqs. cbn [f_type f_rules]. f_equal.
    assert (K : forall e s, is_embed e = false -> elem_reqs orc s (valid orc s) e (FR None (Some r)) x = rule_reqs orc s e r x).
    { intros e s. destruct e; auto; discriminate. }
    rewrite K by (destruct w; reflexivity). cbn [elem_reqs].
    destruct r; auto.
Qed.

Lemma p_wrapper_nil re_ok ms es top sc orc w mr r all :
  setting re_ok (with_field ms es top (FOne (TWrap w)) (FR mr (Some r))) sc orc ->
  (validate sc orc all "M" (one (VWrap None)) = VNil <-> required mr = false).
Proof.
  intros st. apply (run_plain re_ok ms es top sc orc all (FOne (TWrap w)) (FR mr (Some r)) (VWrap None)); auto. repeat constructor.
Qed.

(** ignore_empty. *)
Definition no_ignore (r : rule_type) : rule_type :=
  match r with
  | RNum k r => RNum k (mkNumRules (n_const r) (n_lt r) (n_lte r) (n_gt r) (n_gte r) (n_in r) (n_not_in r) None)
  | RString r => RString (mkStringRules (s_const r) (s_len r) (s_min_len r) (s_max_len r) (s_len_bytes r) (s_min_bytes r)
      (s_max_bytes r) (s_pattern r) (s_prefix r) (s_suffix r) (s_contains r) (s_not_contains r) (s_in r) (s_not_in r)
      (s_wk r) (s_strict r) None)
  | RBytes r => RBytes (mkBytesRules (b_const r) (b_len r) (b_min_len r) (b_max_len r) (b_pattern r) (b_prefix r) (b_suffix r)
      (b_contains r) (b_in r) (b_not_in r) (b_wk r) None)
  | RRepeated r => RRepeated (mkRepRules (r_min r) (r_max r) (r_unique r) (r_items r) None)
  | RMap r => RMap (mkMapRules (p_min r) (p_max r) (p_no_sparse r) (p_keys r) (p_values r) None)
  | r => r
  end.
Definition ignores_empty (r : rule_type) : bool :=
  match r with
  | RNum _ r => getb (n_ignore_empty r) | RString r => getb (s_ignore_empty r) | RBytes r => getb (b_ignore_empty r)
  | RRepeated r => getb (r_ignore_empty r) | RMap r => getb (p_ignore_empty r) | _ => false
  end.
(** The empty values. *)
Definition empty (v : value) : Prop :=
  (exists n, v = VNum n /\ nzero n) \/ v = VStr [] \/ v = VByt [] \/ v = VList [] \/ v = VMap [].

Lemma not_empty_num n : ~ empty (VNum n) -> num_zero_b n = false.
Proof. intros H. apply not_true_iff_false. intros E. apply H. left. exists n. split; auto. now apply num_zero_b_spec. Qed.

Lemma p_ignore_accepts re_ok ms es top sc orc t mr r v all :
  setting re_ok (with_field ms es top t (FR mr (Some r))) sc orc -> plain_t t = true -> (forall w, t <> FOne (TWrap w)) ->
  wt_field (with_field ms es top t (FR mr (Some r))) t v ->
  ignores_empty r = true -> empty v -> validate sc orc all "M" (one v) = VNil.
Proof.
  intros st P NW W I E. apply (run_plain re_ok ms es top sc orc all t (FR mr (Some r)) v); auto.
  unfold field_meaning. cbn [f_type f_rules].
  destruct E as [(n & -> & Z)| [->| [->| [->| ->]]]]; inversion W; subst; try (match goal with H : wt_elem _ _ _ |- _ => inversion H; subst end);
    cbn [elem_meaning rep_of map_of fr_typ]; destruct r; try exact Logic.I; cbn [ignores_empty] in I; try discriminate; try apply getb_true in I; cbn [rule_meaning].
  all: try (left; auto; fail).
  all: try (right; split; [split; discriminate|split; [|intros; contradiction]]; intros _ i j x y _ H; destruct i; discriminate).
  all: try (right; split; [split; discriminate|split; intros; contradiction]).
Qed.

Lemma elem_reqs_same orc s s' emb emb' e fr v : sc_enums s = sc_enums s' -> (forall n, e <> TMsg n) ->
  elem_reqs orc s emb e fr v = elem_reqs orc s' emb' e fr v.
Proof.
  intros E N. assert (D : forall x z, defined s x z = defined s' x z) by (intros; unfold defined, find_enum; now rewrite E).
  assert (R : forall x r w, rule_reqs orc s x r w = rule_reqs orc s' x r w).
  { intros x r w. destruct r; auto. destruct w; auto. cbn. unfold enum_reqs. now rewrite D. }
  destruct fr as [mr [r|]]; cbn [elem_reqs].
  - destruct e; auto. destruct v as [| | | | | |[x|]| | | | |]; auto.
  - destruct e; auto. now destruct (N m).
Qed.
Lemma items_reqs_same orc s s' emb emb' e u fr l : sc_enums s = sc_enums s' -> (forall n, e <> TMsg n) ->
  forall acc i, items_reqs orc s emb e u fr acc i l = items_reqs orc s' emb' e u fr acc i l.
Proof.
  intros E N. induction l as [|x t IH]; intros acc i; cbn [items_reqs]; auto. rewrite IH. do 3 f_equal. now apply elem_reqs_same.
Qed.

Lemma wt_elem_plain s s' e v : (forall n, e <> TMsg n) -> wt_elem s e v -> wt_elem s' e v.
Proof.
  intros N W. destruct e; inversion W; subst; try (constructor; auto; fail).
  - now destruct (N m).
  - constructor. destruct w; match goal with H : wt_elem s _ _ |- _ => inversion H; subst; constructor; auto end.
Qed.
Lemma plain_elem e : match e with TMsg _ => false | _ => true end = true -> forall n, e <> TMsg n.
Proof. now destruct e. Qed.
Lemma wt_plain s s' t v : plain_t t = true -> wt_field s t v -> wt_field s' t v.
Proof.
  destruct t as [e|e|k w]; cbn [plain_t]; intros P W; inversion W; subst; constructor.
  - eapply wt_elem_plain; eauto using plain_elem.
  - eapply Forall_impl; [|eassumption]. intros a. apply wt_elem_plain. now apply plain_elem.
  - apply andb_true_iff in P. destruct P. eapply Forall_impl; [|eassumption]. cbn. intros a [A B].
    split; eapply wt_elem_plain; eauto using plain_elem.
Qed.

Lemma p_ignore_same re_ok re_ok' ms es top sc sc' orc t mr r v :
  setting re_ok (with_field ms es top t (FR mr (Some r))) sc orc ->
  setting re_ok' (with_field ms es top t (FR mr (Some (no_ignore r)))) sc' orc -> plain_t t = true -> (forall w, t <> FOne (TWrap w)) ->
  wt_field (with_field ms es top t (FR mr (Some r))) t v ->
  ~ empty v -> forall all, report (validate sc orc all "M" (one v)) = report (validate sc' orc all "M" (one v)).
Proof.
  intros st st' P NW W E. eapply report_one; eauto; [eapply wt_plain; eauto|].
  set (s := with_field _ _ _ _ _). set (s' := with_field _ _ _ _ _).
  assert (En : sc_enums s = sc_enums s') by reflexivity.
  assert (N0 : forall b s, VStr s <> VStr [] -> getb b && is_nil s = false) by (intros b [|]; [congruence|intros; now rewrite andb_false_r]).
  assert (N1 : forall b s, VByt s <> VByt [] -> getb b && is_nil s = false) by (intros b [|]; [congruence|intros; now rewrite andb_false_r]).
  assert (N2 : forall b l, VList l <> VList [] -> getb b && is_nil l = false) by (intros b [|]; [congruence|intros; now rewrite andb_false_r]).
  assert (N3 : forall b l, VMap l <> VMap [] -> getb b && is_nil l = false) by (intros b [|]; [congruence|intros; now rewrite andb_false_r]).
  destruct t as [e|e|k w]; unfold field_reqs; cbn [f_type f_rules fr_typ plain_t] in *.
  - f_equal. rewrite (elem_reqs_same orc s s' (valid orc s) (valid orc s') e _ v En) by now apply plain_elem.
    assert (K : forall q, elem_reqs orc s' (valid orc s') e (FR mr (Some q)) v = rule_reqs orc s' e q v).
    { intros q. cbn [elem_reqs]. destruct e; auto. now destruct (NW w). }
    rewrite !K. destruct r, v; cbn [rule_reqs no_ignore]; auto.
    + unfold num_reqs. cbn [n_ignore_empty n_const n_lt n_lte n_gt n_gte n_in n_not_in]. rewrite (not_empty_num n E), andb_false_r. reflexivity.
    + unfold str_reqs, regex_reqs. cbn. rewrite N0; auto. intros H. apply E. right; left; auto.
    + unfold byt_reqs. cbn. rewrite N1; auto. intros H. apply E. do 2 right; left; auto.
  - destruct v; auto. assert (L : VList l <> VList []) by (intros H; apply E; do 3 right; left; auto).
    destruct r; cbn [no_ignore]; unfold rep_reqs; cbn [r_ignore_empty r_min r_max r_unique r_items];
      try rewrite (N2 (r_ignore_empty r) _ L); cbn [getb andb]; f_equal; apply items_reqs_same; auto; now apply plain_elem.
  - destruct v; auto. assert (L : VMap l <> VMap []) by (intros H; apply E; do 4 right; auto).
    apply andb_true_iff in P. destruct P as [P1 P2].
    destruct r; cbn [no_ignore]; unfold map_reqs; cbn [p_ignore_empty p_min p_max p_no_sparse p_keys p_values];
      try rewrite (N3 (p_ignore_empty r) _ L); cbn [getb andb]; f_equal; apply flat_map_ext; intros [x y]; cbn [fst snd]; do 2 f_equal;
      (f_equal; apply elem_reqs_same; auto; now apply plain_elem).
Qed.

(** * Which index is reported *)

Lemma explains_list_in orc s n l es : explains_list orc s n l es -> forall f ix reason,
  In (n, (f, (ix, reason))) (map says es) <-> exists r, In (f, (ix, r)) l /\ ~ rq_holds r /\ rq_reason r = reason.
Proof.
  induction l as [|[f0 [ix0 r0]] t IH] in es |- *; intros H f ix reason; inversion H; subst; cbn [map In says].
  - split; [intros []|intros (r & [] & _)].
  - rewrite IH by eassumption. split.
    + intros (r & A & B). exists r. auto.
    + intros (r & [[= -> -> ->]|A] & B & C); [contradiction|]. eauto.
  - rewrite IH by eassumption. split.
    + intros [[= -> -> E]|(r & A & B)]; [|exists r; auto]. exists r0. auto.
    + intros (r & [[= -> -> ->]|A] & B & C); [left; congruence|]. eauto.
Qed.
Lemma explains_list_dec orc s n l es : explains_list orc s n l es -> Forall (fun i => rq_holds (snd (snd i)) \/ ~ rq_holds (snd (snd i))) l.
Proof.
  induction l as [|[f0 [ix0 r0]] t IH] in es |- *; intros H; inversion H; subst; constructor; cbn; eauto.
Qed.
Lemma run_report re_ok s0 sc orc n d m : setting re_ok s0 sc orc -> message s0 n d m -> md_disabled d = false ->
  (forall f ix reason, In (n, (f, (ix, reason))) (report (validate sc orc true n m)) <->
     exists r, In (f, (ix, r)) (full_reqs orc s0 d m) /\ ~ rq_holds r /\ rq_reason r = reason) /\
  Forall (fun i => rq_holds (snd (snd i)) \/ ~ rq_holds (snd (snd i))) (full_reqs orc s0 d m).
Proof.
  intros st M D. destruct (run_all_list _ _ _ _ st _ _ _ M D) as [[R L]|(es & N & R & L)]; rewrite R; cbn [report].
  - split; [intros f ix reason; apply (explains_list_in _ _ _ _ _ L)|eapply explains_list_dec; eauto].
  - split; [intros f ix reason; apply (explains_list_in _ _ _ _ _ L)|eapply explains_list_dec; eauto].
Qed.

Lemma not_forall_req l : Forall (fun r => rq_holds r \/ ~ rq_holds r) l ->
  (~ Forall rq_holds l <-> exists r, In r l /\ ~ rq_holds r).
Proof.
  intros D. split.
  - induction D as [|r t [H|H] _ IH]; intros N; [destruct N; constructor| |].
    + destruct IH as (q & A & B); [intros F; apply N; now constructor|]. exists q. split; [right|]; auto.
    + exists r. split; [left|]; auto.
  - intros (r & A & B) F. rewrite Forall_forall in F. auto.
Qed.

(** The requirements on an item. *)
Definition item_reqs orc s emb e (u : bool) fr (acc : list value) (x : value) : list req :=
  whenb u [want (~ Exists (same_item x) acc) [PStr "repeated value must contain unique items"]] ++ elem_reqs orc s emb e fr x.
Lemma items_at orc s emb e u fr l : forall acc k i r,
  In (Some (IxN i), r) (items_reqs orc s emb e u fr acc k l) <->
  exists j x, i = k + j /\ nth_error l j = Some x /\ In r (item_reqs orc s emb e u fr (acc ++ firstn j l) x).
Proof.
  induction l as [|x t IH]; intros acc k i r; cbn [items_reqs].
  - split; [intros []|intros ([|j] & x & _ & H & _); discriminate].
  - rewrite in_app_iff, IH. unfold tag. rewrite in_map_iff. split.
    + intros [(q & [= <- <-] & Q)|(j & y & -> & H1 & H2)].
      * exists 0, x. rewrite Nat.add_0_r, app_nil_r. auto.
      * exists (S j), y. cbn [nth_error firstn]. rewrite <- app_assoc in H2. split; [lia|auto].
    + intros ([|j] & y & -> & H1 & H2); cbn [nth_error firstn] in *.
      * injection H1 as <-. rewrite app_nil_r in H2. left. exists r. rewrite Nat.add_0_r. auto.
      * right. exists j, y. rewrite <- app_assoc. split; [lia|auto].
Qed.

Lemma same_item_dec_exists s e x acc : is_embed e = false -> wt_elem s e x -> Forall (wt_elem s e) acc ->
  (~ ~ Exists (same_item x) acc <-> Exists (same_item x) acc).
Proof.
  intros S W F. split; [|tauto]. intros H. destruct (existsb (fun y => key_eqb (ukey x) (ukey y)) acc) eqn:E.
  - apply existsb_exists in E. destruct E as (y & Y & E). apply Exists_exists. exists y. split; auto.
    rewrite Forall_forall in F. apply (ukey_same s e); auto.
  - exfalso. apply H. intros X. apply Exists_exists in X. destruct X as (y & Y & E'). rewrite Forall_forall in F.
    apply (ukey_same s e) in E'; auto. assert (K : existsb (fun y => key_eqb (ukey x) (ukey y)) acc = true) by (apply existsb_exists; eauto). congruence.
Qed.

Lemma setting_field re_ok s0 sc orc d f : setting re_ok s0 sc orc -> In d (sc_msgs s0) -> md_disabled d = false -> In f (md_fields d) ->
  exists f', check_field re_ok s0 f = Some f'.
Proof.
  intros st Hd D Hf. destruct (checked_msg re_ok s0 sc (set_checked _ _ _ _ st) d Hd) as [d' C]. unfold check_msg in C. rewrite D in C.
  destruct (map_opt (check_field re_ok s0) (md_fields d)) eqn:E1; [|discriminate].
  apply map_opt_forall2 in E1. clear - E1 Hf. induction E1; [contradiction|]. destruct Hf as [->|]; eauto.
Qed.

Lemma in_one (f : string) l ix r : In (f, (ix, r)) (map (fun r : option ixval * req => ("F"%string, r)) l) <-> f = "F"%string /\ In (ix, r) l.
Proof.
  rewrite in_map_iff. split.
  - intros (q & [= <- ->] & H). auto.
  - intros [-> H]. exists (ix, r). auto.
Qed.

Lemma p_item_index re_ok ms es top sc orc e r l : let s0 := with_field ms es top (FRep e) (FR None (Some (RRepeated r))) in
  setting re_ok s0 sc orc -> is_embed e = false -> Forall (wt_elem s0 e) l ->
  forall i, (exists reason, In ("M", ("F", (Some (IxN i), reason)))%string (report (validate sc orc true "M" (one (VList l))))) <->
    exists x, nth_error l i = Some x /\
      ((r_unique r = Some true /\ exists j y, j < i /\ nth_error l j = Some y /\ same_item x y) \/
       ~ elem_meaning orc s0 e (rules_or_none (r_items r)) x).
Proof.
  intros s0 st Se W i.
  assert (Pt : forall n, e <> TMsg n) by (destruct e; discriminate).
  assert (M := one_message ms es top (FRep e) (FR None (Some (RRepeated r))) (VList l) (wt_rep _ _ _ W)). fold s0 in M.
  destruct (run_report _ _ _ _ _ _ _ st M eq_refl) as [R Dc]. unfold s0 in R, Dc. rewrite one_reqs in R, Dc. fold s0 in R, Dc.
  cbn [field_reqs f_type f_rules fr_typ] in R, Dc.
  assert (Cf : exists c x, check_fr re_ok s0 c (rules_or_none (r_items r)) = Some x).
  { destruct (setting_field _ _ _ _ _ (mkField "F" (FRep e) (FR None (Some (RRepeated r)))) st (or_introl eq_refl) eq_refl (or_introl eq_refl)) as [f' C].
    unfold check_field, guard in C. destruct (check_message _ _); [|discriminate]. destruct (check_fr _ _ _ _) as [fr'|] eqn:Cf; [|discriminate].
    eapply check_items. cbn [f_rules] in Cf. exact Cf. }
  destruct Cf as (c & fr' & Cf).
  set (emb := valid orc s0) in *.
  assert (Ix : forall q, In (Some (IxN i), q) (rep_reqs orc s0 emb e r l) <->
     exists x, nth_error l i = Some x /\ In q (item_reqs orc s0 emb e (getb (r_unique r)) (rules_or_none (r_items r)) (firstn i l) x)).
  { intros q. unfold rep_reqs. destruct (_ && _) eqn:Eg.
    - apply andb_true_iff in Eg. destruct Eg as [_ Eg]. apply is_nil_true in Eg. subst. split; [intros []|].
      intros (x & H & _). destruct i; discriminate.
    - rewrite in_app_iff, items_at. cbn [app Nat.add]. split.
      + intros [H|(j & x & -> & H)]; [|eauto]. unfold tag in H. apply in_map_iff in H. destruct H as (? & [=] & _).
      + intros (x & H). right. exists i, x. auto. }
  assert (Df : forall ix q, In (ix, q) (rep_reqs orc s0 emb e r l) -> rq_holds q \/ ~ rq_holds q).
  { intros ix q H. rewrite Forall_forall in Dc. apply (Dc ("F"%string, (ix, q))). apply in_one. auto. }
  assert (El : forall x, holds (elem_reqs orc s0 emb e (rules_or_none (r_items r)) x) <-> elem_meaning orc s0 e (rules_or_none (r_items r)) x).
  { intros x. rewrite (elem_reqs_same orc s0 s0 emb (fun _ _ => True) e _ x eq_refl Pt). eapply elem_meant; eauto. }
  assert (It : forall x, nth_error l i = Some x ->
    ((exists q, In q (item_reqs orc s0 emb e (getb (r_unique r)) (rules_or_none (r_items r)) (firstn i l) x) /\ ~ rq_holds q) <->
     (r_unique r = Some true /\ exists j y, j < i /\ nth_error l j = Some y /\ same_item x y) \/
       ~ elem_meaning orc s0 e (rules_or_none (r_items r)) x)).
  { intros x Hx. rewrite <- El. rewrite not_forall_req.
    2:{ apply Forall_forall. intros q Hq. apply (Df (Some (IxN i))), Ix. exists x. split; auto. unfold item_reqs. apply in_app_iff. auto. }
    assert (U : (exists j y, j < i /\ nth_error l j = Some y /\ same_item x y) <-> Exists (same_item x) (firstn i l)).
    { rewrite Exists_exists. split.
      - intros (j & y & L & Hj & Sm). exists y. split; auto. apply nth_error_In with (n := j). rewrite nth_error_firstn. apply Nat.ltb_lt in L. now rewrite L.
      - intros (y & Y & Sm). apply In_nth_error in Y. destruct Y as (j & Y). rewrite nth_error_firstn in Y. destruct (j <? i) eqn:L; [|discriminate].
        apply Nat.ltb_lt in L. eauto. }
    rewrite U, <- getb_true. unfold item_reqs. split.
    - intros (q & Hq & N). apply in_app_iff in Hq. destruct Hq as [Hq|Hq]; [|right; eauto]. left.
      destruct (getb (r_unique r)); [|destruct Hq]. destruct Hq as [<-|[]]. split; auto. cbn in N.
      apply (same_item_dec_exists s0 e x (firstn i l)) in N; auto.
      + rewrite Forall_forall in W. apply W. eapply nth_error_In; eauto.
      + apply Forall_forall. intros y Y. rewrite Forall_forall in W. apply W. rewrite <- (firstn_skipn i l). apply in_app_iff. auto.
    - intros [[G X]|(q & Hq & N)].
      + rewrite G. eexists. split; [left; reflexivity|]. cbn. tauto.
      + exists q. rewrite in_app_iff. auto. }
  split.
  - intros (reason & H). apply R in H. destruct H as (q & H & N & _). apply in_one in H. destruct H as [_ H]. apply Ix in H.
    destruct H as (x & Hx & Hq). exists x. split; auto. apply It; eauto.
  - intros (x & Hx & H). apply It in H; auto. destruct H as (q & Hq & N). exists (rq_reason q). apply R. exists q. split; [|auto].
    apply in_one. split; auto. apply Ix. eauto.
Qed.

Lemma p_map_index re_ok ms es top sc orc k v r l : let s0 := with_field ms es top (FMap k v) (FR None (Some (RMap r))) in
  setting re_ok s0 sc orc -> plain_t (FMap k v) = true ->
  (forall x y, In (x, y) l -> wt_elem s0 k x /\ wt_elem s0 v y) ->
  forall x, (exists reason, In ("M", ("F", (Some (IxV x), reason)))%string (report (validate sc orc true "M" (one (VMap l))))) <->
    exists y, In (x, y) l /\
      ((p_no_sparse r = Some true /\ ~ is_set y) \/
       ~ elem_meaning orc s0 k (rules_or_none (p_keys r)) x \/ ~ elem_meaning orc s0 v (rules_or_none (p_values r)) y).
Proof.
  intros s0 st P W x.
  apply andb_true_iff in P. destruct P as [P1 P2]. assert (Pk := plain_elem k P1). assert (Pv := plain_elem v P2).
  assert (Wf : wt_field s0 (FMap k v) (VMap l)) by (constructor; apply Forall_forall; intros [? ?]; apply W).
  assert (M := one_message ms es top (FMap k v) (FR None (Some (RMap r))) (VMap l) Wf). fold s0 in M.
  destruct (run_report _ _ _ _ _ _ _ st M eq_refl) as [R Dc]. unfold s0 in R, Dc. rewrite one_reqs in R, Dc. fold s0 in R, Dc.
  cbn [field_reqs f_type f_rules fr_typ] in R, Dc.
  assert (Cf : (exists c' x, check_fr re_ok s0 c' (rules_or_none (p_keys r)) = Some x) /\
    (exists c' x, check_fr re_ok s0 c' (rules_or_none (p_values r)) = Some x)).
  { destruct (setting_field _ _ _ _ _ (mkField "F" (FMap k v) (FR None (Some (RMap r)))) st (or_introl eq_refl) eq_refl (or_introl eq_refl)) as [f' C].
    unfold check_field, guard in C. destruct (check_message _ _); [|discriminate]. destruct (check_fr _ _ _ _) as [fr'|] eqn:Cf; [|discriminate].
    eapply check_entries. cbn [f_rules] in Cf. exact Cf. }
  destruct Cf as [(c1 & fr1 & C1) (c2 & fr2 & C2)].
  set (emb := valid orc s0) in *.
  set (en x y := whenb (getb (p_no_sparse r)) [want (is_set y) [PStr "value cannot be sparse, all pairs must be non-nil"]]
            ++ elem_reqs orc s0 emb k (rules_or_none (p_keys r)) x ++ elem_reqs orc s0 emb v (rules_or_none (p_values r)) y).
  assert (Ix : forall x q, In (Some (IxV x), q) (map_reqs orc s0 emb k v r l) <-> exists y, In (x, y) l /\ In q (en x y)).
  { intros z q. unfold map_reqs. destruct (_ && _) eqn:Eg.
    - apply andb_true_iff in Eg. destruct Eg as [_ Eg]. apply is_nil_true in Eg. subst. split; [intros []|].
      intros (y & [] & _).
    - rewrite in_app_iff, in_flat_map. split.
      + intros [H|([a b] & Hab & H)]; unfold tag in H; apply in_map_iff in H; destruct H as (q' & Eq & H); [discriminate|].
        injection Eq as <- <-. exists b. auto.
      + intros (y & Hy & H). right. exists (z, y). split; auto. unfold tag. apply in_map_iff. exists q. auto. }
  assert (Df : forall ix q, In (ix, q) (map_reqs orc s0 emb k v r l) -> rq_holds q \/ ~ rq_holds q).
  { intros ix q H. rewrite Forall_forall in Dc. apply (Dc ("F"%string, (ix, q))). apply in_one. auto. }
  assert (Ek : holds (elem_reqs orc s0 emb k (rules_or_none (p_keys r)) x) <-> elem_meaning orc s0 k (rules_or_none (p_keys r)) x).
  { rewrite (elem_reqs_same orc s0 s0 emb (fun _ _ => True) k _ x eq_refl Pk). eapply elem_meant; eauto. }
  assert (Ev : forall y, holds (elem_reqs orc s0 emb v (rules_or_none (p_values r)) y) <-> elem_meaning orc s0 v (rules_or_none (p_values r)) y).
  { intros y. rewrite (elem_reqs_same orc s0 s0 emb (fun _ _ => True) v _ y eq_refl Pv). eapply elem_meant; eauto. }
  assert (It : forall y, In (x, y) l ->
    ((exists q, In q (en x y) /\ ~ rq_holds q) <->
     (p_no_sparse r = Some true /\ ~ is_set y) \/
       ~ elem_meaning orc s0 k (rules_or_none (p_keys r)) x \/ ~ elem_meaning orc s0 v (rules_or_none (p_values r)) y)).
  { intros y Hy. rewrite <- Ek, <- Ev.
    rewrite !not_forall_req.
    2,3: apply Forall_forall; intros q Hq; apply (Df (Some (IxV x))), Ix; exists y; split; auto; unfold en; rewrite !in_app_iff; auto.
    rewrite <- getb_true. unfold en. split.
    - intros (q & Hq & N). rewrite !in_app_iff in Hq. destruct Hq as [Hq|[Hq|Hq]]; eauto. left.
      destruct (getb (p_no_sparse r)); [|destruct Hq]. destruct Hq as [<-|[]]. auto.
    - intros [[G X]|[(q & Hq & N)|(q & Hq & N)]].
      + rewrite G. eexists. split; [left; reflexivity|]. exact X.
      + exists q. rewrite !in_app_iff. auto.
      + exists q. rewrite !in_app_iff. auto. }
  split.
  - intros (reason & H). apply R in H. destruct H as (q & H & N & _). apply in_one in H. destruct H as [_ H]. apply Ix in H.
    destruct H as (y & Hy & Hq). exists y. split; auto. apply It; eauto.
  - intros (y & Hy & H). apply It in H; auto. destruct H as (q & Hq & N). exists (rq_reason q). apply R. exists q. split; [|auto].
    apply in_one. split; auto. apply Ix. eauto.
Qed.

(** * Corollaries *)

Lemma p_integer_range re_ok ms es top sc orc all k l u v :
  setting re_ok (with_field ms es top (FOne (TNum k))
    (FR None (Some (RNum k (mkNumRules None (Some (NI u)) None (Some (NI l)) None [] [] None))))) sc orc ->
  num_of_kind k (NI v) = true ->
  (validate sc orc all "M" (one (VNum (NI v))) = VNil <->
   (l < u /\ l < v < u)%Z \/ (u <= l /\ (v < u \/ l < v))%Z).
Proof.
  intros st W. rewrite (p_num _ _ _ _ _ _ all _ _ _ st W). unfold num_meaning. cbn. unfold nan, listed. rewrite Exists_nil.
  split.
  - intros [[? _]|(_ & [H|[A B]] & _)]; try discriminate. destruct (Z_lt_le_dec l u); [left|right]; split; auto.
    + specialize (A l0). lia.
    + apply B. lia.
  - intros H. right. split; [discriminate|]. split; [right; split; lia|]. split; [congruence|auto].
Qed.
Lemma p_integer_range_inclusive re_ok ms es top sc orc all k l u v :
  setting re_ok (with_field ms es top (FOne (TNum k))
    (FR None (Some (RNum k (mkNumRules None None (Some (NI u)) None (Some (NI l)) [] [] None))))) sc orc ->
  num_of_kind k (NI v) = true ->
  (validate sc orc all "M" (one (VNum (NI v))) = VNil <->
   (l < u /\ l <= v <= u)%Z \/ (u <= l /\ (v <= u \/ l <= v))%Z).
Proof.
  intros st W. rewrite (p_num _ _ _ _ _ _ all _ _ _ st W). unfold num_meaning. cbn. unfold nan, listed. rewrite Exists_nil.
  split.
  - intros [[? _]|(_ & [H|[A B]] & _)]; try discriminate. destruct (Z_lt_le_dec l u); [left|right]; split; auto.
    + specialize (A l0). lia.
    + assert (K : ~ (l < u)%Z) by lia. apply B in K. lia.
  - intros H. right. split; [discriminate|]. split; [right; split; lia|]. split; [congruence|auto].
Qed.

Lemma nan_neq x : ~ neq (NF S754_nan) x.
Proof. destruct x as [|f]; cbn; auto. destruct f; discriminate. Qed.
Lemma p_nan re_ok ms es top sc orc all k r :
  setting re_ok (with_field ms es top (FOne (TNum k)) (FR None (Some (RNum k r)))) sc orc -> is_float k = true ->
  (validate sc orc all "M" (one (VNum (NF S754_nan))) = VNil <-> n_const r = None /\ n_in r = []).
Proof.
  intros st F. rewrite (p_num _ _ _ _ _ _ all _ _ _ st); [|destruct k; try discriminate; reflexivity]. unfold num_meaning, listed.
  assert (X : forall l, ~ Exists (neq (NF S754_nan)) l) by (intros l H; apply Exists_exists in H; destruct H as (x & _ & H); now apply nan_neq in H).
  split.
  - intros [[_ [H|[b H]]]|(A & _ & B & _)]; try discriminate. split.
    + destruct (n_const r); auto. exfalso. eapply nan_neq. now apply A.
    + destruct (n_in r); auto. exfalso. apply (X (n :: l)), B. discriminate.
  - intros [-> ->]. right. split; [discriminate|]. split; [left; reflexivity|]. split; [congruence|auto].
Qed.

Lemma p_duration_small d : (- 2^63 <= nanos d < 2^63)%Z -> go_duration d = nanos d.
Proof. unfold go_duration, clamp64. lia. Qed.

Lemma p_disabled re_ok sc0 sc orc : setting re_ok sc0 sc orc ->
  forall all n d m, message sc0 n d m -> md_disabled d = true -> validate sc orc all n m = VNil.
Proof.
  intros st all n d m M D. apply (run_verdict _ _ _ _ st n d all m M).
  apply (valid_step orc sc0 n m d (msg_decl _ _ _ _ M)). auto.
Qed.

(** * Refutations *)

Definition checked_of' (s : schema) : schema :=
  match check_schema re_any s with Some s => s | None => mkSchema [] [] [] end.
Ltac in_setting' := constructor; [vm_compute; reflexivity | apply wf_schemab_sound; vm_compute; reflexivity
  | apply supportedb_sound; vm_compute; reflexivity | exact ex_orc_ok].

Lemma p_bytes_empty_const : exists re_ok ms es top sc orc r s,
  setting re_ok (with_field ms es top (FOne TBytes) (FR None (Some (RBytes r)))) sc orc /\ is_bytes s = true /\
  b_const r = Some [] /\ s <> [] /\ validate sc orc false "M" (one (VByt s)) = VNil.
Proof.
  pose (r := mkBytesRules (Some []) None None None None None None None [] [] None None).
  exists re_any, [], [], [], (checked_of' (with_field [] [] [] (FOne TBytes) (FR None (Some (RBytes r))))), ex_orc, r, [1%N].
  split; [in_setting'|]. split; [reflexivity|]. split; [reflexivity|]. split; [discriminate|]. vm_compute. reflexivity.
Qed.
Lemma p_bytes_len_hides_min : exists re_ok ms es top sc orc r s n,
  setting re_ok (with_field ms es top (FOne TBytes) (FR None (Some (RBytes r)))) sc orc /\ is_bytes s = true /\
  b_min_len r = Some n /\ (N.of_nat (List.length s) < n)%N /\ validate sc orc false "M" (one (VByt s)) = VNil.
Proof.
  pose (r := mkBytesRules None (Some 1%N) (Some 2%N) None None None None None [] [] None None).
  exists re_any, [], [], [], (checked_of' (with_field [] [] [] (FOne TBytes) (FR None (Some (RBytes r))))), ex_orc, r, [1%N], 2%N.
  split; [in_setting'|]. split; [reflexivity|]. split; [reflexivity|]. split; [reflexivity|]. vm_compute. reflexivity.
Qed.
Lemma p_duration_large : exists re_ok ms es top sc orc r d c,
  setting re_ok (with_field ms es top (FOne TDur) (FR None (Some (RDuration r)))) sc orc /\
  is_sn d /\ valid_duration d /\ valid_duration c /\ d_const r = Some c /\ nanos d <> nanos c /\
  validate sc orc false "M" (one (VDur (Some d))) = VNil.
Proof.
  pose (c := mkSN 9223372036 854775807). pose (d := mkSN 10000000000 0).
  pose (r := mkDurationRules None (Some c) None None None None [] []).
  exists re_any, [], [], [], (checked_of' (with_field [] [] [] (FOne TDur) (FR None (Some (RDuration r))))), ex_orc, r, d, c.
  split; [in_setting'|]. split; [unfold is_sn; cbn; lia|]. split; [unfold valid_duration; cbn; lia|]. split; [unfold valid_duration; cbn; lia|].
  split; [reflexivity|]. split; [vm_compute; discriminate|]. vm_compute. reflexivity.
Qed.
Lemma p_timestamp_now_false : exists re_ok ms es top sc orc r t e,
  setting re_ok (with_field ms es top (FOne TTs) (FR None (Some (RTimestamp r)))) sc orc /\
  r = mkTimestampRules None None None None None None (Some false) None None /\ is_sn t /\ valid_timestamp t /\
  validate sc orc false "M" (one (VTs (Some t))) = VErr e.
Proof.
  pose (t := mkSN 1700000000 0). pose (r := mkTimestampRules None None None None None None (Some false) None None).
  exists re_any, [], [], [], (checked_of' (with_field [] [] [] (FOne TTs) (FR None (Some (RTimestamp r))))), ex_orc, r, t. eexists.
  split; [in_setting'|]. split; [reflexivity|]. split; [unfold is_sn; cbn; lia|]. split; [unfold valid_timestamp; cbn; lia|].
  vm_compute. reflexivity.
Qed.
