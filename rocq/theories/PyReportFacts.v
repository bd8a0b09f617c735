(** What Python names. *)
From Coq Require Import Lia.
From Verif Require Import Base Utf8 Num Rules Types Time Iface Checker GoSem Spec Meaning Wt BaseFacts
  ExecFacts ExecRule ExecField ExecMsg Main MeaningFacts Outcome Values Says LangFacts Py PySpec PyFacts PyRunFacts
  Report ReportSpec ReportFacts ReportLang PyReport PyReportSpec.

(** ** A source with texts and the same source without *)
Section Agree.
Variable P : report_of label -> outcome -> Prop.
Hypothesis P_fine : P Fine Passes.
Hypothesis P_broken : P Broken Crashes.
Hypothesis P_then : forall a b x y, P a x -> P b y -> P (rthen a b) (andthen x y).

Definition agree {A} (Q : A -> Prop) (rc : rcode A) (c : code A) : Prop :=
  match rc, c with
  | Some lr, Some l => List.length lr = List.length l /\ forall a, Q a -> P (rrun lr a) (run l a)
  | None, None => True
  | _, _ => False
  end.

Lemma P_all {A} (f : A -> report_of label) g l : (forall x, In x l -> P (f x) (g x)) -> P (rall (map f l)) (in_order (map g l)).
Proof using P_fine P_then.
  induction l as [|x t IH]; intros H; [exact P_fine|]. cbn. apply P_then; [apply H; left; auto|]. apply IH. intros; apply H; right; auto.
Qed.
Lemma P_app (a b : list (report_of label)) x y : P (rall a) (in_order x) -> P (rall b) (in_order y) -> P (rall (a ++ b)) (in_order (x ++ y)).
Proof using P_then.
  intros Ha Hb.
  assert (E1 : rall (a ++ b) = rthen (rall a) (rall b)) by (clear; induction a as [|u a IH]; [reflexivity|]; cbn; rewrite IH; destruct u; reflexivity).
  rewrite E1, in_order_app. auto.
Qed.
Lemma agree_nothing {A} (Q : A -> Prop) : agree Q rnothing nothing.
Proof using P_fine. split; [reflexivity|]. intros a _. exact P_fine. Qed.
Lemma agree_none {A} (Q : A -> Prop) : agree Q None None.
Proof using. exact I. Qed.
Lemma P_one r o : P r o -> P (rall [r]) (in_order [o]).
Proof using P_fine P_then. intros H. cbn. apply P_then; auto. Qed.
Lemma agree_stmt {A} (Q : A -> Prop) s s' : (forall a, Q a -> P (s a) (s' a)) -> agree Q (rstmt s) (stmt s').
Proof using P_fine P_then. intros H. split; [reflexivity|]. intros a q. apply P_one. auto. Qed.
Lemma agree_when {A} (Q : A -> Prop) b s s' : (b = true -> forall a, Q a -> P (s a) (s' a)) -> agree Q (rwhen b s) (when b s').
Proof using P_fine P_then. destruct b; intros H; [apply agree_stmt; auto|apply agree_nothing]. Qed.
Lemma agree_nil {A} (Q : A -> Prop) : agree Q (rseq []) (seq []).
Proof using P_fine. apply agree_nothing. Qed.
Lemma agree_cons {A} (Q : A -> Prop) rc c t t' : agree Q rc c -> agree Q (rseq t) (seq t') -> agree Q (rseq (rc :: t)) (seq (c :: t')).
Proof using P_then.
  intros H1 H2. cbn [rseq seq]. destruct rc, c; cbn in H1; try contradiction; [|exact I]. destruct (rseq t), (seq t'); cbn in H2; try contradiction; [|exact I].
  destruct H1 as [L1 H1], H2 as [L2 H2]. split; [rewrite !app_length; lia|]. intros a q. unfold rrun, run. rewrite !map_app. apply P_app; [apply H1|apply H2]; auto.
Qed.
Lemma agree_seq {A} (Q : A -> Prop) l l' : Forall2 (agree Q) l l' -> agree Q (rseq l) (seq l').
Proof using P_fine P_then. induction 1; [apply agree_nil|now apply agree_cons]. Qed.
Lemma agree_block {A} (Q : A -> Prop) cond rc c : agree (fun a => Q a /\ cond a = true) rc c -> agree Q (rblock cond rc) (block cond c).
Proof using P_fine P_then.
  destruct rc as [lr|], c as [l|]; cbn [agree]; try contradiction; [|intros _; exact I]. intros [L H].
  destruct lr as [|s lr], l as [|s' l]; try discriminate; [exact I|]. split; [reflexivity|]. intros a q. apply P_one.
  destruct (cond a) eqn:E; [apply H; auto|exact P_fine].
Qed.
Lemma agree_mono {A} (Q Q' : A -> Prop) rc c : (forall a, Q a -> Q' a) -> agree Q' rc c -> agree Q rc c.
Proof using. intros H. unfold agree. destruct rc, c; auto. intros [L K]. split; auto. Qed.
Lemma agree_guarded {A} (Q : A -> Prop) b cond rc c : agree Q rc c -> agree Q (rguarded b cond rc) (guarded b cond c).
Proof using P_fine P_then. intros H. destruct b; [|exact H]. apply agree_block. eapply agree_mono; [|exact H]. intros a [q _]. exact q. Qed.
Lemma agree_naming {A} (Q : A -> Prop) l (c : code A) : (forall s t, c = Some (s :: t) -> forall o, P (names l o) o) -> agree Q (naming l c) c.
Proof using P_fine P_then.
  destruct c as [k|]; [|intros; exact I]. intros H. cbn. split; [apply map_length|]. intros a _. unfold rrun, run. rewrite map_map.
  destruct k as [|s t]; [exact P_fine|]. specialize (H s t eq_refl). apply P_all. intros; apply H.
Qed.
Lemma agree_about {A B} (Q : B -> Prop) (part : B -> option A) rc c :
  agree (fun a => exists b, Q b /\ part b = Some a) rc c -> agree Q (rabout part rc) (about part c).
Proof using P_fine P_broken P_then.
  destruct rc as [lr|], c as [l|]; cbn; auto. intros [L H]. split; [now rewrite !map_length|]. intros b q. unfold rrun, run. rewrite !map_map.
  destruct (part b) as [a|] eqn:E.
  - apply (H a). eauto.
  - clear H. revert l L. induction lr as [|s lr IH]; intros [|s' l] L; try discriminate; [exact P_fine|]. cbn. exact P_broken.
Qed.
Lemma agree_each {A} (Q : A -> Prop) c c' l : agree Q (Some c) (Some c') -> (forall x, In x l -> Q x) -> P (rfor_each c l) (for_each c' l).
Proof using P_fine P_then. intros [_ H] K. unfold rfor_each, for_each. apply P_all. intros x I. apply H. auto. Qed.
End Agree.

(** ** A field *)
Section Field.
Variable P : report_of label -> outcome -> Prop.
Hypothesis P_fine : P Fine Passes.
Hypothesis P_broken : P Broken Crashes.
Hypothesis P_then : forall a b x y, P a x -> P b y -> P (rthen a b) (andthen x y).
Variable pl : py_libs.
Variable sc : schema.
Variable emb : string -> msgval -> report_of label.
Variable emb' : string -> msgval -> outcome.
Notation agr := (agree P).
Local Hint Resolve P_fine P_broken P_then : core.
Ltac ag := match goal with
  | |- agree _ _ (rseq (_ :: _)) (seq (_ :: _)) => apply agree_cons; auto
  | |- agree _ _ (rseq []) (seq []) => apply agree_nil; auto
  | |- agree _ _ rnothing nothing => apply agree_nothing; auto
  | |- agree _ _ None None => exact I
  | |- agree _ _ (naming _ _) _ => apply agree_naming; auto
  end.

Lemma pa_embedded e v : (forall n m, e = TMsg n -> v = VMsg (Some m) -> P (emb n m) (emb' n m)) -> P (pr_embedded emb e v) (py_embedded emb' e v).
Proof. intros H. unfold pr_embedded, py_embedded. destruct e; auto. destruct v as [| | | | |[mm|]| | | | | |]; auto. Qed.

Lemma pa_message (Q : value -> Prop) l elem e mr : (required mr = true -> forall o, P (names l o) o) ->
  (elem = false -> skipped mr = false -> forall v n m, Q v -> e = TMsg n -> v = VMsg (Some m) -> P (emb n m) (emb' n m)) ->
  agr Q (pr_message emb l elem e mr) (py_message emb' elem e mr).
Proof.
  intros Hl He. unfold pr_message, py_message. ag; [ag|ag; [|ag]].
  - intros s t E o. apply Hl. unfold py_required, when, required in *. destruct mr as [mr|]; [|discriminate]. destruct (getb (m_required mr)); [reflexivity|discriminate].
  - change (match mr with Some m => getb (m_skip m) | None => false end) with (skipped mr).
    destruct (skipped mr) eqn:Sk; [ag|]. apply agree_block; auto. apply agree_stmt; auto. intros v [Qv _]. destruct elem; auto.
    apply pa_embedded. intros. eapply He; eauto.
Qed.

Lemma pa_switcher (Q : value -> Prop) l e fr : (forall fr', fr = Some fr' -> fr_typ fr' <> None \/ required (fr_msg fr') = true -> forall o, P (names l o) o) ->
  agr Q (pr_switcher pl sc emb l e fr) (py_switcher pl sc emb' e fr).
Proof.
  intros Hl. unfold pr_switcher, py_switcher. destruct fr as [[mr typ]|]; [|ag]. specialize (Hl _ eq_refl). cbn [fr_typ fr_msg] in Hl.
  assert (M : agr Q (pr_message emb l true e mr) (py_message emb' true e mr)) by (apply pa_message; [intros; apply Hl; auto|discriminate]).
  assert (K : forall r, typ = Some r -> forall o, P (names l o) o) by (intros r ->; apply Hl; left; discriminate).
  destruct (told_message mr) eqn:Tm; destruct typ as [[]|]; try destruct (told _); try exact M; ag; intros s t _; eapply K; reflexivity.
Qed.

Lemma pa_keys (Q : value -> Prop) l k fr : (forall fr', fr = Some fr' -> fr_typ fr' <> None -> forall o, P (names l o) o) ->
  agr Q (naming l (py_keys pl sc k fr)) (py_keys pl sc k fr).
Proof.
  intros Hl. ag. intros s t E. destruct fr as [[mr [r|]]|]; try discriminate E. eapply Hl; [reflexivity|discriminate].
Qed.

Lemma pa_repeated (Q : value -> Prop) f e r :
  (r_min r <> None \/ r_max r <> None \/ r_unique r = Some true -> forall o, P (names (LField f) o) o) ->
  (forall fr, r_items r = Some fr -> fr_typ fr <> None \/ required (fr_msg fr) = true -> forall o, P (names LItem o) o) ->
  (items_skip (r_items r) = false -> forall v l x n m, Q v -> v = VList l -> In x l -> e = TMsg n -> x = VMsg (Some m) -> P (emb n m) (emb' n m)) ->
  agr Q (pr_repeated pl sc emb f e r) (py_repeated pl sc emb' e r).
Proof.
  intros H1 H2 H3. unfold pr_repeated, py_repeated. apply agree_about; auto. apply agree_guarded; auto.
  ag; [ag|ag; [ag|ag; [ag|ag; [|ag; [|ag]]]]].
  - intros s t E o. apply H1. left. intros K. rewrite K in E. discriminate.
  - intros s t E o. apply H1. right. left. intros K. rewrite K in E. discriminate.
  - intros s t E o. apply H1. right. right. unfold when in E. destruct (getb (r_unique r)) eqn:G; [now apply getb_true|discriminate].
  - apply agree_when; auto. intros _ l (v & Qv & Hl). apply (agree_each P P_fine P_then (fun x => In x l)); auto.
    apply agree_stmt; auto. intros x Ix. destruct (items_skip (r_items r)) eqn:Sk; auto. apply pa_embedded. intros n m En Em.
    destruct v; try discriminate Hl. injection Hl as <-. eapply (H3 eq_refl); eauto.
  - destruct (told_rules (r_items r)); [|ag]. assert (K := pa_switcher (fun _ => True) LItem e (r_items r) H2).
    destruct (pr_switcher pl sc emb LItem e (r_items r)) as [c|], (py_switcher pl sc emb' e (r_items r)) as [c'|]; try contradiction; [|ag].
    apply agree_stmt; auto. intros l _. apply (agree_each P P_fine P_then (fun _ => True)); auto.
Qed.

Lemma pa_map (Q : value -> Prop) f k w r :
  (p_min r <> None \/ p_max r <> None -> forall o, P (names (LField f) o) o) ->
  (forall fr, p_keys r = Some fr -> fr_typ fr <> None -> forall o, P (names LKey o) o) ->
  (forall fr, p_values r = Some fr -> fr_typ fr <> None \/ required (fr_msg fr) = true -> forall o, P (names (LEntry f) o) o) ->
  (told_rules (p_keys r) = false -> told_rules (p_values r) = false -> forall v l x y n m, Q v -> v = VMap l -> In (x, y) l -> w = TMsg n -> y = VMsg (Some m) -> P (emb n m) (emb' n m)) ->
  agr Q (pr_map pl sc emb f k w r) (py_map pl sc emb' k w r).
Proof.
  intros H1 Hk Hv H3. unfold pr_map, py_map. apply agree_about; auto. apply agree_guarded; auto.
  ag; [ag|ag; [ag|ag; [|ag]]].
  - intros s t E o. apply H1. left. intros K. rewrite K in E. discriminate.
  - intros s t E o. apply H1. right. intros K. rewrite K in E. discriminate.
  - destruct (told_rules (p_keys r) || told_rules (p_values r)) eqn:T.
    + assert (Kk := pa_keys (fun _ => True) LKey k (p_keys r) Hk). assert (Kv := pa_switcher (fun _ => True) (LEntry f) w (p_values r) Hv).
      destruct (naming LKey (py_keys pl sc k (p_keys r))) as [ks|], (py_keys pl sc k (p_keys r)) as [ks'|]; try contradiction; [|ag].
      destruct (pr_switcher pl sc emb (LEntry f) w (p_values r)) as [c|], (py_switcher pl sc emb' w (p_values r)) as [c'|]; try contradiction; [|ag].
      destruct Kk as [_ Kk], Kv as [_ Kv].
      apply agree_stmt; auto. intros l _. apply (agree_each P P_fine P_then (fun _ => True)); auto.
      split; [reflexivity|]. intros [x y] _. unfold rrun at 1, run at 1. cbn [map rall in_order fst snd]. apply P_then; auto.
    + apply orb_false_iff in T. destruct T as [T1 T2]. apply agree_when; auto. intros _ l (v & Qv & Hl).
      apply (agree_each P P_fine P_then (fun x => In x l)); auto.
      apply agree_stmt; auto. intros [x y] Ix. apply pa_embedded. cbn [snd]. intros n m En Em.
      destruct v; try discriminate Hl. injection Hl as <-. eapply (H3 T1 T2); eauto.
Qed.

Lemma pa_wrapper (Q : value -> Prop) f e mr r : (required mr = true -> forall o, P (names (LField f) o) o) -> (forall o, P (names (LValue f) o) o) ->
  agr Q (pr_wrapper pl sc f e mr r) (py_wrapper pl sc e mr r).
Proof.
  intros H1 H2. unfold pr_wrapper, py_wrapper. destruct (py_scalar _ _ _ _) as [[|s t]|]; try exact I. apply agree_stmt; auto. intros v _.
  destruct v as [| | | | | |[x|]| | | | |]; auto. change (match mr with Some m => getb (m_required m) | None => false end) with (required mr).
  destruct (required mr); [apply H1; auto|exact P_fine].
Qed.

Lemma pa_entries (Q : value -> Prop) l m : agr Q (naming l (py_entries sc m)) (py_entries sc m).
Proof.
  unfold py_entries, when. destruct (find_msg sc m) as [d|]; [|ag; discriminate]. destruct (md_fields d) as [|a [|b [|c t]]]; try (ag; discriminate).
  destruct (match f_type b with FOne e | FRep e => is_embed e | FMap _ _ => true end); [|ag; discriminate].
  split; [reflexivity|]. intros x _. unfold rrun, run. cbn [map]. apply P_one; auto. destruct x as [| | | | | | | | | |[|]|]; auto.
Qed.

Variable pn : py_names.
Variable f : field.
Variable v : value.
Hypothesis Hl : forall l, (py_shape f -> py_label f l) -> forall o, P (names l o) o.
Hypothesis He : forall n m, (py_shape f -> field_calls (f_type f) (f_rules f) v n m) -> P (emb n m) (emb' n m).

Lemma inner_typ e o : py_inner_shape e (inner o) -> (exists n, e = TMsg n) -> fr_typ (inner o) = None.
Proof. intros Sh (n & ->). destruct (inner o) as [mr [r|]]; [|reflexivity]. destruct Sh as (Ft & _). destruct r; contradiction. Qed.

Lemma pa_field n : agr (fun x => x = v) (pr_field pl sc emb pn n f) (py_field pl sc emb' pn n f).
Proof.
  unfold pr_field, py_field. unfold py_shape in *. destruct (f_rules f) as [mr typ] eqn:Er. destruct (f_type f) as [e|e|k w] eqn:Et.
  - (* one value *)
    assert (M : agr (fun x => x = v) (pr_message emb (LBare (f_name f)) false e mr) (py_message emb' false e mr)).
    { apply pa_message.
      - intros Rq o. apply Hl. intros _. apply py_absent. rewrite Er. exact Rq.
      - intros _ Sk v' n' m' -> -> ->. apply He. intros Sh. split; [reflexivity|]. split; [reflexivity|]. split; [|exact Sk].
        destruct mr, typ as [[]|]; cbn in *; tauto. }
    destruct (negb (is_some mr || is_some typ)) eqn:Em.
    { destruct e; try ag. destruct mr, typ; try discriminate Em. match goal with |- context [google pn ?x] => destruct (google pn x) end; [ag|exact M]. }
    assert (R : forall r, typ = Some r -> (match e with TWrap _ => true | _ => false end) = false -> forall o, P (names (LField (f_name f)) o) o).
    { intros r -> Ew o. apply Hl. intros _. eapply py_rule; eauto; [rewrite Er; reflexivity|]. intros w ->. discriminate. }
    assert (W : forall r, typ = Some r -> (match e with TWrap _ => true | _ => false end) = true -> wrapper_rule r && told r = false -> forall l o, P (names l o) o).
    { intros r -> Ew Wr l o. apply Hl. intros Sh. exfalso. destruct e; try discriminate.
      assert (Sw : fits (wrapped_type w) r /\ ~ blank r) by (destruct mr; tauto). destruct Sw as [Ft B]. apply not_blank_told in B. rewrite B, andb_true_r in Wr.
      destruct w, r as [[]|[]|r|r|r|r|r|r|r|r]; cbn in Ft; try contradiction; discriminate. }
    assert (Wr : forall r, typ = Some r -> wrapper_rule r = true -> is_embed e = true -> agr (fun x => x = v) (pr_wrapper pl sc (f_name f) e mr r) (py_wrapper pl sc e mr r)).
    { intros r -> Q Em'. apply pa_wrapper.
      - intros Rq o. apply Hl. intros _. eapply py_rule; eauto; [rewrite Er; reflexivity|]. intros w _. rewrite Er. exact Rq.
      - intros o. apply Hl. intros Sh. destruct e as [| | | | |nn|w| | |]; try discriminate Em'; cbn in Sh; try (eapply py_inside; eauto; rewrite Er; reflexivity).
        all: exfalso; destruct mr; [contradiction|]; destruct Sh as (Ft & _); destruct r; try discriminate; contradiction. }
    assert (N : forall r (c : code value), typ = Some r -> wrapper_rule r && told r = false \/ is_embed e = false -> agr (fun x => x = v) (naming (LField (f_name f)) c) c).
    { intros r c -> D. ag. intros _ _ _. destruct (match e with TWrap _ => true | _ => false end) eqn:Ew; [|eapply R; eauto].
      eapply W; eauto. destruct D as [D|D]; auto. destruct e; discriminate. }
    assert (Rp : forall r, typ = Some (RRepeated r) -> agr (fun x => x = v) (pr_repeated pl sc emb (f_name f) e r) (py_repeated pl sc emb' e r)).
    { intros r ->. apply pa_repeated; intros; first [apply Hl|apply He]; intros Sh; exfalso; destruct mr, e; cbn in Sh; tauto. }
    assert (B : agr (fun x => x = v) (rstmt (fun _ => Broken)) (stmt (fun _ => Crashes))) by (apply agree_stmt; auto).
    cbn [fields_embed]. destruct (is_embed e) eqn:Ee.
    + destruct typ as [r|]; [|destruct (told_message mr); [exact M|ag]].
      destruct (wrapper_rule r && told r) eqn:Ew.
      * apply andb_true_iff in Ew. destruct Ew as [Ew Et']. assert (K := Wr r eq_refl Ew eq_refl). destruct r; try discriminate Ew; exact K.
      * destruct r; repeat match goal with |- agree _ _ (if ?b then _ else _) _ => destruct b eqn:? end; try discriminate;
          first [exact M|exact B|exact I|apply Rp; reflexivity|eapply N; eauto].
    + destruct typ as [r|]; [|destruct (told_message mr); [exact M|ag]].
      destruct r; repeat match goal with |- agree _ _ (if ?b then _ else _) _ => destruct b eqn:? end; try discriminate;
          first [exact M|exact B|exact I|apply Rp; reflexivity|eapply N; eauto].
  - (* a list *)
    destruct mr as [mr|].
    { assert (Lb : forall l o, P (names l o) o) by (intros l o; apply Hl; intros Sh; exfalso; destruct e, typ as [[]|]; exact Sh).
      assert (Eb : forall a b, P (emb a b) (emb' a b)) by (intros a b; apply He; intros Sh; exfalso; destruct e, typ as [[]|]; exact Sh).
      cbn [is_some orb negb fields_embed].
      destruct (is_embed e); destruct typ as [[]|];
        repeat match goal with |- agree _ _ (if ?b then _ else _) _ => destruct b eqn:? end; try discriminate;
        first [exact I|apply pa_message; auto|apply pa_repeated; auto|apply pa_wrapper; auto|apply agree_stmt; auto|ag]. }
    destruct typ as [r|]; cbn [is_some orb negb].
    2:{ destruct e as [| | | | |n1| | | |]; try ag. destruct (google pn n1); [ag|]. destruct (pn_entry pn n1); [apply pa_entries|].
        apply pa_repeated; [intros [K|[K|K]]; [now destruct K|now destruct K|discriminate K]|discriminate|].
        intros _ x l y n' m' -> Ev Ix [= <-] ->. apply He. intros _. rewrite Ev. cbn. exists (VMsg (Some m')). split; auto. repeat split; auto. }
    destruct (match r with RRepeated _ => true | _ => false end) eqn:Rr.
    + destruct r; try discriminate. cbn [told_message wrapper_rule andb fields_embed].
      assert (K : agr (fun x => x = v) (pr_repeated pl sc emb (f_name f) e r) (py_repeated pl sc emb' e r)).
      { apply pa_repeated.
        - intros H o. apply Hl. intros _. eapply py_list; eauto. rewrite Er. reflexivity.
        - intros fr Hi Hf o. apply Hl. intros _. eapply py_item; eauto. rewrite Er. reflexivity.
        - intros Sk x l y n' m' -> Ev Ix He' Hy. apply He. intros (_ & _ & Sh). rewrite Ev. cbn. exists y. split; auto. split; [auto|]. split; auto.
          split; [apply (inner_typ e); eauto|]. destruct (r_items r) as [[[mr|] t]|]; auto. }
      destruct (is_embed e); (destruct (told (RRepeated r)); [exact K|exact I]).
    + assert (Lb : forall l o, P (names l o) o) by (intros l o; apply Hl; intros Sh; exfalso; destruct e, r; discriminate || exact Sh).
      assert (Eb : forall a b, P (emb a b) (emb' a b)) by (intros a b; apply He; intros Sh; exfalso; destruct e, r; discriminate || exact Sh).
      cbn [fields_embed]. destruct (is_embed e); destruct r; try discriminate;
        repeat match goal with |- agree _ _ (if ?b then _ else _) _ => destruct b eqn:? end; try discriminate;
        first [exact I|apply pa_message; auto|apply pa_repeated; auto|apply pa_wrapper; auto|apply agree_stmt; auto|ag].
  - (* a map *)
    destruct mr as [mr|].
    { assert (Lb : forall l o, P (names l o) o) by (intros l o; apply Hl; intros Sh; exfalso; destruct typ as [[]|]; exact Sh).
      assert (Eb : forall a b, P (emb a b) (emb' a b)) by (intros a b; apply He; intros Sh; exfalso; destruct typ as [[]|]; exact Sh).
      cbn [is_some orb negb fields_embed].
      destruct typ as [[]|];
        repeat match goal with |- agree _ _ (if ?b then _ else _) _ => destruct b eqn:? end; try discriminate;
        first [exact I|apply pa_message; auto|apply pa_repeated; auto|apply pa_map; auto|apply pa_wrapper; auto|apply agree_stmt; auto|ag]. }
    destruct typ as [r|]; cbn [is_some orb negb fields_embed].
    2:{ destruct (google pn n); [ag|]. apply pa_map; [intros [K|K]; now destruct K|discriminate|discriminate|].
        intros _ _ x l y z n' m' -> Ev Ix -> ->. apply He. intros _. rewrite Ev. cbn. exists y, (VMsg (Some m')). split; auto. right. repeat split; auto. }
    destruct (match r with RMap _ => true | _ => false end) eqn:Rr.
    + destruct r; try discriminate. cbn [told_message wrapper_rule andb].
      destruct (told (RMap r)); [|exact I]. apply pa_map.
      * intros H o. apply Hl. intros _. eapply py_pairs; eauto. rewrite Er. reflexivity.
      * intros fr Hi Hf o. apply Hl. intros _. eapply py_key; eauto. rewrite Er. reflexivity.
      * intros fr Hi Hf o. apply Hl. intros _. eapply py_entry; eauto. rewrite Er. reflexivity.
      * intros T1 T2 x l y z n' m' -> Ev Ix -> ->. apply He. intros (_ & _ & _ & Sh). rewrite Ev. cbn. exists y, (VMsg (Some m')). split; auto. right.
        split; [reflexivity|]. split; [reflexivity|]. apply told_inner in T2. unfold inner in T2. destruct (p_values r) as [[mr t]|]; [|auto]. injection T2 as -> ->. auto.
    + assert (Lb : forall l o, P (names l o) o) by (intros l o; apply Hl; intros Sh; exfalso; destruct r; discriminate || exact Sh).
      assert (Eb : forall a b, P (emb a b) (emb' a b)) by (intros a b; apply He; intros Sh; exfalso; destruct r; discriminate || exact Sh).
      destruct r; try discriminate;
        repeat match goal with |- agree _ _ (if ?b then _ else _) _ => destruct b eqn:? end; try discriminate;
        first [exact I|apply pa_message; auto|apply pa_repeated; auto|apply pa_map; auto|apply pa_wrapper; auto|apply agree_stmt; auto|ag].
Qed.
End Field.

(** ** Verdicts *)
Section Verdict.
Variable pl : py_libs.
Variable sc : schema.
Variable emb : string -> msgval -> report_of label.
Variable emb' : string -> msgval -> outcome.
Hypothesis He : forall a b, verdict (emb a b) = emb' a b.
Variable pn : py_names.
Notation P := (fun (r : report_of label) o => verdict r = o).

Lemma pv_then (a b : report_of label) x y : verdict a = x -> verdict b = y -> verdict (rthen a b) = andthen x y.
Proof. intros <- <-. apply verdict_then. Qed.
Lemma pv_field n f v : agree P (fun x => x = v) (pr_field pl sc emb pn n f) (py_field pl sc emb' pn n f).
Proof. apply pa_field; auto; [apply pv_then|]. intros l _ o. apply verdict_names. Qed.
Lemma pv_field' n f : agree P (fun _ => True) (pr_field pl sc emb pn n f) (py_field pl sc emb' pn n f).
Proof.
  assert (K := pv_field n f). unfold agree in *. destruct (pr_field pl sc emb pn n f), (py_field pl sc emb' pn n f); auto.
  - split; [exact (proj1 (K (VBool true)))|]. intros a _. apply (proj2 (K a)). reflexivity.
  - exact (K (VBool true)).
  - exact (K (VBool true)).
Qed.
Lemma pv_oneof n o : agree P (fun _ => True) (pr_oneof pl sc emb pn n o) (py_oneof pl sc emb' pn n o).
Proof.
  unfold pr_oneof, py_oneof. apply agree_seq; [reflexivity|apply pv_then|]. apply Forall2_app.
  - induction (o_fields o) as [|f t IH]; constructor; auto. assert (K := pv_field' n f).
    unfold py_member. destruct (headless_member f); [exact I|].
    destruct (pr_field pl sc emb pn n f) as [c|], (py_field pl sc emb' pn n f) as [c'|]; cbn in K; try contradiction; [|exact I].
    apply agree_stmt; [reflexivity|apply pv_then|]. intros [[fn v]|] _; [|reflexivity]. rewrite verdict_if. f_equal. apply K. auto.
  - repeat constructor. apply agree_naming; [reflexivity|apply pv_then|]. intros. apply verdict_names.
Qed.
Lemma pv_body d : agree P (fun _ => True) (pr_body pl sc emb pn d) (py_body pl sc emb' pn d).
Proof.
  unfold pr_body, py_body. apply agree_seq; [reflexivity|apply pv_then|]. apply Forall2_app.
  - induction (md_oneofs d) as [|o t IH]; constructor; auto. assert (K := pv_oneof (md_name d) o).
    destruct (pr_oneof pl sc emb pn _ o) as [c|], (py_oneof pl sc emb' pn _ o) as [c'|]; cbn in K; try contradiction; [|exact I].
    apply agree_stmt; [reflexivity|apply pv_then|]. intros m _. destruct (assoc _ _); [|reflexivity]. apply K. auto.
  - induction (md_fields d) as [|o t IH]; constructor; auto. assert (K := pv_field' (md_name d) o).
    destruct (pr_field pl sc emb pn _ o) as [c|], (py_field pl sc emb' pn _ o) as [c'|]; cbn in K; try contradiction; [|exact I].
    apply agree_stmt; [reflexivity|apply pv_then|]. intros m _. destruct (assoc _ _); [|reflexivity]. apply K. auto.
Qed.
Lemma pv_msg d m : verdict (pr_msg pl sc emb pn d m) = py_msg pl sc emb' pn d m.
Proof.
  unfold pr_msg, py_msg. assert (K := pv_body d). destruct (pr_body pl sc emb pn d) as [c|], (py_body pl sc emb' pn d) as [c'|]; cbn in K; try contradiction; [|reflexivity].
  destruct (_ || _); [reflexivity|]. apply K. auto.
Qed.
End Verdict.

Lemma py_report_verdict pl pn sc fuel : forall n m, verdict (py_report_f pl pn sc fuel n m) = py_validate_f pl pn sc fuel n m.
Proof.
  induction fuel as [|k IH]; intros n m; [reflexivity|]. cbn [py_report_f py_validate_f]. destruct (find_msg sc n) as [d|]; [|reflexivity].
  apply pv_msg. exact IH.
Qed.

(** ** The check does not change the source *)
Section Same.
Variable re_ok : bytes -> bool.
Variable sc0 : schema.
Variable pl : py_libs.
Variable emb : string -> msgval -> report_of label.
Variable pn : py_names.

Lemma pr_fr_alike l e o0 o : opt_checked re_ok sc0 e o0 o ->
  pr_switcher pl sc0 emb l e o0 = pr_switcher pl sc0 emb l e o /\ py_keys pl sc0 e o0 = py_keys pl sc0 e o /\
  told_rules o0 = told_rules o /\ items_skip o0 = items_skip o.
Proof.
  intros C. destruct (fr_alike re_ok sc0 pl (fun _ _ => Passes) e o0 o C) as (_ & K2 & K3 & K4). split; [|auto].
  unfold opt_checked in C. destruct (rules_or_none o0) as [mr [r0|]] eqn:E0.
  - destruct o0 as [fr0|]; [|discriminate]. cbn in E0. subst fr0. apply check_fr_rule in C; [|eauto]. destruct C as (r & Er & C).
    destruct o as [fr|]; [|discriminate]. cbn in Er. subst fr. apply (rule_alike re_ok pl) in C. destruct C as [->|(s0 & s & -> & -> & P & T & G)]; [auto|].
    cbn [pr_switcher]. rewrite T. unfold py_inline. cbn [py_scalar headless]. rewrite P, G. destruct mr; auto.
  - cbn in C. injection C as C. assert (Q : rules_or_none o = FR mr None) by (symmetry; exact C).
    destruct o0 as [fr0|], o as [fr|]; cbn in E0, Q; subst; auto.
    + injection Q as <-. auto.
    + injection E0 as <-. auto.
Qed.

Lemma pr_field_same n f0 f : check_field re_ok sc0 f0 = Some f -> py_shape f -> pr_field pl sc0 emb pn n f0 = pr_field pl sc0 emb pn n f.
Proof.
  unfold check_field, guard. destruct (check_message _ _); [|discriminate]. destruct (check_fr _ _ _ _) as [fr|] eqn:C; [|discriminate].
  intros [= <-]. unfold py_shape, pr_field. cbn [f_type f_rules f_name]. intros Sh.
  destruct (f_rules f0) as [mr [r0|]] eqn:Er; [|cbn in C; injection C as <-; reflexivity].
  destruct (f_type f0) as [e|e|k w] eqn:Et.
  - apply check_fr_rule in C; [|eauto]. destruct C as (r & -> & C). apply (rule_alike re_ok pl) in C. destruct C as [->|(s0 & s & -> & -> & P & T & _)]; [reflexivity|].
    cbn [wrapper_rule andb]. rewrite T. unfold pr_wrapper. cbn [py_scalar]. rewrite P. reflexivity.
  - destruct r0; try (exfalso; assert (K := check_other re_ok sc0 (FRep e) mr _ fr I C I); destruct fr as [[m'|] [[]|]]; cbn in *; try contradiction; destruct e; contradiction).
    assert (C' := C). apply check_rep in C. destruct C as (r1 & -> & A1 & A2 & A3 & A4 & A5). apply rep_told in C'.
    destruct (pr_fr_alike LItem _ _ _ A5) as (B1 & B2 & B3 & B4).
    assert (K : pr_repeated pl sc0 emb (f_name f0) e r = pr_repeated pl sc0 emb (f_name f0) e r1) by (unfold pr_repeated; now rewrite A1, A2, A3, A4, B1, B3, B4).
    cbn [wrapper_rule andb]. rewrite C', K. reflexivity.
  - destruct r0; try (exfalso; assert (K := check_other re_ok sc0 (FMap k w) mr _ fr I C I); destruct fr as [[m'|] [[]|]]; cbn in *; contradiction).
    assert (C' := C). apply check_map in C. destruct C as (r1 & -> & A1 & A2 & A3 & A4 & A5 & A6). apply map_told in C'.
    destruct (pr_fr_alike LKey _ _ _ A5) as (B1 & B2 & B3 & B4). destruct (pr_fr_alike (LEntry (f_name f0)) _ _ _ A6) as (D1 & D2 & D3 & D4).
    assert (K : pr_map pl sc0 emb (f_name f0) k w r = pr_map pl sc0 emb (f_name f0) k w r1) by (unfold pr_map; now rewrite A1, A2, A4, B2, B3, D1, D3).
    cbn [wrapper_rule andb]. rewrite C', K. reflexivity.
Qed.

Lemma pr_body_same d0 d : check_msg re_ok sc0 d0 = Some d -> Forall py_shape (all_fields d) -> pr_body pl sc0 emb pn d0 = pr_body pl sc0 emb pn d.
Proof.
  intros C Sh. destruct (check_msg_name _ _ _ _ C) as (N & _ & _).
  destruct (md_disabled d0) eqn:Ed; [unfold check_msg in C; rewrite Ed in C; injection C as <-; reflexivity|].
  destruct (check_msg_parts _ _ _ _ Ed C) as [F1 F2]. unfold all_fields in Sh. rewrite Forall_app, Forall_flat_map in Sh. destruct Sh as [S1 S2].
  unfold pr_body. rewrite N. f_equal. f_equal.
  - apply (map_same _ _ _ _ _ F2 S2). intros o0 o Co Ho. destruct (check_oneof_parts _ _ _ _ Co) as (E1 & E2 & E3). rewrite E1.
    assert (K : pr_oneof pl sc0 emb pn (md_name d0) o0 = pr_oneof pl sc0 emb pn (md_name d0) o); [|now rewrite K].
    unfold pr_oneof. rewrite E1, E2. f_equal. f_equal. apply (map_same _ _ _ _ _ E3 Ho). intros f0 f Cf Hf.
    rewrite (headless_same re_ok sc0 pl f0 f Cf Hf), (pr_field_same _ _ _ Cf Hf). destruct (check_field_name _ _ _ _ Cf) as [-> _]. reflexivity.
  - apply (map_same _ _ _ _ _ F1 S1). intros f0 f Cf Hf. rewrite (pr_field_same _ _ _ Cf Hf). destruct (check_field_name _ _ _ _ Cf) as [-> _]. reflexivity.
Qed.

(** ** The source of a message, run *)
Definition rrun_code {A} (c : rcode A) (a : A) : report_of label := match c with Some l => rrun l a | None => Broken end.
Definition rep_py_field (emb : string -> msgval -> report_of label) (n : string) (f : field) (v : value) : report_of label :=
  rrun_code (pr_field pl sc0 emb pn n f) v.
Definition rrenders {A} (c : rcode A) : Prop := exists l, c = Some l.

Lemma rall_app {L} (a b : list (report_of L)) : rall (a ++ b) = rthen (rall a) (rall b).
Proof. induction a as [|u a IH]; [reflexivity|]. cbn. rewrite IH. destruct u; reflexivity. Qed.
Lemma rthen_fine {L} (a : report_of L) : rthen a Fine = a.
Proof. destruct a; reflexivity. Qed.
Lemma rseq_renders {A} (l : list (rcode A)) : Forall rrenders l -> rrenders (rseq l).
Proof. induction 1 as [|c t (x & ->) _ (y & E)]; [eexists; reflexivity|]. cbn. rewrite E. eexists. reflexivity. Qed.
Lemma rrun_seq {A} (l : list (rcode A)) a : Forall rrenders l -> rrun_code (rseq l) a = rall (map (fun c => rrun_code c a) l).
Proof.
  induction 1 as [|c t (x & ->) R IH]; [reflexivity|]. cbn [rseq map rall]. destruct (rseq_renders t R) as (y & Ey). rewrite Ey in *.
  cbn [rrun_code]. unfold rrun. rewrite map_app, rall_app. cbn [rrun_code] in IH. unfold rrun in IH. now rewrite IH.
Qed.
Lemma rall_pass {L} (l : list (report_of L)) : (forall x, In x l -> x = Fine) -> rall l = Fine.
Proof. induction l as [|x t IH]; intros H; [reflexivity|]. cbn. rewrite (H x) by (left; auto). apply IH. intros; apply H; right; auto. Qed.

Lemma pr_field_renders n f : py_shape f -> rrenders (pr_field pl sc0 emb pn n f).
Proof.
  intros Sh. destruct (py_field_renders pl sc0 (fun a b => verdict (emb a b)) pn n f Sh) as (c & Ec).
  assert (K := pv_field pl sc0 emb (fun a b => verdict (emb a b)) (fun _ _ => eq_refl) pn n f (VBool true)). rewrite Ec in K.
  destruct (pr_field pl sc0 emb pn n f); [eexists; reflexivity|contradiction].
Qed.
Lemma rone (r : report_of label) : rall [r] = r.
Proof. cbn. apply rthen_fine. Qed.

Lemma rif_member (g : field -> report_of label) fn l : NoDup (map f_name l) ->
  rall (map (fun f => rif (String.eqb fn (f_name f)) (g f)) l) =
  match find (fun f => String.eqb fn (f_name f)) l with Some f => g f | None => Fine end.
Proof.
  induction l as [|f t IH]; [reflexivity|]. cbn [map rall find]. intros ND. inversion ND as [|x y Ni ND']; subst.
  destruct (String.eqb fn (f_name f)) eqn:E; cbn [rif]; [|apply IH; auto].
  apply String.eqb_eq in E. subst.
  assert (K : rall (map (fun f0 => rif (String.eqb (f_name f) (f_name f0)) (g f0)) t) = Fine).
  { rewrite (IH ND'). destruct (find _ t) as [f'|] eqn:F; auto. apply find_some in F. destruct F as [I Q]. apply String.eqb_eq in Q.
    exfalso. apply Ni. rewrite Q. now apply in_map. }
  rewrite K. apply rthen_fine.
Qed.

Notation rep n f v := (rep_py_field emb n f v).
Notation rep_one n := (rep_oneof label rep_py_field (fun _ => LOneof) emb n).

Lemma run_pr_oneof n o s : Forall py_shape (o_fields o) -> Forall member_shape (o_fields o) -> NoDup (map f_name (o_fields o)) ->
  rrenders (pr_oneof pl sc0 emb pn n o) /\ rrun_code (pr_oneof pl sc0 emb pn n o) s = rep_one n o s.
Proof.
  intros Sh Ms ND. rewrite Forall_forall in Sh, Ms. unfold pr_oneof.
  rewrite (map_ext_in _ (fun f => match pr_field pl sc0 emb pn n f with
     | Some c => rstmt (fun s => match s with Some (fn, v) => rif (String.eqb fn (f_name f)) (rrun c v) | None => Fine end)
     | None => None end) (o_fields o)) by (intros f If; now rewrite (member_whole f (Sh f If) (Ms f If))).
  assert (R : Forall rrenders (map (fun f => match pr_field pl sc0 emb pn n f with
     | Some c => rstmt (fun s => match s with Some (fn, v) => rif (String.eqb fn (f_name f)) (rrun c v) | None => Fine end)
     | None => None end) (o_fields o) ++ [naming (LOneof (o_name o)) (when (getb (o_required o)) (fun s => py_raise_unless (is_some s)))])).
  { rewrite Forall_app. split.
    - rewrite Forall_map, Forall_forall. intros f I. destruct (pr_field_renders n f (Sh f I)) as (c & ->). eexists. reflexivity.
    - repeat constructor. unfold when. destruct (getb _); eexists; reflexivity. }
  split; [apply rseq_renders; exact R|]. rewrite rrun_seq by exact R.
  rewrite map_app, rall_app, map_map. unfold rep_oneof. destruct s as [[fn v]|].
  - assert (E : map (fun f => rrun_code (match pr_field pl sc0 emb pn n f with
                     | Some c => rstmt (fun s => match s with Some (fn, v) => rif (String.eqb fn (f_name f)) (rrun c v) | None => Fine end)
                     | None => None end) (Some (fn, v))) (o_fields o)
               = map (fun f => rif (String.eqb fn (f_name f)) (rep n f v)) (o_fields o)).
    { apply map_ext_in. intros f I. unfold rep_py_field. destruct (pr_field_renders n f (Sh f I)) as (c & ->).
      cbn [rrun_code rstmt]. apply rone. }
    rewrite E, rif_member by auto. unfold when. destruct (getb (o_required o)); cbn; rewrite rthen_fine; reflexivity.
  - rewrite rall_pass.
    + unfold when, throw_unless. destruct (getb (o_required o)); reflexivity.
    + intros x I. apply in_map_iff in I. destruct I as (f & <- & I). destruct (pr_field_renders n f (Sh f I)) as (c & ->). reflexivity.
Qed.

Lemma run_pr_body d m : Forall py_shape (all_fields d) -> (forall o, In o (md_oneofs d) -> Forall member_shape (o_fields o)) -> (forall o, In o (md_oneofs d) -> NoDup (map f_name (o_fields o))) ->
  rrun_code (pr_body pl sc0 emb pn d) m =
  rthen (rall (map (fun o => match assoc (o_name o) (mv_oneofs m) with Some s => rep_one (md_name d) o s | None => Fine end) (md_oneofs d)))
        (rall (map (fun f => match assoc (f_name f) (mv_fields m) with Some v => rep (md_name d) f v | None => Fine end) (md_fields d))).
Proof.
  unfold all_fields. rewrite Forall_app, Forall_flat_map. intros [S1 S2] Ms ND. rewrite Forall_forall in S1, S2. unfold pr_body. rewrite rrun_seq.
  2:{ rewrite Forall_app, !Forall_map, !Forall_forall. split.
      - intros o I. destruct (run_pr_oneof (md_name d) o None (S2 o I) (Ms o I) (ND o I)) as [(c & ->) _]. eexists. reflexivity.
      - intros f I. destruct (pr_field_renders (md_name d) f (S1 f I)) as (c & ->). eexists. reflexivity. }
  rewrite map_app, rall_app, !map_map. f_equal; f_equal; apply map_ext_in.
  - intros o I. destruct (run_pr_oneof (md_name d) o None (S2 o I) (Ms o I) (ND o I)) as [(c & Ec) _].
    rewrite Ec. cbn [option_map rrun_code]. unfold rrun. cbn [map]. rewrite rone.
    destruct (assoc _ _) as [s|]; auto. destruct (run_pr_oneof (md_name d) o s (S2 o I) (Ms o I) (ND o I)) as [_ <-]. rewrite Ec. reflexivity.
  - intros f I. unfold rep_py_field. destruct (pr_field_renders (md_name d) f (S1 f I)) as (c & ->). cbn [option_map rrun_code]. unfold rrun at 1. cbn [map]. now rewrite rone.
Qed.
End Same.

(** ** Names *)
Definition p_own (f : field) (p : list label) : Prop := exists l, p = [l] /\ py_label f l.

Lemma pt_field pl sc emb pn n f v : py_shape f ->
  traces (p_own f) (fun p => exists n1 m1 p', field_calls (f_type f) (f_rules f) v n1 m1 /\ emb n1 m1 = Fault p' /\ p = p')
    (rep_py_field sc pl pn emb n f v) (run_py_field sc pl pn n (fun _ _ => Passes) f v).
Proof.
  intros Sh.
  assert (K := pa_field (traces (p_own f) (fun p => exists n1 m1 p', field_calls (f_type f) (f_rules f) v n1 m1 /\ emb n1 m1 = Fault p' /\ p = p'))
    (traces_fine _ _) (traces_broken _ _ _) (traces_then _ _) pl sc emb (fun _ _ => Passes) pn f v).
  unfold rep_py_field, run_py_field.
  assert (A : agree (traces (p_own f) (fun p => exists n1 m1 p', field_calls (f_type f) (f_rules f) v n1 m1 /\ emb n1 m1 = Fault p' /\ p = p'))
    (fun x => x = v) (pr_field pl sc emb pn n f) (py_field pl sc (fun _ _ => Passes) pn n f)).
  { apply K.
    - intros l H o. apply traces_names. exists l. auto.
    - intros n1 m1 H. split; [auto|]. intros p Hp. right. exists n1, m1, p. auto. }
  destruct (pr_field pl sc emb pn n f) as [c|], (py_field pl sc (fun _ _ => Passes) pn n f) as [c'|]; cbn in A; try contradiction.
  - apply A. reflexivity.
  - apply traces_broken.
Qed.

(** The labels of a field are those of the field before the check. *)
Lemma opt_same re_ok sc0 e o0 o : opt_checked re_ok sc0 e o0 o -> forall fr, o = Some fr -> fr_typ fr <> None \/ required (fr_msg fr) = true ->
  exists fr0, o0 = Some fr0 /\ (fr_typ fr <> None -> fr_typ fr0 <> None) /\ (fr_typ fr0 <> None \/ required (fr_msg fr0) = true).
Proof.
  unfold opt_checked. intros C fr -> H. destruct (fr_kept _ _ _ _ _ C) as [E1 E2]. cbn [rules_or_none] in *.
  destruct o0 as [fr0|]; cbn [rules_or_none] in *.
  - exists fr0. split; auto. rewrite E1 in H. tauto.
  - exfalso. rewrite E1, E2 in H. cbn in H. destruct H as [H|H]; [now apply H|discriminate].
Qed.
Lemma label_checked re_ok sc0 f0 f l : check_field re_ok sc0 f0 = Some f -> py_label f l -> py_label f0 l.
Proof.
  unfold check_field, guard. destruct (check_message _ _); [|discriminate]. destruct (check_fr _ _ _ _) as [fr'|] eqn:C; [|discriminate].
  intros [= <-]. destruct (fr_kept _ _ _ _ _ C) as [E1 E2].
  assert (Ty : forall r, fr_typ fr' = Some r -> exists r0, fr_typ (f_rules f0) = Some r0).
  { intros r E. destruct (fr_typ (f_rules f0)) as [r0|]; [eauto|]. destruct E2 as [_ E2]. rewrite E2 in E; [discriminate|auto]. }
  assert (Rp : forall e r, f_type f0 = FRep e -> fr_typ fr' = Some (RRepeated r) -> exists r0, fr_typ (f_rules f0) = Some (RRepeated r0) /\
    r_min r = r_min r0 /\ r_max r = r_max r0 /\ r_unique r = r_unique r0 /\ opt_checked re_ok sc0 e (r_items r0) (r_items r)).
  { intros e r Et E. destruct (Ty _ E) as (r0 & E0). destruct (f_rules f0) as [mr t]. cbn in E0. subst t. rewrite Et in C.
    destruct r0; try (exfalso; assert (K := check_other re_ok sc0 (FRep e) mr _ fr' I C I); destruct fr' as [m' [[]|]]; cbn in *; contradiction || discriminate).
    apply check_rep in C. destruct C as (r1 & -> & A1 & A2 & A3 & A4 & A5). cbn in E. injection E as <-. exists r0. auto. }
  assert (Mp : forall k w r, f_type f0 = FMap k w -> fr_typ fr' = Some (RMap r) -> exists r0, fr_typ (f_rules f0) = Some (RMap r0) /\
    p_min r = p_min r0 /\ p_max r = p_max r0 /\ opt_checked re_ok sc0 k (p_keys r0) (p_keys r) /\ opt_checked re_ok sc0 w (p_values r0) (p_values r)).
  { intros k w r Et E. destruct (Ty _ E) as (r0 & E0). destruct (f_rules f0) as [mr t]. cbn in E0. subst t. rewrite Et in C.
    destruct r0; try (exfalso; assert (K := check_other re_ok sc0 (FMap k w) mr _ fr' I C I); destruct fr' as [m' [[]|]]; cbn in *; contradiction || discriminate).
    apply check_map in C. destruct C as (r1 & -> & A1 & A2 & A3 & A4 & A5 & A6). cbn in E. injection E as <-. exists r0. auto. }
  intros H. inversion H as [e r Et Er W El|w r Et Er El|Rq El|e r Et Er W El|e r fr Et Er Ei W El|k w r Et Er W El|k w r fr Et Er Ei W El|k w r fr Et Er Ei W El]; cbn [f_type f_rules f_name] in *.
  - destruct (Ty _ Er) as (r0 & E0). eapply py_rule; eauto. intros w Ew. rewrite <- E1. eauto.
  - destruct (Ty _ Er) as (r0 & E0). eapply py_inside; eauto.
  - apply py_absent. congruence.
  - destruct (Rp e r Et Er) as (r0 & E0 & A1 & A2 & A3 & _). eapply py_list; eauto. rewrite <- A1, <- A2, <- A3. exact W.
  - destruct (Rp e r Et Er) as (r0 & E0 & _ & _ & _ & A4). destruct (opt_same _ _ _ _ _ A4 fr Ei W) as (fr0 & B1 & _ & B3). eapply py_item; eauto.
  - destruct (Mp k w r Et Er) as (r0 & E0 & A1 & A2 & _). eapply py_pairs; eauto. rewrite <- A1, <- A2. exact W.
  - destruct (Mp k w r Et Er) as (r0 & E0 & _ & _ & A4 & _). destruct (opt_same _ _ _ _ _ A4 fr Ei (or_introl W)) as (fr0 & B1 & B2 & B3). eapply py_key; eauto.
  - destruct (Mp k w r Et Er) as (r0 & E0 & _ & _ & _ & A4). destruct (opt_same _ _ _ _ _ A4 fr Ei W) as (fr0 & B1 & _ & B3). eapply py_entry; eauto.
Qed.

(** The end of a path, as Python names it. *)
Definition py_end (sc0 : schema) (p : list label) (q : list cause) : Prop :=
  exists q0 c l, q = (q0 ++ [c])%list /\ p = [l] /\ py_says sc0 c l.

Section PyMsg.
Variable re_ok : bytes -> bool.
Variable sc0 sc : schema.
Variable orc : oracles.
Variable pl : py_libs.
Variable pn : py_names.
Hypothesis PS : py_setting re_ok sc0 sc orc pl pn.
Notation leaf := (py_value pl orc).
Notation callable := (fun _ : string => True).
Let checked := ps_checked _ _ _ _ _ _ PS.
Let wf := ps_wf _ _ _ _ _ _ PS.
Let OK := ps_orc _ _ _ _ _ _ PS.

Theorem py_blame fuel : forall n d0 m p, find_msg sc0 n = Some d0 -> wt_msg sc0 d0 m -> py_values sc orc pl n m ->
  (mheight m < fuel)%nat -> py_report_f pl pn sc0 fuel n m = Fault p ->
  validated_type sc0 n = true /\ exists q, path_by OneofsFirst orc sc0 n m q /\ py_end sc0 p q.
Proof.
  induction fuel as [|k IH]; intros n d0 m p F0 W A L E; [lia|].
  assert (Vt : validated_type sc0 n = true).
  { assert (S := py_validate_says re_ok sc0 sc orc pl pn PS _ n d0 m F0 W A L). rewrite <- py_report_verdict, E in S.
    apply says_rejects in S. destruct S as [S _]. specialize (S eq_refl). destruct (validated_type sc0 n); auto. exfalso. apply S. discriminate. }
  split; [exact Vt|]. cbn [py_report_f] in E. rewrite F0 in E.
  destruct (ck_find re_ok sc0 sc n d0 checked F0) as (d & F & Hck & Hin & Hin0).
  destruct (check_msg_name _ _ _ _ Hck) as (N1 & N2 & N3).
  assert (Hm : validated_type sc0 n = match md_methods d with MNone => false | _ => true end) by (unfold validated_type; rewrite F0, N2; reflexivity).
  assert (Sh := ps_shape _ _ _ _ _ _ PS d Hin).
  assert (Nm := find_name _ _ _ F0).
  unfold pr_msg in E. rewrite (pr_body_same re_ok sc0 pl _ pn d0 d Hck Sh) in E. rewrite <- N3 in E.
  assert (Eb : rrun_code (pr_body pl sc0 (py_report_f pl pn sc0 k) pn d) m = Fault p).
  { destruct (pr_body _ _ _ _ d) as [c|]; [|discriminate]. destruct (md_disabled d || pn_ignored pn (md_name d0)); [discriminate|]. exact E. }
  assert (Ed : md_disabled d = false).
  { destruct (pr_body _ _ _ _ d) as [c|]; [|discriminate]. destruct (md_disabled d); [discriminate|reflexivity]. }
  assert (Act : active d = true) by (unfold active; rewrite Ed; rewrite Hm in Vt; destruct (md_methods d); auto).
  assert (Fr : Forall (py_frag pn) (all_fields d)) by (assert (Jf := ps_fields _ _ _ _ _ _ PS d Hin Act); rewrite Forall_forall in *; intros f If; split; auto).
  assert (Gn : google pn n = false) by (apply (goo re_ok sc0 sc orc pl pn PS); exact Vt).
  rewrite run_pr_body in Eb; [|exact Sh|exact (fun o => ps_members _ _ _ _ _ _ PS d o Hin)|intros; eapply (oneof_names re_ok sc0 sc orc pl pn PS); eauto]. rewrite N1, Nm in Eb.
  refine (msg_blame OneofsFirst label re_ok sc0 sc orc checked wf OK leaf callable (py_frag pn) (py_frag_shape pn) (run_py_field sc0 pl pn n)
         (fun V => run_field_says re_ok sc0 sc orc pl pn PS V n Gn) (fun emb _ f v => rep_py_field sc0 pl pn emb n f v)
         _ (fun _ f p => p_own f p) (fun _ o => LOneof o) (fun _ p => p)
         (fun emb _ f v Hf => pt_field pl sc0 emb pn n f v (proj1 Hf)) _ (py_end sc0) _ _ _
         (py_report_f pl pn sc0 k) d0 d n m F0 F Hin0 Hck Act W A Fr _ _ p Eb).
  - intros emb emb' n' f v H. unfold rep_py_field, run_py_field. assert (K := pv_field pl sc0 emb emb' H pn n f v).
    destruct (pr_field pl sc0 emb pn n f), (py_field pl sc0 emb' pn n f); cbn in K; try contradiction; [|reflexivity]. apply K. reflexivity.
  - auto.
  - intros n' d' f0 f p' F' I' C' (l & -> & Hl). destruct (check_field_name _ _ _ _ C') as [En _]. exists [], (FieldOf n' (f_name f)), l. repeat (split; auto). rewrite En.
    eapply py_says_field; eauto. eapply label_checked; eauto.
  - intros n' o. exists [], (OneofOf n' o), (LOneof o). repeat (split; auto). constructor.
  - intros c p1 q1 (q0 & c1 & c2 & -> & -> & H). exists (c :: q0), c1, c2. auto.
  - intros n1 d1 x B1 B2 B3 B4 B5. rewrite py_report_verdict. eapply py_validate_says; eauto; lia.
  - intros n1 d1 m1 p1 B1 B2 B3 B4 B5 B6. eapply IH; eauto; lia.
Qed.
End PyMsg.
