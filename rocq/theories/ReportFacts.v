(** Reports: they agree with the verdicts, and what they name. *)
From Coq Require Import Lia.
From Verif Require Import Base Utf8 Num Rules Types Time Iface Checker GoSem Spec Meaning Wt BaseFacts
  ExecFacts ExecRule ExecField ExecMsg Main MeaningFacts Outcome Values Says LangFacts Report ReportSpec.

(** ** Verdicts *)
Section Verdicts.
Context {L : Type}.
Notation report := (report_of L).
Lemma verdict_names (c : L) o : verdict (names c o) = o.
Proof. destruct o; reflexivity. Qed.
Lemma verdict_then (a b : report) : verdict (rthen a b) = andthen (verdict a) (verdict b).
Proof. destruct a; reflexivity. Qed.
Lemma verdict_if b (a : report) : verdict (rif b a) = only_if b (verdict a).
Proof. destruct b; reflexivity. Qed.
Lemma verdict_map {A} (f : A -> report) g l : (forall x, verdict (f x) = g x) -> verdict (rall (map f l)) = in_order (map g l).
Proof. intros H. induction l as [|x t IH]; cbn; auto. now rewrite verdict_then, H, IH. Qed.
End Verdicts.

(** ** What a report names, and how the code ends when all embedded messages pass *)
Section Traces.
Context {L : Type}.
Notation report := (report_of L).
Variable C E : list L -> Prop.
Definition traces (r : report) (o : outcome) : Prop :=
  (r = Fine -> o = Passes) /\ (forall p, r = Fault p -> (C p /\ o = Rejects) \/ E p).

Lemma traces_names c o : C [c] -> traces (names c o) o.
Proof. intros H. split; destruct o; cbn; intros; try discriminate; auto. injection H0 as <-. auto. Qed.
Lemma traces_fine : traces Fine Passes.
Proof. split; auto; discriminate. Qed.
Lemma traces_broken o : traces Broken o.
Proof. split; discriminate. Qed.
Lemma traces_then a b x y : traces a x -> traces b y -> traces (rthen a b) (andthen x y).
Proof.
  intros [A1 A2] [B1 B2]. split.
  - destruct a; cbn; try discriminate. intros H. rewrite A1, B1; auto.
  - destruct a; cbn; try discriminate.
    + intros p H. rewrite A1; cbn; auto.
    + intros q [= <-]. destruct (A2 _ eq_refl) as [[H ->]|H]; auto.
Qed.
Lemma traces_if (b : bool) a x : (b = true -> traces a x) -> traces (rif b a) (only_if b x).
Proof. destruct b; cbn; auto. intros _. apply traces_fine. Qed.
Lemma traces_map {A} (f : A -> report) g l : (forall x, In x l -> traces (f x) (g x)) -> traces (rall (map f l)) (in_order (map g l)).
Proof.
  induction l as [|x t IH]; intros H; [apply traces_fine|]. cbn. apply traces_then; [apply H; left; auto|].
  apply IH. intros; apply H; right; auto.
Qed.
End Traces.
Lemma traces_mono {L} (C E E' : list L -> Prop) r o : (forall p, E p -> E' p) -> traces C E r o -> traces C E' r o.
Proof. intros H [A B]. split; auto. intros p Hp. destruct (B p Hp); auto. Qed.

(** ** Calls of the validators of embedded messages *)
Definition elem_calls (e : etype) (fr : field_rules) (v : value) (n : string) (m : msgval) : Prop :=
  e = TMsg n /\ v = VMsg (Some m) /\ fr_typ fr = None /\ skipped (fr_msg fr) = false.
Definition field_calls (t : ftype) (fr : field_rules) (v : value) (n : string) (m : msgval) : Prop :=
  match t, v with
  | FOne e, _ => elem_calls e fr v n m
  | FRep e, VList l => exists x, In x l /\ elem_calls e (item_rules fr) x n m
  | FMap k w, VMap l =>
      exists x y, In (x, y) l /\ (elem_calls k (key_rules fr) x n m \/ elem_calls w (value_rules fr) y n m)
  | _, _ => False
  end.

Lemma fr_kept re_ok sch c fr0 fr : check_fr re_ok sch c fr0 = Some fr ->
  fr_msg fr = fr_msg fr0 /\ (fr_typ fr = None <-> fr_typ fr0 = None).
Proof.
  destruct fr0 as [mr [r|]]; [|intros [= <-]; split; reflexivity]. destruct r; cbn; unfold guard; intros H.
  all: repeat match type of H with
       | context [match ?x with _ => _ end] => destruct x; try discriminate
       end.
  all: injection H as <-; cbn; split; auto; split; discriminate.
Qed.

Lemma elem_calls_embeds re_ok sch c fr0 fr e v n m : check_fr re_ok sch c fr0 = Some fr ->
  elem_embeds sch e fr0 v n m <-> elem_calls e fr v n m /\ validated_type sch n = true.
Proof. intros C. destruct (fr_kept _ _ _ _ _ C) as [E1 E2]. unfold elem_embeds, elem_calls. rewrite E1. tauto. Qed.

Definition shaped (f : field) : Prop :=
  match f_type f, fr_typ (f_rules f) with FRep _, Some (RRepeated _) | FRep _, None | FMap _ _, Some (RMap _) | FMap _ _, None | FOne _, _ => True | _, _ => False end.

Lemma calls_embeds re_ok sch f0 f v n m : check_field re_ok sch f0 = Some f -> shaped f ->
  field_embeds sch f0 v n m <-> field_calls (f_type f) (f_rules f) v n m /\ validated_type sch n = true.
Proof.
  unfold check_field, guard, shaped. destruct (check_message _ _); [|discriminate]. destruct (check_fr _ _ _ _) as [fr'|] eqn:C; [|discriminate].
  intros [= <-]. cbn [f_type f_rules]. unfold field_embeds, field_calls, rep_of, map_of. destruct (f_type f0) as [e|e|k w] eqn:Et; intros Hf.
  - eapply elem_calls_embeds; eauto.
  - destruct v; try solve [split; [intros []|intros [[] _]]].
    assert (K : exists c, check_fr re_ok sch c (rules_or_none (r_items (rep_of (f_rules f0)))) = Some (item_rules fr')).
    { unfold rep_of. destruct (f_rules f0) as [mr [r0|]] eqn:Er.
      2:{ cbn in C. injection C as <-. exists (CElem e). reflexivity. }
      destruct r0; try (exfalso; assert (K := check_other re_ok sch (FRep e) mr _ fr' I C I); destruct fr' as [m' [[]|]]; cbn in *; contradiction).
      apply check_rep in C. destruct C as (r1 & -> & A1 & A2 & A3 & A4 & A5). exists (CElem e). exact A5. }
    destruct K as [c K]. unfold rep_of in K. split.
    + intros (x & I & H). apply (elem_calls_embeds _ _ _ _ _ _ _ _ _ K) in H. destruct H. eauto.
    + intros ((x & I & H) & V). exists x. split; auto. apply (elem_calls_embeds _ _ _ _ _ _ _ _ _ K). auto.
  - destruct v; try solve [split; [intros []|intros [[] _]]].
    assert (K : (exists c, check_fr re_ok sch c (rules_or_none (p_keys (map_of (f_rules f0)))) = Some (key_rules fr')) /\
                (exists c, check_fr re_ok sch c (rules_or_none (p_values (map_of (f_rules f0)))) = Some (value_rules fr'))).
    { unfold map_of. destruct (f_rules f0) as [mr [r0|]] eqn:Er.
      2:{ cbn in C. injection C as <-. split; exists (CElem k); reflexivity. }
      destruct r0; try (exfalso; assert (K := check_other re_ok sch (FMap k w) mr _ fr' I C I); destruct fr' as [m' [[]|]]; cbn in *; contradiction).
      apply check_map in C. destruct C as (r1 & -> & A1 & A2 & A3 & A4 & A5 & A6). split; [exists (CElem k); exact A5|exists (CElem w); exact A6]. }
    destruct K as [[c K] [c' K']]. unfold map_of in K, K'. split.
    + intros (x & y & I & [H|H]); [apply (elem_calls_embeds _ _ _ _ _ _ _ _ _ K) in H|apply (elem_calls_embeds _ _ _ _ _ _ _ _ _ K') in H];
        destruct H as [H1 H2]; (split; [exists x, y; split; auto|exact H2]).
    + intros ((x & y & I & [H|H]) & V); exists x, y; (split; [auto|]); [left; apply (elem_calls_embeds _ _ _ _ _ _ _ _ _ K)|right; apply (elem_calls_embeds _ _ _ _ _ _ _ _ _ K')]; auto.
Qed.

(** ** Rules of the field and embedded messages, apart *)
Lemma elem_flat_mono orc sch (V V' : string -> msgval -> Prop) e fr v : (forall n m, V n m -> V' n m) ->
  elem_flat orc sch V e fr v -> elem_flat orc sch V' e fr v.
Proof.
  intros H. destruct fr as [mr [r|]]; cbn; auto. intros K Em. destruct (K Em) as [K1 K2]. split; [exact K1|]. intros; apply H; eauto.
Qed.
Lemma elem_flat_calls orc sch (V : string -> msgval -> Prop) e fr v n m : elem_flat orc sch V e fr v ->
  elem_calls e fr v n m -> validated_type sch n = true -> V n m.
Proof.
  intros F (-> & -> & T & S) Vt. destruct fr as [mr [r|]]; [discriminate|]. cbn in F, S. destruct (F eq_refl) as [_ K]. eauto.
Qed.
Lemma field_flat_mono orc sch (V V' : string -> msgval -> Prop) f v : (forall n m, V n m -> V' n m) ->
  field_flat orc sch V f v -> field_flat orc sch V' f v.
Proof.
  intros H. unfold field_flat. destruct (f_type f) as [e|e|k w]; [apply elem_flat_mono; auto| |]; destruct v; auto; unfold rep_flat, map_flat.
  - intros [K|(K1 & K2 & K3)]; [left; exact K|right]. repeat (split; auto). intros x I. eapply elem_flat_mono; eauto.
  - intros [K|(K1 & K2 & K3)]; [left; exact K|right]. split; auto. split; auto. intros x y I. destruct (K3 x y I). split; eapply elem_flat_mono; eauto.
Qed.
Lemma field_flat_calls orc sch (V : string -> msgval -> Prop) f v n m : field_flat orc sch V f v ->
  field_calls (f_type f) (f_rules f) v n m -> validated_type sch n = true -> V n m.
Proof.
  unfold field_flat, field_calls. destruct (f_type f) as [e|e|k w]; [apply elem_flat_calls| |]; destruct v; try contradiction; unfold rep_flat, map_flat, rep_of, map_of.
  - intros F (x & I & Hx) Vt. destruct F as [[_ ->]|(_ & _ & F)]; [contradiction|]. eapply elem_flat_calls; [apply (F x I)| |auto].
    destruct (f_rules f) as [mr [[]|]]; exact Hx.
  - intros F (x & y & I & Hx) Vt. destruct F as [[_ ->]|(_ & _ & F)]; [contradiction|]. destruct (F x y I) as [F1 F2].
    destruct Hx as [Hx|Hx]; [eapply elem_flat_calls; [exact F1| |auto]|eapply elem_flat_calls; [exact F2| |auto]]; destruct (f_rules f) as [mr [[]|]]; exact Hx.
Qed.

(** ** The first report that is not fine *)
Lemma rall_fault {L A} (g : A -> report_of L) l p : rall (map g l) = Fault p ->
  exists l1 y l2, l = l1 ++ y :: l2 /\ (forall z, In z l1 -> g z = Fine) /\ g y = Fault p.
Proof.
  induction l as [|x t IH]; cbn; [discriminate|]. destruct (g x) eqn:E; cbn; try discriminate.
  - intros H. destruct (IH H) as (l1 & y & l2 & -> & H1 & H2). exists (x :: l1), y, l2. split; auto. split; auto. intros z [<-|I]; auto.
  - intros [= <-]. exists [], x, t. split; auto. split; auto. intros z [].
Qed.
Lemma rall_fine {L A} (g : A -> report_of L) l : rall (map g l) = Fine -> forall z, In z l -> g z = Fine.
Proof.
  induction l as [|x t IH]; cbn; [intros _ z []|]. destruct (g x) eqn:E; cbn; try discriminate. intros H z [<-|I]; auto.
Qed.
Lemma rthen_fault {L} (a b : report_of L) p : rthen a b = Fault p -> a = Fault p \/ (a = Fine /\ b = Fault p).
Proof. destruct a; cbn; auto; discriminate. Qed.
Lemma forall2_split {A B} (R : A -> B -> Prop) l l1' y l2' : Forall2 R l (l1' ++ y :: l2') ->
  exists l1 x l2, l = l1 ++ x :: l2 /\ Forall2 R l1 l1' /\ R x y.
Proof.
  intros F. apply Forall2_app_inv_r in F. destruct F as (l1 & l' & F1 & F2 & ->). inversion F2; subst. eauto 10.
Qed.
