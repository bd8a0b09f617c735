(** What C++ names. *)
From Coq Require Import Lia.
From Verif Require Import Base Utf8 Num Rules Types Time Iface Checker GoSem Spec Meaning LitSpec Wt BaseFacts
  ExecFacts ExecRule ExecField ExecMsg Main MeaningFacts Outcome Values Says LangFacts Cc CcSpec CcRunFacts
  Report CcReport ReportSpec ReportFacts ReportLang.

(** ** Verdicts *)
Lemma verdict_because c r : verdict (because c r) = verdict r.
Proof. destruct r; reflexivity. Qed.

Section Verdict.
Variable cl : cc_libs.
Variable sc : schema.
Variable emb : string -> msgval -> report.
Variable emb' : string -> msgval -> outcome.
Hypothesis He : forall a b, verdict (emb a b) = emb' a b.

Lemma cv_message c elem e mr v : verdict (cr_message emb c elem e mr v) = cc_message emb' elem e mr v.
Proof.
  unfold cr_message, cc_message.
  rewrite verdict_then, verdict_names, !verdict_if, verdict_because. f_equal. f_equal. f_equal. unfold cr_embedded, cc_embedded.
  destruct e; try reflexivity. destruct v as [| | | | |[mm|]| | | | | |]; auto.
Qed.
Lemma cv_elem c elem e fr v : verdict (cr_elem cl sc emb c elem e fr v) = cc_elem cl sc emb' elem e fr v.
Proof.
  unfold cr_elem, cc_elem. destruct fr as [[mr [r|]]|]; try (rewrite verdict_if; f_equal; apply cv_message).
  destruct e; try apply verdict_names. destruct v; try apply verdict_names; destruct elem; try reflexivity; apply verdict_names.
Qed.
Lemma cv_items c u e fr l : forall seen, verdict (cr_items cl sc emb c u e fr seen l) = cc_items cl sc emb' u e fr seen l.
Proof.
  induction l as [|x t IH]; intros seen; [reflexivity|]. cbn [cr_items cc_items]. now rewrite !verdict_then, verdict_names, cv_elem, IH.
Qed.
Lemma cv_field n f v : verdict (cr_field cl sc emb n f v) = cc_field cl sc emb' f v.
Proof.
  assert (Rp : forall c e r l, verdict (cr_repeated cl sc emb c e r l) = cc_repeated cl sc emb' e r l).
  { intros. unfold cr_repeated, cc_repeated. now rewrite verdict_if, verdict_then, verdict_names, verdict_if, cv_items. }
  assert (Mp : forall c k w r l, verdict (cr_map cl sc emb c k w r l) = cc_map cl sc emb' k w r l).
  { intros. unfold cr_map, cc_map. rewrite verdict_if, verdict_then, verdict_names, verdict_if, verdict_then, verdict_names.
    rewrite (verdict_map _ (fun kv => andthen (cc_elem cl sc emb' true k (p_keys r) (fst kv)) (cc_elem cl sc emb' true w (p_values r) (snd kv)))); [reflexivity|].
    intros. now rewrite verdict_then, !cv_elem. }
  unfold cr_field, cr_ftype, cc_field. destruct (f_type f) as [e|e|k w]; [apply cv_elem| |]; destruct (fr_typ (f_rules f)) as [[]|]; try reflexivity;
    destruct v; try reflexivity; auto. rewrite verdict_if. f_equal. apply Mp.
Qed.
Lemma cv_msg d m : verdict (cr_msg cl sc emb d m) = cc_msg cl sc emb' d m.
Proof.
  unfold cr_msg, cc_msg. destruct (md_disabled d); [reflexivity|]. rewrite verdict_then. f_equal; apply verdict_map.
  - intros f. destruct (assoc _ _); [apply cv_field|reflexivity].
  - intros o. destruct (assoc _ _) as [s|]; [|reflexivity]. unfold cr_oneof, cc_oneof. destruct s as [[fn v]|]; [|apply verdict_names].
    destruct (find _ _); [apply cv_field|reflexivity].
Qed.
End Verdict.

Lemma cc_report_verdict cl sc fuel : forall n m, verdict (cc_report_f cl sc fuel n m) = cc_validate_f cl sc fuel n m.
Proof.
  induction fuel as [|k IH]; intros n m; [reflexivity|]. cbn [cc_report_f cc_validate_f]. destruct (find_msg sc n) as [d|]; [|reflexivity].
  destruct (md_methods d); try (apply cv_msg; exact IH). reflexivity.
Qed.

(** ** Names *)
Section Names.
Variable cl : cc_libs.
Variable sc : schema.
Variable emb : string -> msgval -> report.
Notation ok := (fun (_ : string) (_ : msgval) => Passes).

Section Elem.
Variable C : list cause -> Prop.
Variable c : cause.
Hypothesis Cc : C [c].

Definition elem_fault (e : etype) (fr : field_rules) (v : value) (p : list cause) : Prop :=
  exists n1 m1 p', elem_calls e fr v n1 m1 /\ emb n1 m1 = Fault p' /\ p = c :: p'.

Lemma ct_message elem e mr v : traces C (elem_fault e (FR mr None) v) (cr_message emb c elem e mr v) (cc_message ok elem e mr v).
Proof.
  unfold cr_message, cc_message.
  apply traces_then; [now apply traces_names|]. apply traces_if. intros Sk. apply traces_if. intros _. unfold cr_embedded, cc_embedded.
  assert (D : traces C (elem_fault e (FR mr None) v) (because c Fine) Passes) by apply traces_fine.
  destruct e as [| | | | |n| | | |]; try exact D. destruct v as [| | | | |[m1|]| | | | | |]; try exact D.
  split; [auto|]. intros p Hp. right. destruct (emb n m1) as [|p'| |] eqn:E; try discriminate. injection Hp as <-.
  exists n, m1, p'. split; [|auto]. apply negb_true_iff in Sk. repeat split; auto.
Qed.
Lemma ct_elem elem e fr v :
  traces C (elem_fault e (inner fr) v) (cr_elem cl sc emb c elem e fr v) (cc_elem cl sc ok elem e fr v).
Proof.
  unfold cr_elem, cc_elem. destruct fr as [[mr [r|]]|]; cbn [inner].
  - assert (D : traces C (elem_fault e (FR mr (Some r)) v) (names c (cc_rule cl sc e r v)) (cc_rule cl sc e r v)) by now apply traces_names.
    destruct e; try exact D. destruct v; try exact D; destruct elem; try apply traces_broken. now apply traces_names.
  - apply traces_if. intros _. apply ct_message.
  - apply traces_if. intros _. apply ct_message.
Qed.
Lemma ct_items u e fr (E : list cause -> Prop) l : (forall x p, In x l -> elem_fault e (inner fr) x p -> E p) ->
  forall seen, traces C E (cr_items cl sc emb c u e fr seen l) (cc_items cl sc ok u e fr seen l).
Proof.
  intros HE. induction l as [|x t IH]; intros seen; [apply traces_fine|]. cbn [cr_items cc_items].
  apply traces_then; [now apply traces_names|]. apply traces_then.
  - eapply traces_mono; [|apply ct_elem]. intros p. apply HE. left. auto.
  - apply IH. intros y p I. apply HE. right. auto.
Qed.
End Elem.

Lemma ct_field n f v : shaped f ->
  traces (fun p => p = [FieldOf n (f_name f)])
    (fun p => exists n1 m1 p', field_calls (f_type f) (f_rules f) v n1 m1 /\ emb n1 m1 = Fault p' /\ p = FieldOf n (f_name f) :: p')
    (cr_field cl sc emb n f v) (cc_field cl sc ok f v).
Proof.
  intros Hs. set (c := FieldOf n (f_name f)) in *. set (C := fun p => p = [c]).
  assert (Cc : C [c]) by reflexivity.
  assert (Rp : forall e r l (E : list cause -> Prop), (forall x p, In x l -> elem_fault c e (inner (r_items r)) x p -> E p) ->
    traces C E (cr_repeated cl sc emb c e r l) (cc_repeated cl sc ok e r l)).
  { intros e r l E HE. unfold cr_repeated, cc_repeated. apply traces_if. intros _. apply traces_then; [now apply traces_names|].
    apply traces_if. intros _. now apply ct_items. }
  assert (Mp : forall k w r l (E : list cause -> Prop), (forall x y p, In (x, y) l -> elem_fault c k (inner (p_keys r)) x p \/ elem_fault c w (inner (p_values r)) y p -> E p) ->
    traces C E (cr_map cl sc emb c k w r l) (cc_map cl sc ok k w r l)).
  { intros k w r l E HE. unfold cr_map, cc_map. apply traces_if. intros _. apply traces_then; [now apply traces_names|]. apply traces_if. intros _.
    apply traces_then; [|now apply traces_names]. apply traces_map. intros [x y] I. cbn [fst snd].
    apply traces_then; (eapply traces_mono; [|apply ct_elem; auto]); intros p Hp; apply (HE x y p I); auto. }
  unfold cr_field, cr_ftype, cc_field, field_calls, shaped, item_rules, key_rules, value_rules in *. fold c. destruct (f_rules f) as [mr t] eqn:Er. cbn [fr_typ] in *.
  destruct (f_type f) as [e|e|k w] eqn:Et.
  - eapply traces_mono; [|apply ct_elem; exact Cc]. intros p H. exact H.
  - destruct t as [[]|]; try contradiction; (destruct v; try apply traces_broken); apply Rp; intros x p I (n1 & m1 & p' & A & B & D); exists n1, m1, p'; split; eauto.
  - destruct t as [[]|]; try contradiction; (destruct v; try apply traces_broken); first [apply Mp|apply traces_if; intros _; apply Mp];
      intros x y p I [(n1 & m1 & p' & A & B & D)|(n1 & m1 & p' & A & B & D)]; exists n1, m1, p'; (split; [exists x, y; split; [exact I|]|auto]); cbn in A; auto.
Qed.
End Names.

Section CcMsg.
Variable re_ok : bytes -> bool.
Variable sc0 sc : schema.
Variable orc : oracles.
Variable cl : cc_libs.
Hypothesis checked : check_schema re_ok sc0 = Some sc.
Hypothesis wf : wf_schema sc0.
Hypothesis OK : oracle_ok orc.
Notation leaf := (cc_value cl orc).
Notation callable := (fun _ : string => True).
Hypothesis frag : cc_schema cl sc.

Theorem cc_blame fuel : forall n d0 m p, find_msg sc0 n = Some d0 -> wt_msg sc0 d0 m -> all_values sc leaf n m ->
  (mheight m < fuel)%nat -> cc_report_f cl sc fuel n m = Fault p ->
  validated_type sc0 n = true /\ path_to orc sc0 n m p.
Proof.
  assert (G : forall n d0 m p, find_msg sc0 n = Some d0 -> wt_msg sc0 d0 m -> all_values sc leaf n m ->
    (mheight m < fuel)%nat -> cc_report_f cl sc fuel n m = Fault p ->
    validated_type sc0 n = true /\ exists q, path_to orc sc0 n m q /\ p = q).
  2:{ intros n d0 m p A1 A2 A3 A4 A5. destruct (G n d0 m p A1 A2 A3 A4 A5) as (B & q & D & ->). auto. }
  induction fuel as [|k IH]; intros n d0 m p F0 W A L E; [lia|]. cbn [cc_report_f] in E.
  destruct (ck_find re_ok sc0 sc n d0 checked F0) as (d & F & Hck & Hin & Hin0). rewrite F in E.
  destruct (check_msg_name _ _ _ _ Hck) as (N1 & N2 & N3).
  assert (Hm : validated_type sc0 n = match md_methods d with MNone => false | _ => true end) by (unfold validated_type; rewrite F0, N2; reflexivity).
  assert (Nn : md_name d = n) by (apply find_some in F; destruct F as [_ F]; apply String.eqb_eq in F; auto).
  destruct (md_methods d) eqn:Em; try discriminate.
  all: split; [exact Hm|].
  all: unfold cr_msg in E; destruct (md_disabled d) eqn:Ed; [discriminate|].
  all: assert (Act : active d = true) by (unfold active; rewrite Ed, Em; reflexivity).
  all: assert (Fr : Forall (cc_field_ok cl) (all_fields d)) by (apply frag; auto).
  all: rewrite Nn in E.
  all: refine (msg_blame FieldsFirst cause re_ok sc0 sc orc checked wf OK leaf callable (cc_field_ok cl) (cc_field_shape cl) (cc_field cl sc)
         (fun V => cc_field_says re_ok sc0 sc orc cl checked V) (cr_field cl sc)
         (fun emb emb' n f v H => cv_field cl sc emb emb' H n f v) (fun n f p => p = [FieldOf n (f_name f)]) OneofOf (fun c p => c :: p)
         (fun emb n f v Hf => ct_field cl sc emb n f v (cc_field_shape cl f Hf)) _ eq _ _ _
         (cc_report_f cl sc k) d0 d n m F0 F Hin0 Hck Act W A Fr _ _ p E).
  all: try solve [intros; auto].
  all: try solve [intros; congruence].
  all: try solve [intros n1 d1 x B1 B2 B3 B4 B5; rewrite cc_report_verdict; eapply cc_validate_says; eauto; lia].
  all: intros n1 d1 m1 p1 B1 B2 B3 B4 B5 B6; eapply IH; eauto; lia.
Qed.
End CcMsg.
