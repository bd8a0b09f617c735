(** What Java names. *)
From Coq Require Import Lia.
From Verif Require Import Base Utf8 Num Rules Types Time Iface Checker GoSem Spec Meaning LitSpec Wt BaseFacts
  ExecFacts ExecRule ExecField ExecMsg Main MeaningFacts Outcome Values Says LangFacts Java JavaSpec JavaRunFacts
  Report JavaReport ReportSpec ReportFacts ReportLang.

(** ** Verdicts *)
Section Verdict.
Variable jl : java_libs.
Variable sc : schema.
Variable emb : string -> msgval -> report.
Variable emb' : string -> msgval -> outcome.
Hypothesis He : forall a b, verdict (emb a b) = emb' a b.

Lemma jv_message c elem e mr v : verdict (jr_message emb c elem e mr v) = j_message emb' elem e mr v.
Proof.
  unfold jr_message, j_message. destruct (match mr with Some _ => _ | None => _ end); [reflexivity|].
  rewrite verdict_then, verdict_names, verdict_if. f_equal. f_equal. unfold jr_embedded, j_embedded.
  destruct e; try (destruct (jhas v); reflexivity). destruct v as [| | | | |[mm|]| | | | | |]; auto; try (destruct (jhas _); reflexivity); reflexivity.
Qed.
Lemma jv_elem c g elem e fr v : verdict (jr_elem jl sc emb c g elem e fr v) = j_elem jl sc emb' elem e fr v.
Proof.
  unfold jr_elem, j_elem. destruct fr as [[mr [r|]]|]; try (rewrite verdict_if; f_equal; apply jv_message).
  destruct e; try apply verdict_names. destruct v as [| | | | | |[x|]| | | | |]; try apply verdict_names; destruct elem; try reflexivity; apply verdict_names.
Qed.
Lemma jv_field n f v : verdict (jr_field jl sc emb n f v) = j_field jl sc emb' f v.
Proof.
  assert (Rp : forall c g e r l, verdict (jr_repeated jl sc emb c g e r l) = j_repeated jl sc emb' e r l).
  { intros. unfold jr_repeated, j_repeated. rewrite verdict_if. f_equal. cbn [rall in_order]. rewrite !verdict_then, !verdict_names.
    rewrite (verdict_map _ (j_elem jl sc emb' true e (r_items r))); [reflexivity|]. intros; apply jv_elem. }
  assert (Mp : forall c g k w r l, verdict (jr_map jl sc emb c g k w r l) = j_map jl sc emb' k w r l).
  { intros. unfold jr_map, j_map. rewrite verdict_if. f_equal. cbn [rall in_order]. rewrite !verdict_then, !verdict_names, verdict_if, verdict_then.
    rewrite (verdict_map _ (fun p => j_elem jl sc emb' true k (p_keys r) (fst p))), (verdict_map _ (fun p => j_elem jl sc emb' true w (p_values r) (snd p))); [reflexivity| |]; intros; apply jv_elem. }
  unfold jr_field, jr_ftype, j_field. destruct (f_type f) as [e|e|k w]; [apply jv_elem| |]; destruct (fr_typ (f_rules f)) as [[]|]; try reflexivity;
    destruct v; try reflexivity; auto. rewrite verdict_if. f_equal. apply Mp.
Qed.
Lemma jv_msg d m : verdict (jr_msg jl sc emb d m) = j_msg jl sc emb' d m.
Proof.
  unfold jr_msg, j_msg. destruct (md_disabled d); [reflexivity|]. rewrite verdict_then. f_equal; apply verdict_map.
  - intros f. destruct (assoc _ _); [apply jv_field|reflexivity].
  - intros o. destruct (assoc _ _) as [s|]; [|reflexivity]. unfold jr_oneof, j_oneof. destruct s as [[fn v]|]; [|apply verdict_names].
    destruct (find _ _); [apply jv_field|reflexivity].
Qed.
End Verdict.

Lemma java_report_verdict jl sc ignored fuel : forall n m, verdict (java_report_f jl sc ignored fuel n m) = assert_valid_f jl sc ignored fuel n m.
Proof.
  induction fuel as [|k IH]; intros n m; [reflexivity|]. cbn [java_report_f assert_valid_f]. destruct (find_msg sc n) as [d|]; [|reflexivity].
  destruct (md_methods d); try (apply jv_msg; exact IH). destruct (ignored n); reflexivity.
Qed.

(** ** Names *)
Section Names.
Variable jl : java_libs.
Variable sc : schema.
Variable emb : string -> msgval -> report.
Notation ok := (fun (_ : string) (_ : msgval) => Passes).

Definition j_own (n : string) (f : field) (p : list cause) : Prop :=
  p = [FieldOf n (f_name f)] \/
  (p = [Garbled n (f_name f)] /\ exists w, f_type f = FOne (TWrap w) /\ required (fr_msg (f_rules f)) = true).

Section Elem.
Variable C : list cause -> Prop.
Variable c g : cause.
Hypothesis Cc : C [c].

Definition elem_fault (e : etype) (fr : field_rules) (v : value) (p : list cause) : Prop :=
  exists n1 m1, elem_calls e fr v n1 m1 /\ emb n1 m1 = Fault p.

Lemma jt_message elem e mr v : traces C (elem_fault e (FR mr None) v) (jr_message emb c elem e mr v) (j_message ok elem e mr v).
Proof.
  unfold jr_message, j_message. destruct (match mr with Some _ => _ | None => _ end) eqn:Sk; [apply traces_fine|].
  apply traces_then; [now apply traces_names|]. apply traces_if. intros _. unfold jr_embedded, j_embedded.
  assert (D : traces C (elem_fault e (FR mr None) v) (if jhas v then Fine else Broken) (if jhas v then Passes else Crashes)).
  { destruct (jhas v); [apply traces_fine|apply traces_broken]. }
  destruct e; try exact D. destruct v as [| | | | |[m1|]| | | | | |]; try exact D.
  split; [auto|]. intros p Hp. right. eexists _, m1. split; [|exact Hp]. repeat split; auto.
Qed.
Lemma jt_elem elem e fr v : (elem = false -> forall w mr r, e = TWrap w -> fr = Some (FR mr (Some r)) -> required mr = true -> C [g]) ->
  traces C (elem_fault e (inner fr) v) (jr_elem jl sc emb c g elem e fr v) (j_elem jl sc ok elem e fr v).
Proof.
  intros G. unfold jr_elem, j_elem. destruct fr as [[mr [r|]]|]; cbn [inner].
  - assert (D : traces C (elem_fault e (FR mr (Some r)) v) (names c (j_rule jl sc e r v)) (j_rule jl sc e r v)) by now apply traces_names.
    destruct e; try exact D. destruct v as [| | | | | |[x|]| | | | |]; try exact D; destruct elem; try apply traces_broken; [now apply traces_names|].
    cbn [j_wrapper]. destruct (match mr with Some m => getb (m_required m) | None => false end) eqn:Rq; [|apply traces_fine].
    apply traces_names. eapply G; eauto.
  - apply traces_if. intros _. apply jt_message.
  - apply traces_if. intros _. apply jt_message.
Qed.
End Elem.

Lemma jt_field n f v : shaped f ->
  traces (j_own n f) (fun p => exists n1 m1 p', field_calls (f_type f) (f_rules f) v n1 m1 /\ emb n1 m1 = Fault p' /\ p = p')
    (jr_field jl sc emb n f v) (j_field jl sc ok f v).
Proof.
  intros Hs. assert (Cc : j_own n f [FieldOf n (f_name f)]) by (left; auto).
  assert (Rp : forall e r l (E : list cause -> Prop), (forall x p, In x l -> elem_fault e (inner (r_items r)) x p -> E p) ->
    traces (j_own n f) E (jr_repeated jl sc emb (FieldOf n (f_name f)) (Garbled n (f_name f)) e r l) (j_repeated jl sc ok e r l)).
  { intros e r l E HE. unfold jr_repeated, j_repeated. apply traces_if. intros _. cbn [rall in_order].
    repeat (apply traces_then; [now apply traces_names|]). apply traces_then; [|apply traces_fine].
    apply traces_map. intros x Ix. eapply traces_mono; [intros p; apply (HE x p Ix)|]. apply jt_elem; auto. discriminate. }
  assert (Mp : forall k w r l (E : list cause -> Prop), (forall x y p, In (x, y) l -> elem_fault k (inner (p_keys r)) x p \/ elem_fault w (inner (p_values r)) y p -> E p) ->
    traces (j_own n f) E (jr_map jl sc emb (FieldOf n (f_name f)) (Garbled n (f_name f)) k w r l) (j_map jl sc ok k w r l)).
  { intros k w r l E HE. unfold jr_map, j_map. apply traces_if. intros _. cbn [rall in_order].
    repeat (apply traces_then; [now apply traces_names|]). apply traces_then; [|apply traces_fine]. apply traces_if. intros _.
    apply traces_then; apply traces_map; intros [x y] I; cbn [fst snd]; (eapply traces_mono; [|apply jt_elem; [auto|discriminate]]); intros p Hp; apply (HE x y p I); auto. }
  unfold jr_field, jr_ftype, j_field, field_calls, shaped, item_rules, key_rules, value_rules in *. destruct (f_rules f) as [mr t] eqn:Er. cbn [fr_typ] in *.
  destruct (f_type f) as [e|e|k w] eqn:Et.
  - eapply traces_mono; [|apply jt_elem; [exact Cc|]].
    + intros p (n1 & m1 & A & B). exists n1, m1, p. auto.
    + intros _ w mr0 r Hw [= Hm Hr] Rq. right. split; auto. exists w. split; [congruence|]. rewrite Er. cbn. congruence.
  - destruct t as [[]|]; try contradiction; (destruct v; try apply traces_broken); apply Rp; intros x p I (n1 & m1 & A & B); exists n1, m1, p; split; eauto.
  - destruct t as [[]|]; try contradiction; (destruct v; try apply traces_broken); first [apply Mp|apply traces_if; intros _; apply Mp];
      intros x y p I [(n1 & m1 & A & B)|(n1 & m1 & A & B)]; exists n1, m1, p; (split; [exists x, y; split; [exact I|]|auto]); cbn in A; auto.
Qed.
End Names.

(** The end of a path, as Java names it. *)
Definition java_end (sc0 : schema) (p q : list cause) : Prop :=
  exists q0 c c', q = (q0 ++ [c])%list /\ p = [c'] /\ java_names sc0 c c'.

Section JavaMsg.
Variable re_ok : bytes -> bool.
Variable sc0 sc : schema.
Variable orc : oracles.
Variable jl : java_libs.
Variable ignored : string -> bool.
Hypothesis checked : check_schema re_ok sc0 = Some sc.
Hypothesis wf : wf_schema sc0.
Hypothesis OK : oracle_ok orc.
Notation leaf := (java_value sc orc jl).
Notation callable := (fun n => ignored n = false).
Hypothesis frag : java_schema sc ignored.

Lemma j_called f v n1 m1 : java_field sc ignored f -> ftype_ok sc0 (f_type f) -> wt_field sc0 (f_type f) v ->
  field_calls (f_type f) (f_rules f) v n1 m1 -> callable n1.
Proof.
  assert (E : forall b b' e fr x, java_elem sc ignored b b' e fr -> elem_calls e fr x n1 m1 -> ignored n1 = false).
  { intros b b' e fr x J (-> & _ & Ft & Sk). destruct fr as [mr [r|]]; [discriminate|]. cbn in J, Sk. destruct J as [_ J]. eauto. }
  intros J T W K. unfold java_field, field_calls, item_rules, key_rules, value_rules in *. destruct (f_rules f) as [mr t]. cbn [fr_typ] in J.
  destruct (f_type f) as [e|e|k w].
  - eapply E; eauto.
  - destruct v; try contradiction. destruct K as (x & _ & K). destruct t as [[]|]; try contradiction; [destruct J as (_ & _ & J)|]; eapply E; eauto.
  - destruct v; try contradiction. destruct K as (x & y & _ & K). destruct t as [[]|]; try contradiction.
    + destruct J as (_ & _ & J1 & J2). destruct K as [K|K]; [exact (E _ _ _ _ _ J1 K)|exact (E _ _ _ _ _ J2 K)].
    + destruct K as [K|K]; [|eapply E; eauto]. destruct K as [-> _]. destruct T as [T _]. discriminate.
Qed.

Lemma j_R_own n d0 f0 f p : find_msg sc0 n = Some d0 -> In f0 (all_fields d0) -> check_field re_ok sc0 f0 = Some f ->
  j_own n f p -> java_end sc0 p [FieldOf n (f_name f)].
Proof.
  intros Fd If C [->|(-> & w & Et & Rq)]; exists [], (FieldOf n (f_name f)); [exists (FieldOf n (f_name f))|exists (Garbled n (f_name f))];
    (split; [reflexivity|split; [reflexivity|]]); constructor.
  destruct (check_field_name _ _ _ _ C) as [En Et']. exists d0, f0, w. repeat (split; auto); try congruence.
  unfold check_field, guard in C. destruct (check_message _ _); [|discriminate]. destruct (check_fr _ _ _ _) as [fr'|] eqn:Cf; [|discriminate].
  injection C as <-. cbn [f_rules] in Rq. destruct (fr_kept _ _ _ _ _ Cf) as [<- _]. exact Rq.
Qed.

Theorem java_blame fuel : forall n d0 m p, find_msg sc0 n = Some d0 -> wt_msg sc0 d0 m -> all_values sc leaf n m -> ignored n = false ->
  (mheight m < fuel)%nat -> java_report_f jl sc ignored fuel n m = Fault p ->
  validated_type sc0 n = true /\ exists q, path_to orc sc0 n m q /\ java_end sc0 p q.
Proof.
  induction fuel as [|k IH]; intros n d0 m p F0 W A C L E; [lia|]. cbn [java_report_f] in E.
  destruct (ck_find re_ok sc0 sc n d0 checked F0) as (d & F & Hck & Hin & Hin0). rewrite F in E.
  destruct (check_msg_name _ _ _ _ Hck) as (N1 & N2 & N3).
  assert (Hm : validated_type sc0 n = match md_methods d with MNone => false | _ => true end) by (unfold validated_type; rewrite F0, N2; reflexivity).
  assert (Nn : md_name d = n) by (apply find_some in F; destruct F as [_ F]; apply String.eqb_eq in F; auto).
  destruct (md_methods d) eqn:Em; try (rewrite C in E; discriminate).
  all: split; [exact Hm|].
  all: unfold jr_msg in E; destruct (md_disabled d) eqn:Ed; [discriminate|].
  all: assert (Act : active d = true) by (unfold active; rewrite Ed, Em; reflexivity).
  all: assert (Fr : Forall (java_field sc ignored) (all_fields d)) by (apply frag; auto).
  all: rewrite Nn in E.
  all: refine (msg_blame FieldsFirst cause re_ok sc0 sc orc checked wf OK leaf callable (java_field sc ignored) (field_shape sc ignored) (j_field jl sc)
         (fun V => field_says re_ok sc0 sc orc jl ignored checked V) (jr_field jl sc)
         (fun emb emb' n f v H => jv_field jl sc emb emb' H n f v) j_own OneofOf (fun _ p => p)
         (fun emb n f v Hf => jt_field jl sc emb n f v (field_shape sc ignored f Hf)) j_called (java_end sc0) j_R_own _ _
         (java_report_f jl sc ignored k) d0 d n m F0 F Hin0 Hck Act W A Fr _ _ p E).
  all: try solve [intros n1 o1; exists [], (OneofOf n1 o1), (OneofOf n1 o1); repeat (split; auto); constructor].
  all: try solve [intros c p1 q1 (q0 & c1 & c2 & -> & -> & H); exists (c :: q0), c1, c2; auto].
  all: try solve [intros n1 d1 x B1 B2 B3 B4 B5; rewrite java_report_verdict; eapply assert_valid_says; eauto; lia].
  all: intros n1 d1 m1 p1 B1 B2 B3 B4 B5 B6; eapply IH; eauto; lia.
Qed.
End JavaMsg.
