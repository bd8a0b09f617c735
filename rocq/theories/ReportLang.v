(** What the reports of a language name, from what those of its fields name. *)
From Coq Require Import Lia.
From Verif Require Import Base Utf8 Num Rules Types Time Iface Checker GoSem Spec Meaning Wt BaseFacts
  ExecFacts ExecRule ExecField ExecMsg Main MeaningFacts Outcome Values Says LangFacts Report ReportSpec ReportFacts.

Lemma forall2_left {A B} (P : A -> B -> Prop) l k : Forall2 P l k -> forall x, In x l -> exists y, In y k /\ P x y.
Proof. induction 1 as [|a b l k H _ IH]; intros x; [intros []|]. intros [<-|I]; [exists b; cbn; auto|]. destruct (IH x I) as (y & Y & Z). exists y. cbn. auto. Qed.

Section Lang.
Variable ord : order.
(** What errors name, for a field of a message type or one of its oneofs. *)
Variable Lab : Type.
Variable re_ok : bytes -> bool.
Variable sc0 sc : schema.
Variable orc : oracles.
Hypothesis checked : check_schema re_ok sc0 = Some sc.
Hypothesis wf : wf_schema sc0.
Hypothesis OK : oracle_ok orc.
Variable leaf : bool -> bool -> etype -> field_rules -> value -> Prop.
Variable callable : string -> Prop.
Variable frag : field -> Prop.
Hypothesis frag_shape : forall f, frag f -> shaped f.
Variable run_field : (string -> msgval -> outcome) -> field -> value -> outcome.
Hypothesis field_says : forall V emb f v, frag f -> sane_field f -> wt_field sc0 (f_type f) v ->
  all_field sc leaf (f_type f) (f_rules f) v -> ftype_ok sc0 (f_type f) -> emb_ok sc0 sc V leaf callable emb (vheight v) ->
  says (run_field emb f v) (field_flat orc sc0 V f v).

Variable rep_field : (string -> msgval -> report_of Lab) -> string -> field -> value -> report_of Lab.
Hypothesis verdict_field : forall emb emb' n f v, (forall a b, verdict (emb a b) = emb' a b) ->
  verdict (rep_field emb n f v) = run_field emb' f v.
Variable own : string -> field -> list Lab -> Prop.
Variable one : string -> string -> Lab.
Variable step : cause -> list Lab -> list Lab.
Hypothesis traces_field : forall emb n f v, frag f ->
  traces (own n f) (fun p => exists n1 m1 p', field_calls (f_type f) (f_rules f) v n1 m1 /\ emb n1 m1 = Fault p' /\ p = step (FieldOf n (f_name f)) p')
    (rep_field emb n f v) (run_field (fun _ _ => Passes) f v).
Hypothesis called : forall f v n1 m1, frag f -> ftype_ok sc0 (f_type f) -> wt_field sc0 (f_type f) v -> field_calls (f_type f) (f_rules f) v n1 m1 -> callable n1.
(** What is reported, and the path. *)
Variable R : list Lab -> list cause -> Prop.
Hypothesis R_own : forall n d0 f0 f p, find_msg sc0 n = Some d0 -> In f0 (all_fields d0) -> check_field re_ok sc0 f0 = Some f ->
  own n f p -> R p [FieldOf n (f_name f)].
Hypothesis R_oneof : forall n o, R [one n o] [OneofOf n o].
Hypothesis R_step : forall c p q, R p q -> R (step c p) (c :: q).

Notation T := (fun (_ : string) (_ : msgval) => True).

Lemma elem_called e fr b u v n1 m1 : elem_calls e fr v n1 m1 -> wt_elem sc0 e v -> all_elem sc leaf b u e fr v ->
  exists d1, find_msg sc0 n1 = Some d1 /\ wt_msg sc0 d1 m1 /\ all_values sc leaf n1 m1 /\ S (mheight m1) <= vheight v.
Proof.
  intros (-> & -> & Ft & Sk) W A. inversion W; subst. inversion A as [b' u' e' fr' v' L D]; subst.
  eexists. split; [eassumption|]. split; [assumption|]. split; [|cbn; lia]. apply D; auto.
  destruct fr as [[mr|] [r|]]; try discriminate; cbn in *; auto. unfold skipped in Sk. destruct (m_skip mr) as [[]|]; discriminate.
Qed.
Lemma field_called t fr v n1 m1 : field_calls t fr v n1 m1 -> ftype_ok sc0 t -> wt_field sc0 t v -> all_field sc leaf t fr v ->
  exists d1, find_msg sc0 n1 = Some d1 /\ wt_msg sc0 d1 m1 /\ all_values sc leaf n1 m1 /\ S (mheight m1) <= vheight v.
Proof.
  intros K T W A. inversion W as [e x We|e l Wl|k w l Wl]; subst; inversion A; subst; cbn [field_calls] in K.
  - eapply elem_called; eauto.
  - destruct K as (x & I & K). rewrite Forall_forall in Wl. destruct (elem_called _ _ _ _ _ _ _ K (Wl x I) ltac:(eauto)) as (d1 & A1 & A2 & A3 & A4).
    exists d1. repeat (split; auto). etransitivity; [exact A4|]. cbn [vheight]. exact (list_max_in vheight l _ I).
  - destruct K as (x & y & I & K). rewrite Forall_forall in Wl. destruct (Wl _ I) as [W1 W2]. cbn [fst snd] in *.
    match goal with H : forall x y, In (x, y) l -> _ |- _ => destruct (H x y I) as [B1 B2] end.
    assert (H := list_max_in (fun p => vheight (snd p)) l _ I). cbn [snd] in H.
    destruct K as [K|K]; [destruct (elem_called _ _ _ _ _ _ _ K W1 B1) as (d1 & A1 & A2 & A3 & A4)|destruct (elem_called _ _ _ _ _ _ _ K W2 B2) as (d1 & A1 & A2 & A3 & A4)];
      exists d1; repeat (split; auto); cbn [vheight]; [|lia].
    destruct K as [-> _]. destruct T as [T _]. discriminate.
Qed.

Section Msg.
Variable emb : string -> msgval -> report_of Lab.
Variable d0 d : msgdesc.
Variable n : string.
Variable m : msgval.
Hypothesis Hfind0 : find_msg sc0 n = Some d0.
Hypothesis Hfind : find_msg sc n = Some d.
Hypothesis Hin : In d0 (sc_msgs sc0).
Hypothesis Hck : check_msg re_ok sc0 d0 = Some d.
Hypothesis Hact : active d = true.
Hypothesis Hwt : wt_msg sc0 d0 m.
Hypothesis Hall : all_values sc leaf n m.
Hypothesis Hfr : Forall frag (all_fields d).
Hypothesis Hemb : emb_ok sc0 sc (valid orc sc0) leaf callable (fun a b => verdict (emb a b)) (mheight m).
Hypothesis Hpath : forall n1 d1 m1 p, find_msg sc0 n1 = Some d1 -> wt_msg sc0 d1 m1 -> all_values sc leaf n1 m1 -> callable n1 ->
  (S (mheight m1) <= mheight m)%nat -> emb n1 m1 = Fault p -> validated_type sc0 n1 = true /\ exists q, path_by ord orc sc0 n1 m1 q /\ R p q.

Lemma pass_ok h : emb_ok sc0 sc T leaf callable (fun _ _ => Passes) h.
Proof. intros n1 d1 x _ _ _ _ _. left. auto. Qed.

Lemma field_parts f0 f v : check_field re_ok sc0 f0 = Some f -> In f0 (all_fields d0) -> In f (all_fields d) -> wt_field sc0 (f_type f0) v ->
  all_field sc leaf (f_type f) (f_rules f) v -> (vheight v <= mheight m)%nat ->
  (rep_field emb n f v = Fine -> obeyed orc sc0 f0 v) /\
  (forall p, rep_field emb n f v = Fault p ->
     (~ field_meaning orc sc0 f0 v /\ R p [FieldOf n (f_name f0)]) \/
     exists n1 m1 q, field_embeds sc0 f0 v n1 m1 /\ path_by ord orc sc0 n1 m1 q /\ R p (FieldOf n (f_name f0) :: q)).
Proof.
  intros C I0 I1 W A L. destruct (check_field_name _ _ _ _ C) as [En Et].
  assert (F : frag f) by (rewrite Forall_forall in Hfr; auto).
  assert (TO : ftype_ok sc0 (f_type f)) by (rewrite Et; destruct (wf d0 Hin) as [_ W']; auto).
  assert (W1 : wt_field sc0 (f_type f) v) by now rewrite Et.
  destruct (field_flat_iff re_ok orc sc0 T OK f0 f v C (frag_shape f F)) as [Sn IffT].
  assert (HM : field_flat orc sc0 T f v <-> field_meaning orc sc0 f0 v).
  { rewrite <- IffT. eapply field_meant; eauto. }
  split.
  - intros E.
    assert (P : run_field (fun a b => verdict (emb a b)) f v = Passes) by (rewrite <- (verdict_field emb _ n f v (fun _ _ => eq_refl)), E; reflexivity).
    assert (S : says (run_field (fun a b => verdict (emb a b)) f v) (field_flat orc sc0 (valid orc sc0) f v)).
    { apply field_says; auto. eapply emb_le; eauto. }
    apply says_passes in S. apply S in P. split.
    + apply HM. eapply field_flat_mono; [|exact P]. auto.
    + intros n1 m1 Em. apply (calls_embeds re_ok sc0 f0 f v n1 m1 C (frag_shape f F)) in Em. destruct Em as [Ca Vt].
      apply (valid_meant re_ok sc0 sc orc checked (fun d1 I1 => proj1 (proj1 (wf d1 I1)))). eapply field_flat_calls; eauto.
  - intros p E. destruct (traces_field emb n f v F) as [_ K]. destruct (K p E) as [[O P]|(n1 & m1 & p' & Ca & Ee & ->)].
    + left. split.
      * rewrite <- HM. assert (S : says (run_field (fun _ _ => Passes) f v) (field_flat orc sc0 T f v)) by (apply field_says; auto; apply pass_ok).
        apply says_rejects in S. apply S. exact P.
      * rewrite <- En. eapply R_own; eauto.
    + right. destruct (field_called _ _ _ _ _ Ca TO W1 A) as (d1 & B1 & B2 & B3 & B4).
      destruct (Hpath n1 d1 m1 p' B1 B2 B3 (called _ _ _ _ F TO W1 Ca) ltac:(lia) Ee) as (Vt & q & Q1 & Q2).
      exists n1, m1, q. split; [apply (calls_embeds re_ok sc0 f0 f v n1 m1 C (frag_shape f F)); auto|]. split; auto. rewrite <- En. apply R_step. exact Q2.
Qed.

Definition rep_oneof (o : oneof) (s : option (string * value)) : report_of Lab :=
  match s with
  | Some (fn, v) =>
      match find (fun f => String.eqb fn (f_name f)) (o_fields o) with
      | Some f => rep_field emb n f v
      | None => Fine
      end
  | None => names (one n (o_name o)) (throw_unless (negb (getb (o_required o))))
  end.

Lemma plain_field f0 f : In f0 (md_fields d0) -> In f (md_fields d) -> check_field re_ok sc0 f0 = Some f ->
  exists v, assoc (f_name f0) (mv_fields m) = Some v /\ f_name f = f_name f0 /\
  (rep_field emb n f v = Fine -> obeyed orc sc0 f0 v) /\
  (forall p, rep_field emb n f v = Fault p ->
     (~ field_meaning orc sc0 f0 v /\ R p [FieldOf n (f_name f0)]) \/
     exists n1 m1 q, field_embeds sc0 f0 v n1 m1 /\ path_by ord orc sc0 n1 m1 q /\ R p (FieldOf n (f_name f0) :: q)).
Proof.
  intros I0 I1 C. destruct (check_field_name _ _ _ _ C) as [En Et].
  destruct (all_parts sc leaf d n m Hfind Hact Hall) as [P1 _]. destruct (wf d0 Hin) as [[N1 N2] _]. destruct (wt_parts _ _ _ Hwt) as [W1 _].
  assert (ND : NoDup (map f_name (md_fields d0))).
  { unfold all_fields in N1. rewrite map_app in N1. clear - N1. induction (map f_name (md_fields d0)) as [|x l IH]; [constructor|].
    cbn in N1. apply NoDup_cons_iff in N1. destruct N1 as [A B]. constructor; auto. intros K. apply A. apply in_app_iff. auto. }
  destruct (wt_assoc sc0 _ _ _ W1 ND I0) as (v & Ev & Wv & Iv). exists v. split; auto. split; auto. apply field_parts; auto.
  - unfold all_fields. apply in_app_iff; auto.
  - unfold all_fields. apply in_app_iff; auto.
  - apply P1; auto. now rewrite En.
  - eapply field_height; eauto.
Qed.

Lemma fields_before l0 l : Forall2 (fun f0 f => check_field re_ok sc0 f0 = Some f) l0 l -> (forall f, In f l0 -> In f (md_fields d0)) ->
  (forall f, In f l -> In f (md_fields d)) ->
  (forall f, In f l -> match assoc (f_name f) (mv_fields m) with Some v => rep_field emb n f v | None => Fine end = Fine) ->
  fields_obeyed orc sc0 l0 m.
Proof.
  intros F S0 S1 H f0 v I0 Ev. destruct (forall2_left _ _ _ F f0 I0) as (f & If & C).
  destruct (plain_field f0 f (S0 _ I0) (S1 _ If) C) as (v' & Ev' & En & K & _). rewrite Ev in Ev'. injection Ev' as <-.
  apply K. specialize (H f If). rewrite En, Ev in H. exact H.
Qed.

Lemma a_oneof o0 o : In o0 (md_oneofs d0) -> In o (md_oneofs d) -> check_oneof re_ok sc0 o0 = Some o ->
  exists s, assoc (o_name o0) (mv_oneofs m) = Some s /\ o_name o = o_name o0 /\
    match s with
    | None => rep_oneof o s = names (one n (o_name o0)) (throw_unless (negb (getb (o_required o0))))
    | Some (fn, v) => exists f0 f, In f0 (o_fields o0) /\ fn = f_name f0 /\ rep_oneof o s = rep_field emb n f v /\
      (forall f1, In f1 (o_fields o0) -> f_name f1 = fn -> f1 = f0) /\
  (rep_field emb n f v = Fine -> obeyed orc sc0 f0 v) /\
  (forall p, rep_field emb n f v = Fault p ->
     (~ field_meaning orc sc0 f0 v /\ R p [FieldOf n (f_name f0)]) \/
     exists n1 m1 q, field_embeds sc0 f0 v n1 m1 /\ path_by ord orc sc0 n1 m1 q /\ R p (FieldOf n (f_name f0) :: q))
    end.
Proof.
  intros I0 I1 C. destruct (all_parts sc leaf d n m Hfind Hact Hall) as [_ P2]. destruct (wf d0 Hin) as [[N1 N2] _].
  unfold check_oneof in C. destruct (map_opt (check_field re_ok sc0) (o_fields o0)) as [fl|] eqn:Ef; [|discriminate]. injection C as <-.
  apply map_opt_forall2 in Ef. cbn [o_name].
  destruct (wt_parts _ _ _ Hwt) as [_ W2].
  destruct (wt_assoc_oneof sc0 _ _ _ W2 N2 I0) as (s & Es & Ws & Is). exists s. split; auto. split; auto.
  inversion Ws as [o' E1 E2|o' f0 v If Wv E1 E2]; subst; cbn [rep_oneof o_fields o_required o_name]; [reflexivity|].
  assert (ND := oneof_nodup _ _ N1 I0).
  assert (K : exists f, find (fun g => String.eqb (f_name f0) (f_name g)) fl = Some f /\ In f fl /\ check_field re_ok sc0 f0 = Some f).
  { clear - Ef If ND. induction Ef as [|a b l l' H _ IH]; [contradiction|]. cbn in ND. apply NoDup_cons_iff in ND. destruct ND as [A B].
    destruct (check_field_name _ _ _ _ H) as [En Et]. cbn. rewrite En. destruct (String.eqb_spec (f_name f0) (f_name a)) as [E|E].
    - destruct If as [->|If]; [exists b; auto|]. exfalso. apply A. rewrite <- E. now apply in_map.
    - destruct If as [->|If]; [congruence|]. destruct (IH If B) as (f & X & Y & Z). exists f. auto. }
  destruct K as (f & Ff & If' & C). rewrite Ff. destruct (check_field_name _ _ _ _ C) as [En Et].
  exists f0, f. split; auto. split; auto. split; auto. split.
  { intros f1 If1 Ef1. assert (X := find_field _ _ ND If). assert (Y := find_field _ _ ND If1). rewrite Ef1 in Y; congruence. }
  apply field_parts; auto.
  - unfold all_fields. apply in_app_iff. right. apply in_flat_map. eauto.
  - unfold all_fields. apply in_app_iff. right. apply in_flat_map. eexists. split; [exact I1|exact If'].
  - eapply P2; [exact I1|exact If'|]. cbn [o_name]. now rewrite Es, En.
  - eapply oneof_height; eauto.
Qed.

Definition rep_fields : report_of Lab :=
  rall (map (fun f => match assoc (f_name f) (mv_fields m) with Some v => rep_field emb n f v | None => Fine end) (md_fields d)).
Definition rep_oneofs : report_of Lab :=
  rall (map (fun o => match assoc (o_name o) (mv_oneofs m) with Some s => rep_oneof o s | None => Fine end) (md_oneofs d)).

Lemma oneofs_before l0 l : Forall2 (fun o0 o => check_oneof re_ok sc0 o0 = Some o) l0 l -> (forall o, In o l0 -> In o (md_oneofs d0)) ->
  (forall o, In o l -> In o (md_oneofs d)) ->
  (forall o, In o l -> match assoc (o_name o) (mv_oneofs m) with Some s => rep_oneof o s | None => Fine end = Fine) ->
  oneofs_obeyed orc sc0 l0 m.
Proof.
  intros F S0 S1 B b0 Ib0. destruct (forall2_left _ _ _ F b0 Ib0) as (b & Ib & Cb). specialize (B b Ib).
  destruct (a_oneof b0 b (S0 _ Ib0) (S1 _ Ib) Cb) as (s & Es & En & K). rewrite En, Es in B. rewrite Es.
  destruct s as [[fn v]|].
  - split; [discriminate|]. intros f1 v1 If1 [= -> ->]. destruct K as (f0 & f & If0 & Efn & Er & Un & Kf & _).
    rewrite (Un f1 If1 eq_refl). apply Kf. congruence.
  - split; [|discriminate]. intros _ Rq. rewrite K, Rq in B. discriminate.
Qed.

Lemma fields_blame p : (ord = OneofsFirst -> oneofs_obeyed orc sc0 (md_oneofs d0) m) -> rep_fields = Fault p ->
  exists q, path_by ord orc sc0 n m q /\ R p q.
Proof.
  assert (Hen := msg_enabled re_ok sc0 d0 d Hck Hact). destruct (check_msg_parts re_ok sc0 d0 d Hen Hck) as [F1 F2].
  intros Ho H. apply rall_fault in H. destruct H as (l1 & f & l2 & El & B & E). rewrite El in F1.
  destruct (forall2_split _ _ _ _ _ F1) as (k1 & f0 & k2 & Ek & G1 & C).
  assert (I0 : In f0 (md_fields d0)) by (rewrite Ek; apply in_app_iff; right; left; auto).
  assert (I1 : In f (md_fields d)) by (rewrite El; apply in_app_iff; right; left; auto).
  destruct (plain_field f0 f I0 I1 C) as (v & Ev & En & _ & K). rewrite En, Ev in E.
  assert (U : up_to ord orc sc0 d0 m f0 v).
  { eapply up_to_field; eauto. eapply (fields_before k1 l1); eauto; intros g Hg; [rewrite Ek|rewrite El]; apply in_app_iff; auto. }
  destruct (K p E) as [[K1 K2]|(n1 & m1 & q & K1 & K2 & K3)].
  + exists [FieldOf n (f_name f0)]. split; auto. eapply path_field; eauto.
  + exists (FieldOf n (f_name f0) :: q). split; auto. eapply path_down; eauto.
Qed.
Lemma oneofs_blame p : (ord = FieldsFirst -> fields_obeyed orc sc0 (md_fields d0) m) -> rep_oneofs = Fault p ->
  exists q, path_by ord orc sc0 n m q /\ R p q.
Proof.
  assert (Hen := msg_enabled re_ok sc0 d0 d Hck Hact). destruct (check_msg_parts re_ok sc0 d0 d Hen Hck) as [F1 F2].
  intros FO H. apply rall_fault in H. destruct H as (l1 & o & l2 & El & B & E). rewrite El in F2.
  destruct (forall2_split _ _ _ _ _ F2) as (k1 & o0 & k2 & Ek & G1 & C).
  assert (I0 : In o0 (md_oneofs d0)) by (rewrite Ek; apply in_app_iff; right; left; auto).
  assert (I1 : In o (md_oneofs d)) by (rewrite El; apply in_app_iff; right; left; auto).
  assert (OO : oneofs_obeyed orc sc0 k1 m).
  { eapply (oneofs_before k1 l1); eauto; intros g Hg; [rewrite Ek|rewrite El]; apply in_app_iff; auto. }
  destruct (a_oneof o0 o I0 I1 C) as (s & Es & En & K). rewrite En, Es in E. destruct s as [[fn v]|].
  + destruct K as (f0 & f & If0 & -> & Er & _ & _ & K). rewrite Er in E.
    assert (U : up_to ord orc sc0 d0 m f0 v) by (eapply up_to_member; eauto).
    destruct (K p E) as [[K1 K2]|(n1 & m1 & q & K1 & K2 & K3)].
    * exists [FieldOf n (f_name f0)]. split; auto. eapply path_field; eauto.
    * exists (FieldOf n (f_name f0) :: q). split; auto. eapply path_down; eauto.
  + rewrite K in E. destruct (getb (o_required o0)) eqn:Rq; cbn in E; [|discriminate]. injection E as <-.
    exists [OneofOf n (o_name o0)]. split; [|apply R_oneof]. eapply path_oneof; eauto. now apply getb_true.
Qed.

Theorem msg_blame p : match ord with FieldsFirst => rthen rep_fields rep_oneofs | OneofsFirst => rthen rep_oneofs rep_fields end = Fault p ->
  exists q, path_by ord orc sc0 n m q /\ R p q.
Proof.
  assert (Hen := msg_enabled re_ok sc0 d0 d Hck Hact). destruct (check_msg_parts re_ok sc0 d0 d Hen Hck) as [F1 F2].
  assert (FO : rep_fields = Fine -> fields_obeyed orc sc0 (md_fields d0) m).
  { intros Hf. eapply (fields_before _ (md_fields d)); eauto. intros f If. exact (rall_fine _ _ Hf f If). }
  assert (OO : rep_oneofs = Fine -> oneofs_obeyed orc sc0 (md_oneofs d0) m).
  { intros Hf. eapply (oneofs_before _ (md_oneofs d)); eauto. intros f If. exact (rall_fine _ _ Hf f If). }
  assert (K1 := fields_blame p). assert (K2 := oneofs_blame p).
  destruct ord; intros H; apply rthen_fault in H; destruct H as [H|[Hf H]].
  - apply K1; auto; discriminate.
  - apply K2; auto.
  - apply K2; auto; discriminate.
  - apply K1; auto.
Qed.
End Msg.
End Lang.
