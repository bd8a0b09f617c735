(** Paths lead to violated rules, they all begin with the same field, and Go's errors follow one. *)
From Coq Require Import Lia.
From Verif Require Import Base Utf8 Num Rules Types Time Iface Checker GoSem Spec SpecErr Meaning Wt BaseFacts
  ExecFacts ExecRule ExecField ExecMsg Main ValidSame MeaningFacts Outcome Values Says LangFacts Report ReportSpec ReportFacts ReportLang.

Section Paths.
Variable ord : order.
Variable orc : oracles.
Variable sc : schema.
Notation ob := (obeyed orc sc).

Lemma up_to_in d m f v : up_to ord orc sc d m f v ->
  (In f (md_fields d) /\ assoc (f_name f) (mv_fields m) = Some v) \/
  (exists o, In o (md_oneofs d) /\ In f (o_fields o) /\ assoc (o_name o) (mv_oneofs m) = Some (Some (f_name f, v))).
Proof.
  intros [l1 f' l2 v' _ E _ A|l1 o l2 f' v' _ E _ I A]; [left|right; exists o]; rewrite E; repeat (split; auto); apply in_app_iff; right; left; auto.
Qed.

Lemma includes_more n m n1 m1 : includes sc n m n1 m1 -> meant orc sc n m -> meant orc sc n1 m1.
Proof.
  intros I. induction I as [|n m d n1 m1 n' m' F D E I IH]; auto. intros H. apply IH.
  intros n2 m2 d2 I2. apply H. eapply includes_down; eauto.
Qed.

Theorem path_invalid n m p : path_by ord orc sc n m p -> ~ meant orc sc n m.
Proof.
  induction 1 as [n m d f v F D U N|n m d l1 o l2 F D _ E _ A Rq|n m d f v n1 m1 p F D U Em _ IH]; intros M.
  - destruct (M n m d (includes_here _ _ _) F D) as (M1 & _ & M3). apply N. destruct (up_to_in _ _ _ _ U) as [[I A]|(o & I & J & A)]; eauto.
  - destruct (M n m d (includes_here _ _ _) F D) as (_ & M2 & _). apply (M2 o); auto. rewrite E. apply in_app_iff. right. left. auto.
  - apply IH. eapply includes_more; [|exact M]. eapply includes_down; eauto; [|constructor].
    destruct (up_to_in _ _ _ _ U) as [[I A]|(o & I & J & A)]; [left; exists f, v; auto|right; exists o, f, v; auto].
Qed.

(** What is named first. *)
Inductive blamed (n : string) (d : msgdesc) (m : msgval) : cause -> Prop :=
| blamed_field f v : up_to ord orc sc d m f v -> ~ ob f v -> blamed n d m (FieldOf n (f_name f))
| blamed_oneof l1 o l2 : (ord = FieldsFirst -> fields_obeyed orc sc (md_fields d) m) -> md_oneofs d = (l1 ++ o :: l2)%list -> oneofs_obeyed orc sc l1 m ->
    assoc (o_name o) (mv_oneofs m) = Some None -> o_required o = Some true -> blamed n d m (OneofOf n (o_name o)).

Lemma path_blamed n m p : path_by ord orc sc n m p -> exists d c t, p = c :: t /\ find_msg sc n = Some d /\ blamed n d m c.
Proof.
  intros [n0 m0 d f v F D U N|n0 m0 d l1 o l2 F D A E B C Rq|n0 m0 d f v n1 m1 q F D U Em H]; exists d; do 2 eexists; (split; [reflexivity|]); (split; [exact F|]).
  - apply (blamed_field n0 d m0 f v); auto. intros [H _]. auto.
  - eapply blamed_oneof; eauto.
  - apply (blamed_field n0 d m0 f v); auto. intros [_ H1]. apply (path_invalid _ _ _ H). eauto.
Qed.

Lemma split_cases {A} (a : list A) x b a' x' b' : (a ++ x :: b = a' ++ x' :: b')%list -> In x a' \/ In x' a \/ x = x'.
Proof.
  revert a'. induction a as [|y a IH]; intros [|y' a']; cbn; intros E; injection E as E1 E2; subst; auto.
  destruct (IH a' E2) as [H|[H|H]]; auto.
Qed.

(** Nothing before a violated field or oneof is violated. *)
Lemma both_fields n d m c f v l1 l2 : blamed n d m c -> md_fields d = (l1 ++ f :: l2)%list -> fields_obeyed orc sc l1 m ->
  assoc (f_name f) (mv_fields m) = Some v -> ~ ob f v -> (ord = OneofsFirst -> oneofs_obeyed orc sc (md_oneofs d) m) -> c = FieldOf n (f_name f).
Proof.
  intros B E F A N Ho. assert (I : In f (md_fields d)) by (rewrite E; apply in_app_iff; right; left; auto).
  destruct B as [f' v' U' N'|k1 o k2 F' E' O' A' Rq'].
  - inversion U' as [k1 f0 k2 v0 Ho' E' F' A'|k1 o k2 f0 v0 F' E' O' I' A']; subst.
    + rewrite E in E'. destruct (split_cases _ _ _ _ _ _ E') as [H|[H|H]]; [destruct N; eapply F'; eauto|destruct N'; eapply F; eauto|congruence].
    + destruct ord; [destruct N; eapply F'; eauto|]. destruct N'. assert (Io : In o (md_oneofs d)) by (rewrite E'; apply in_app_iff; right; left; auto).
      destruct (Ho eq_refl o Io) as [_ K]. eauto.
  - destruct ord; [destruct N; eapply F'; eauto|]. assert (Io : In o (md_oneofs d)) by (rewrite E'; apply in_app_iff; right; left; auto).
    destruct (Ho eq_refl o Io) as [K _]. exfalso. apply K; auto.
Qed.

Theorem blamed_unique n d m c c' : blamed n d m c -> blamed n d m c' -> c = c'.
Proof.
  intros B B'. destruct B as [f v U N|l1 o l2 F E O A Rq].
  - inversion U as [l1 f0 l2 v0 Ho E F A|l1 o l2 f0 v0 F E O I A]; subst; [symmetry; eapply both_fields; eauto|].
    destruct B' as [f' v' U' N'|l1' o' l2' F' E' O' A' Rq'].
    + inversion U' as [k1 f0' k2 v0' Ho' E' F' A'|k1 o' k2 f0' v0' F' E' O' I' A']; subst.
      * eapply (both_fields n d m (FieldOf n (f_name f))); eauto. econstructor; eauto.
      * rewrite E in E'. destruct (split_cases _ _ _ _ _ _ E') as [H|[H|H]].
        -- destruct N. destruct (O' o H) as [_ K]. eauto.
        -- destruct N'. destruct (O o' H) as [_ K]. eauto.
        -- subst o'. rewrite A in A'. congruence.
    + rewrite E in E'. destruct (split_cases _ _ _ _ _ _ E') as [H|[H|H]].
      * destruct N. destruct (O' o H) as [_ K]. eauto.
      * destruct (O o' H) as [K _]. exfalso. apply K; auto.
      * subst o'. congruence.
  - destruct B' as [f' v' U' N'|l1' o' l2' F' E' O' A' Rq'].
    + inversion U' as [k1 f0 k2 v0 Ho' E' F' A'|k1 o' k2 f0 v0 F' E' O' I' A']; subst.
      * eapply (both_fields n d m (OneofOf n (o_name o))); eauto. econstructor; eauto.
      * rewrite E in E'. destruct (split_cases _ _ _ _ _ _ E') as [H|[H|H]].
        -- destruct (O' o H) as [K _]. exfalso. apply K; auto.
        -- destruct N'. destruct (O o' H) as [_ K]. eauto.
        -- subst o'. congruence.
    + rewrite E in E'. destruct (split_cases _ _ _ _ _ _ E') as [H|[H|H]].
      * destruct (O' o H) as [K _]. exfalso. apply K; auto.
      * destruct (O o' H) as [K _]. exfalso. apply K; auto.
      * congruence.
Qed.

Theorem path_head_unique n m c p c' p' : path_by ord orc sc n m (c :: p) -> path_by ord orc sc n m (c' :: p') -> c = c'.
Proof.
  intros H H'. destruct (path_blamed _ _ _ H) as (d & c0 & t & [= <- <-] & F & B). destruct (path_blamed _ _ _ H') as (d' & c0' & t' & [= <- <-] & F' & B').
  rewrite F in F'. injection F' as <-. eapply blamed_unique; eauto.
Qed.
End Paths.

Lemma app_split {A} (h k : list A) a x b : (h ++ k = a ++ x :: b)%list ->
  (exists b1, h = (a ++ x :: b1)%list) \/ (exists a', a = (h ++ a')%list /\ k = (a' ++ x :: b)%list).
Proof.
  revert a. induction h as [|z h IH]; intros a E; cbn in E.
  - right. exists a. auto.
  - destruct a as [|w a]; cbn in E; injection E as -> E; [left; exists h; auto|].
    destruct (IH a E) as [(b1 & ->)|(a' & -> & E')]; [left; exists b1; auto|right; exists a'; auto].
Qed.
Lemma flat_map_split {A B} (g : A -> list B) l a x b : flat_map g l = (a ++ x :: b)%list ->
  exists l1 y l2 a1 b1, l = (l1 ++ y :: l2)%list /\ g y = (a1 ++ x :: b1)%list /\ a = (flat_map g l1 ++ a1)%list.
Proof.
  revert a. induction l as [|y l IH]; intros a E; [destruct a; discriminate|]. cbn in E.
  destruct (app_split _ _ _ _ _ E) as [(b1 & E1)|(a' & -> & E')].
  - exists [], y, l, a, b1. auto.
  - destruct (IH a' E') as (l1 & z & l2 & a1 & b1 & -> & E1 & ->). exists (y :: l1), z, l2, a1, b1. split; auto. split; auto. cbn. now rewrite app_assoc.
Qed.

Section Go.
Variable re_ok : bytes -> bool.
Variable sc0 sc : schema.
Variable orc : oracles.
Hypothesis checked : check_schema re_ok sc0 = Some sc.
Hypothesis wf : wf_schema sc0.
Notation T := (fun (_ : string) (_ : msgval) => True).
Notation V := (valid orc sc0).

Lemma reqs_obeyed f f' v : check_field re_ok sc0 f = Some f' -> (forall ix r, In (ix, r) (field_reqs orc sc0 V f v) -> rq_holds r) -> obeyed orc sc0 f v.
Proof.
  intros C H. assert (Two := two_field orc sc0 V T f v). split.
  - apply (field_meant re_ok orc sc0 f f' v C). apply Forall_forall. intros [ix r] I. cbn.
    apply In_nth_error in I. destruct I as [i Hi].
    assert (K : exists j, nth_error (field_reqs orc sc0 V f v) i = Some j /\ two_t V T j (ix, r)).
    { clear - Two Hi. revert i Hi. induction Two; intros [|i] Hi; cbn in *; try discriminate; eauto. injection Hi as <-. eauto. }
    destruct K as ([ix' r'] & Hj & E1 & E2 & E3 & E4). cbn in *. apply nth_error_In in Hj. specialize (H _ _ Hj). unfold t_holds; cbn. destruct (rq_cause r'); [rewrite <- E4; exact H|rewrite <- E4; exact H|]. destruct E4 as [_ ->]. exact Logic.I.
  - intros n1 m1 Em. apply (valid_meant re_ok sc0 sc orc checked (fun d1 I1 => proj1 (proj1 (wf d1 I1)))).
    apply (field_embeds_iff orc) in Em. destruct Em as (ix & r & I & Ec). apply In_nth_error in I. destruct I as [i Hi].
    assert (K : exists j, nth_error (field_reqs orc sc0 V f v) i = Some j /\ two_t V T j (ix, r)).
    { clear - Two Hi. revert i Hi. induction Two; intros [|i] Hi; cbn in *; try discriminate; eauto. injection Hi as <-. eauto. }
    destruct K as ([ix' r'] & Hj & E1 & E2 & E3 & E4). cbn in *. apply nth_error_In in Hj. specialize (H _ _ Hj). rewrite E3, Ec in E4. destruct E4 as [<- _]. exact H.
Qed.
(** A violated requirement of a field. *)
Lemma req_violated f f' v ix r : check_field re_ok sc0 f = Some f' -> In (ix, r) (field_reqs orc sc0 V f v) -> ~ rq_holds r ->
  match rq_cause r with
  | Embedded n1 m1 => field_embeds sc0 f v n1 m1
  | _ => ~ field_meaning orc sc0 f v
  end.
Proof.
  intros C I N. assert (Two := two_field orc sc0 V T f v). apply In_nth_error in I. destruct I as [i Hi].
  assert (K : exists j, nth_error (field_reqs orc sc0 T f v) i = Some j /\ two_t V T (ix, r) j).
  { clear - Two Hi. revert i Hi. induction Two; intros [|i] Hi; cbn in *; try discriminate; eauto. injection Hi as <-. eauto. }
  destruct K as ([ix' r'] & Hj & E1 & E2 & E3 & E4). cbn in *. apply nth_error_In in Hj.
  destruct (rq_cause r) eqn:Ec.
  1,2: intros M; apply (field_meant re_ok orc sc0 f f' v C) in M; rewrite Forall_forall in M; specialize (M _ Hj); cbn in M; apply N; rewrite E4; exact M.
  apply (field_embeds_iff orc). exists ix', r'. split; auto.
Qed.

Lemma checked_parts n d : find_msg sc0 n = Some d -> md_disabled d = false ->
  (forall f, In f (all_fields d) -> exists f', check_field re_ok sc0 f = Some f') /\ NoDup (map f_name (all_fields d)).
Proof.
  intros F D. assert (I : In d (sc_msgs sc0)) by (apply find_some in F; tauto).
  destruct (wf d I) as [[ND _] _]. split; auto.
  destruct (checked_msg re_ok sc0 sc checked d I) as [d' C]. destruct (check_msg_parts re_ok sc0 d d' D C) as [F1 F2].
  intros f If. unfold all_fields in If. apply in_app_iff in If. destruct If as [If|If].
  - destruct (forall2_left _ _ _ F1 f If) as (f' & _ & Cf). eauto.
  - apply in_flat_map in If. destruct If as (o & Io & If). destruct (forall2_left _ _ _ F2 o Io) as (o' & _ & Co).
    unfold check_oneof in Co. destruct (map_opt _ _) eqn:E; [|discriminate]. apply map_opt_forall2 in E. destruct (forall2_left _ _ _ E f If) as (f' & _ & Cf). eauto.
Qed.

Theorem go_blame : forall e n m, explains orc sc0 false n m e -> exists q, path_to orc sc0 n m q /\ map named q = go_names e.
Proof.
  fix IH 1. intros e.
  assert (IHc : forall e' n1 m1, match e with GErr _ _ _ _ (Some c) _ => c = e' | _ => False end -> explains orc sc0 false n1 m1 e' ->
    exists q, path_to orc sc0 n1 m1 q /\ map named q = go_names e').
  { destruct e as [a b c0 d0 [c|] k| |]; [intros e' n1 m1 <-; exact (IH c n1 m1)| | |]; intros e' n1 m1 []. }
  clear IH. intros n m X.
  inversion X as [n0 m0 d l1 f ix r l2 c F D Er Hb Hr Hc|]; subst. unfold full_reqs, msg_reqs in Er.
  destruct (checked_parts n d F D) as [Ck ND].
  assert (Down : forall f0 v, up_to FieldsFirst orc sc0 d m f0 v -> In f0 (all_fields d) -> In (ix, r) (field_reqs orc sc0 V f0 v) -> f = f_name f0 ->
    exists q, path_to orc sc0 n m q /\ map named q = go_names (GErr n f ix (rq_reason r) c false)).
  { intros f0 v U I0 Ir ->. destruct (Ck f0 I0) as [f' Cf]. assert (K := req_violated f0 f' v ix r Cf Ir Hr).
    destruct (rq_cause r) as [| |n1 m1] eqn:Ec.
    1,2: exists [FieldOf n (f_name f0)]; (split; [eapply path_field; eauto|]); cbn; f_equal; inversion Hc; subst; reflexivity.
    inversion Hc as [| |all n2 m2 e' X']; subst. destruct (IHc e' n1 m1 eq_refl X') as (q & Q1 & Q2).
    exists (FieldOf n (f_name f0) :: q). split; [eapply path_down; eauto|]. cbn. now rewrite Q2. }
  assert (FO : forall k, (forall g, In g k -> In g (md_fields d)) ->
    (forall f' ix' r', In (f', (ix', r')) (flat_map (fun f => match assoc (f_name f) (mv_fields m) with Some v => map (fun r => (f_name f, r)) (field_reqs orc sc0 V f v) | None => [] end) k) -> rq_holds r') ->
    fields_obeyed orc sc0 k m).
  { intros k Sub H g v Ig Eg. destruct (Ck g) as [g' Cg]; [unfold all_fields; apply in_app_iff; auto|].
    apply (reqs_obeyed g g' v Cg). intros ix' r' Ir. apply (H (f_name g) ix' r'). apply in_flat_map. exists g. split; auto. rewrite Eg. apply in_map_iff. eauto. }
  apply app_split in Er. destruct Er as [(t & Er)|(t & -> & Er)].
  - destruct (flat_map_split _ _ _ _ _ Er) as (k1 & f0 & k2 & a1 & b1 & Ek & Eg & ->).
    destruct (assoc (f_name f0) (mv_fields m)) as [v|] eqn:Ev; [|destruct a1; discriminate].
    assert (Ir : In (f, (ix, r)) (map (fun r => (f_name f0, r)) (field_reqs orc sc0 V f0 v))) by (rewrite Eg; apply in_app_iff; right; left; auto).
    apply in_map_iff in Ir. destruct Ir as (z & [= <- ->] & Ir).
    assert (I0 : In f0 (md_fields d)) by (rewrite Ek; apply in_app_iff; right; left; auto).
    apply (Down f0 v); auto.
    + eapply up_to_field; eauto; [discriminate|]. apply FO; [intros g Ig; rewrite Ek; apply in_app_iff; auto|].
      intros f1 ix1 r1 I1. apply (Hb f1 ix1 r1). apply in_app_iff. auto.
    + unfold all_fields. apply in_app_iff. auto.
  - assert (FA : fields_obeyed orc sc0 (md_fields d) m).
    { apply FO; auto. intros f1 ix1 r1 I1. apply (Hb f1 ix1 r1). apply in_app_iff. auto. }
    destruct (flat_map_split _ _ _ _ _ Er) as (k1 & o & k2 & a1 & b1 & Ek & Eg & ->).
    assert (Io : In o (md_oneofs d)) by (rewrite Ek; apply in_app_iff; right; left; auto).
    assert (OO : oneofs_obeyed orc sc0 k1 m).
    { intros o1 I1. assert (J1 : In o1 (md_oneofs d)) by (rewrite Ek; apply in_app_iff; auto).
      assert (H1 : forall s f1 ix1 r1, assoc (o_name o1) (mv_oneofs m) = Some s -> In (f1, (ix1, r1)) (oneof_reqs orc sc0 V o1 s) -> rq_holds r1).
      { intros s f1 ix1 r1 Es Ir1. apply (Hb f1 ix1 r1). apply in_app_iff. right. apply in_app_iff. left. apply in_flat_map. exists o1. split; auto. now rewrite Es. }
      split.
      - intros E0 Rq. specialize (H1 None (o_name o1) None (want False [PStr "value is required"]) E0). cbn [oneof_reqs] in H1. rewrite Rq in H1. exact (H1 (or_introl eq_refl)).
      - intros g v Ig Ev. destruct (Ck g) as [g' Cg]; [unfold all_fields; apply in_app_iff; right; apply in_flat_map; eauto|].
        apply (reqs_obeyed g g' v Cg). intros ix1 r1 Ir1. apply (H1 _ (f_name g) ix1 r1 Ev). cbn [oneof_reqs].
        rewrite (find_field _ _ (oneof_nodup _ _ ND J1) Ig). apply in_map_iff. eauto. }
    destruct (assoc (o_name o) (mv_oneofs m)) as [[[fn v]|]|] eqn:Ev; [| |destruct a1; discriminate]; cbn [oneof_reqs] in Eg.
    + destruct (find _ _) as [f0|] eqn:Ef; [|destruct a1; discriminate]. apply find_some in Ef. destruct Ef as [If0 Ef]. apply String.eqb_eq in Ef. subst fn.
      assert (Ir : In (f, (ix, r)) (map (fun r => (f_name f0, r)) (field_reqs orc sc0 V f0 v))) by (rewrite Eg; apply in_app_iff; right; left; auto).
      apply in_map_iff in Ir. destruct Ir as (z & [= <- ->] & Ir). apply (Down f0 v); auto.
      * eapply up_to_member; eauto.
      * unfold all_fields. apply in_app_iff. right. apply in_flat_map. eauto.
    + destruct (getb (o_required o)) eqn:Rq; [|destruct a1; discriminate].
      assert (Q : f = o_name o /\ r = want False [PStr "value is required"]).
      { destruct a1 as [|z a1]; cbn in Eg; [injection Eg as <- <- <- _; auto|]. injection Eg as _ Eg. destruct a1; discriminate. }
      destruct Q as [-> ->]. exists [OneofOf n (o_name o)]. split; [eapply path_oneof; eauto; now apply getb_true|].
      cbn. f_equal. cbn in Hc. inversion Hc; subst; reflexivity.
Qed.
End Go.
