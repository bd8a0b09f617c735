(** Facts about the harness programs. *)
From Coq Require Import Lia Permutation.
From Verif Require Import Base Utf8 Utf8Facts Num Rules Types Iface Checker GoIR GoGen GoSem Spec SpecErr Meaning LitSpec Sim Order Wt Setting
  BaseFacts ExecFacts ExecMsg Main MainFacts MeaningFacts ValidSame Values ValuesSame ErrText ErrTextFacts Outcome Harness HarnessSpec HarnessMain HarnessMainSpec
  Java JavaSpec PropJava Cc CcSpec PropCc Py PySpec PropPy HarnessFacts HarnessRun.

(** ** UTF-8 *)
Lemma utf8b_valid s : valid_utf8 s -> utf8b s = true.
Proof.
  intros (cs & F & ->). unfold utf8b. rewrite <- flat_map_concat_map. assert (E := runes_app_char_list cs [] F). rewrite !app_nil_r in E. rewrite E.
  apply bytes_eqb_eq. unfold utf8_encode. clear E. induction F; cbn; auto. rewrite IHF, utf8_enc_bytes; auto.
Qed.
Lemma utf8_app a b : valid_utf8 a -> valid_utf8 b -> valid_utf8 (a ++ b).
Proof.
  intros (x & Fx & ->) (y & Fy & ->). exists (x ++ y). split; [apply Forall_app; auto|]. now rewrite map_app, concat_app.
Qed.
Lemma utf8_ascii s : Forall (fun c => (c < 128)%N) s -> valid_utf8 s.
Proof.
  intros F. exists s. split.
  - eapply Forall_impl; [|exact F]. cbn. intros c H. unfold scalar_value. lia.
  - induction F as [|c s H F IH]; auto. cbn. rewrite <- IH. unfold utf8_bytes. destruct (c <? 128)%N eqn:E; auto. apply N.ltb_ge in E. lia.
Qed.

(** A length of 128 up to 16383 bytes. *)
Lemma long_not_utf8 a b t : (128 <= a)%N -> (b < 128)%N -> utf8b (26%N :: a :: b :: t) = false.
Proof.
  intros Ha Hb. unfold utf8b. apply Bool.not_true_is_false. intros E. apply bytes_eqb_eq in E.
  assert (R : exists t', runes (26%N :: a :: b :: t) = 26%N :: rune_error :: t').
  { cbn [runes]. replace (26 <? 128)%N with true by reflexivity. replace (a <? 128)%N with false by (symmetry; apply N.ltb_ge; lia).
    assert (Cb : cont b = false) by (unfold cont; replace (128 <=? b)%N with false by (symmetry; apply N.leb_gt; lia); reflexivity).
    assert (A3 : acc3 a b = false).
    { unfold acc3, in_range. destruct (_ =? _)%N; [|destruct (_ =? _)%N; [|exact Cb]]; apply andb_false_iff; left; apply N.leb_gt; lia. }
    assert (A4 : acc4 a b = false).
    { unfold acc4, in_range. destruct (_ =? _)%N; [|destruct (_ =? _)%N; [|exact Cb]]; apply andb_false_iff; left; apply N.leb_gt; lia. }
    rewrite Cb. destruct t as [|c t]; [|destruct t as [|d t]]; rewrite ?A3, ?A4; cbn [andb];
      repeat (match goal with |- context [if ?x then _ else _] => destruct x end); eexists; reflexivity. }
  destruct R as (t' & R). rewrite R in E. cbn in E. injection E as E1 E2 _. subst b. lia.
Qed.

Lemma varint_short n : (n < 128)%N -> varint 10 n = [n].
Proof. intros H. cbn. destruct (n <? 128)%N eqn:E; auto. apply N.ltb_ge in E. lia. Qed.
Lemma varint_two n : (128 <= n < 16384)%N -> varint 10 n = [128 + n mod 128; n / 128]%N.
Proof.
  intros H. cbn -[N.modulo N.div]. destruct (n <? 128)%N eqn:E; [apply N.ltb_lt in E; lia|].
  assert (n / 128 < 128)%N by (apply N.div_lt_upper_bound; lia). destruct (n / 128 <? 128)%N eqn:E'; auto. apply N.ltb_ge in E'. lia.
Qed.

Lemma py_delivers reason : valid_utf8 reason -> List.length reason < 128 ->
  py_harness Rejects reason = Some (Answer false false 1 false false).
Proof.
  intros U L. unfold py_harness, py_main. rewrite utf8b_valid; [reflexivity|]. cbn [serialize tr_valid tr_error tr_reasons tr_allow tr_multi flat_map app].
  rewrite !app_nil_r. unfold wire_string. rewrite varint_short by lia. apply (utf8_app [26; N.of_nat (List.length reason)]%N); auto.
  apply utf8_ascii. repeat constructor; lia.
Qed.
Lemma py_loses reason : (128 <= N.of_nat (List.length reason) < 16384)%N -> py_harness Rejects reason = None.
Proof.
  intros L. unfold py_harness, py_main. cbn [serialize tr_valid tr_error tr_reasons tr_allow tr_multi flat_map app]. rewrite !app_nil_r.
  unfold wire_string. rewrite varint_two by lia. cbn [app]. rewrite long_not_utf8; auto.
  - lia.
  - apply N.div_lt_upper_bound; lia.
Qed.

(** ** The executor *)
Lemma plain_verdict f v k : verdict f (Some (Answer v false k false false)) = Result true false \/
  verdict f (Some (Answer v false k false false)) = Result false false.
Proof. cbn. destruct (negb _); auto. Qed.
Lemma plain_success f v k : verdict f (Some (Answer v false k false false)) = Result true false <-> (v = true <-> f = 0%Z).
Proof.
  cbn. destruct (Z.eqb_spec f 0) as [E|E]; destruct v; cbn; intuition congruence.
Qed.

(** ** Go *)
Section Go.
Variables (re_ok : bytes -> bool) (sc0 sc : schema) (orc : oracles).
Hypothesis st : setting re_ok sc0 sc orc.
Variables (sprint : list piece -> bytes) (ix_text : ixval -> bytes) (plain_text : GoSem.plain -> bytes).
Let text := error_text sprint ix_text plain_text.
Variable ignored : string -> bool.

Lemma embedded_validated (emb : string -> msgval -> Prop) d m f ix r n1 m1 :
  In (f, (ix, r)) (msg_reqs orc sc0 emb d m) -> rq_cause r = Embedded n1 m1 -> validated_type sc0 n1 = true.
Proof.
  assert (Fl : forall g v ix0 r0, In (ix0, r0) (field_reqs orc sc0 emb g v) -> rq_cause r0 = Embedded n1 m1 -> validated_type sc0 n1 = true).
  { intros g v ix0 r0 I E. assert (Two := two_field orc sc0 emb (fun _ _ => True) g v). apply In_nth_error in I. destruct I as [i Hi].
    assert (K : exists j, nth_error (field_reqs orc sc0 (fun _ _ => True) g v) i = Some j /\ two_t emb (fun _ _ => True) (ix0, r0) j).
    { clear - Two Hi. revert i Hi. induction Two; intros [|i] Hi; cbn in *; try discriminate; eauto. injection Hi as <-. eauto. }
    destruct K as ([ix' r'] & Hj & E1 & E2 & E3 & E4). cbn in *. apply nth_error_In in Hj.
    assert (X : field_embeds sc0 g v n1 m1) by (apply (field_embeds_iff orc); exists ix', r'; split; [auto|congruence]).
    unfold field_embeds, elem_embeds in X. destruct (f_type g); [tauto| |]; destruct v; try contradiction.
    - destruct X as (x & _ & X). tauto.
    - destruct X as (x & y & _ & X). tauto. }
  intros I E. unfold msg_reqs in I. apply in_app_iff in I. destruct I as [I|I]; apply in_flat_map in I.
  - destruct I as (g & _ & I). destruct (assoc _ _) as [v|]; [|contradiction]. apply in_map_iff in I. destruct I as ([ix0 r0] & [= <- <- <-] & I). eauto.
  - destruct I as (o & _ & I). destruct (assoc _ _) as [[[fn v]|]|]; [| |contradiction]; cbn [oneof_reqs] in I.
    + destruct (find _ _) as [g|]; [|contradiction]. apply in_map_iff in I. destruct I as ([ix0 r0] & [= <- <- <-] & I). eauto.
    + destruct (getb _); [|contradiction]. destruct I as [[= <- <- <-]|[]]. discriminate.
Qed.

(** Errors of ValidateAll where no code is legacy: a cause is a list of errors or of the library. *)
Inductive flat : gerr -> Prop :=
| flat_leaf n f ix r k : flat (GErr n f ix r None k)
| flat_lib n f ix r p k : flat (GErr n f ix r (Some (GPlain p)) k)
| flat_down n f ix r n' es k : Forall flat es -> flat (GErr n f ix r (Some (GMulti n' es)) k).

Lemma explains_flat : no_legacy sc0 ->
  (forall all n m e, explains orc sc0 all n m e -> all = true -> exists n' es, e = GMulti n' es /\ Forall flat es) /\
  (forall n l es, explains_list orc sc0 n l es ->
     (forall f ix r n1 m1, In (f, (ix, r)) l -> rq_cause r = Embedded n1 m1 -> validated_type sc0 n1 = true) -> Forall flat es) /\
  (forall all k c, explains_cause orc sc0 all k c -> all = true -> (forall n1 m1, k = Embedded n1 m1 -> validated_type sc0 n1 = true) ->
     match c with Some (GMulti _ es) => Forall flat es | Some (GErr _ _ _ _ _ _) => False | _ => True end).
Proof.
  intros NL. apply explains_all_i.
  - discriminate.
  - intros n m d es _ _ _ _ IH _. do 2 eexists. split; [reflexivity|]. apply IH. intros f ix r n1 m1. apply embedded_validated.
  - constructor.
  - intros n f ix r l es _ _ IH H. apply IH. intros. eapply H; [right|]; eauto.
  - intros n f ix r l c es _ _ IHc _ IH H. constructor.
    + specialize (IHc eq_refl (fun n1 m1 => H f ix r n1 m1 (or_introl eq_refl))). destruct c as [[| |]|]; try contradiction; constructor; auto.
    + apply IH. intros. eapply H; [right|]; eauto.
  - auto.
  - auto.
  - intros all n m e _ IH -> H. destruct IH as (n' & es & -> & F); auto. unfold has_all. specialize (H n m eq_refl). unfold validated_type in H.
    destruct (find_msg sc0 n) as [x|] eqn:E; [|discriminate]. specialize (NL n x E). destruct (md_methods x); [reflexivity|congruence|discriminate].
Qed.

Lemma flat_reasons : forall e, flat e -> merge_reasons sprint ix_text plain_text e = map text (leaves e).
Proof.
  fix IH 2. intros e H. destruct H as [n f ix r k|n f ix r p k|n f ix r n' es k F]; try reflexivity.
  cbn [merge_reasons leaves]. induction F as [|e es He F IHF]; [reflexivity|]. cbn [flat_map]. rewrite map_app, (IH e He), IHF. reflexivity.
Qed.
Lemma flat_all es : Forall flat es -> flat_map (merge_reasons sprint ix_text plain_text) es = map text (flat_map leaves es).
Proof. induction 1 as [|e es H F IH]; cbn; auto. now rewrite map_app, IH, flat_reasons. Qed.

Lemma chain_root e : chain e -> root_cause e = innermost e.
Proof. revert e. fix IH 1. intros [n f ix r [c|] k|n es|p] H; cbn; auto; inversion H; subst; apply IH; auto. Qed.

Section Case.
Variables (n : string) (d : msgdesc) (m : msgval).
Hypothesis M : message sc0 n d m.
Hypothesis Mb : md_methods d = MBoth.
Hypothesis Ig : ignored n = false.

Lemma checked_both : match find_msg sc n with Some d => md_methods d | None => MNone end = MBoth.
Proof.
  destruct st as [C _ _ _], M as [F _ _]. destruct (LangFacts.ck_find _ _ _ _ _ C F) as (d' & F' & C' & _). rewrite F'.
  destruct (check_msg_name _ _ _ _ C') as (_ & Md & _). congruence.
Qed.

Lemma disabled_valid : md_disabled d = true -> valid orc sc0 n m.
Proof.
  intros D n' m' d' R F' D'. exfalso. destruct M as [F _ _]. inversion R; subst; congruence.
Qed.

Lemma not_disabled m1 : message sc0 n d m1 -> ~ valid orc sc0 n m -> md_disabled d = false.
Proof. intros _ NV. destruct (md_disabled d) eqn:D; auto. exfalso. apply NV, disabled_valid, D. Qed.

Lemma go_cases m1 m2 : same_msg m m1 -> same_msg m m2 ->
  let x := go_harness sprint ix_text plain_text ignored sc orc n m1 m2 in
  (valid orc sc0 n m -> x = Some (Answer true false 0 false false)) /\
  (~ valid orc sc0 n m -> x = None \/ exists e k, x = Some (Answer false e k false false)).
Proof.
  intros S1 S2. cbn zeta. unfold go_harness, go_main. rewrite Ig, checked_both.
  assert (M1 := same_message sc0 n d _ _ M S1). assert (M2 := same_message sc0 n d _ _ M S2).
  assert (V1 : valid orc sc0 n m <-> valid orc sc0 n m1) by (destruct st, M; eapply valid_same; eauto).
  assert (V2 : valid orc sc0 n m <-> valid orc sc0 n m2) by (destruct st, M; eapply valid_same; eauto).
  split; intros V.
  - rewrite (proj2 (proj1 (run_verdict _ _ _ _ st n d false m1 M1)) (proj1 V1 V)), (proj2 (proj1 (run_verdict _ _ _ _ st n d true m2 M2)) (proj1 V2 V)).
    reflexivity.
  - assert (N1 : ~ valid orc sc0 n m1) by tauto. assert (N2 : ~ valid orc sc0 n m2) by tauto.
    apply (run_verdict _ _ _ _ st n d false m1 M1) in N1. destruct N1 as (e & ->).
    destruct (run_all_list _ _ _ _ st n d m2 M2 (not_disabled m2 M2 V)) as [[E _]|(es & _ & E & _)].
    { exfalso. apply V, V2. apply (run_verdict _ _ _ _ st n d true m2 M2). exact E. }
    rewrite E. cbn [go_error check_valid]. destruct (flat_map _ es) as [|r t]; [auto|].
    destruct (bytes_eqb _ _); unfold deliver, to_answer; cbn [tr_valid tr_error tr_reasons tr_allow tr_multi internal_error];
      destruct (forallb utf8b _); [right|left|right|left]; eauto.
Qed.

Lemma go_smooth : no_legacy sc0 -> ~ valid orc sc0 n m ->
  (forall g, validate sc orc true n m = VErr g -> Forall (fun e => valid_utf8 (text e)) (leaves g)) ->
  exists g, validate sc orc true n m = VErr g /\
    go_main sprint ix_text plain_text ignored sc orc n m m = Some (TestResult false false (map text (leaves g)) false false) /\
    go_harness sprint ix_text plain_text ignored sc orc n m m = Some (Answer false false (Z.of_nat (List.length (leaves g))) false false).
Proof.
  intros NL NV U. assert (NV' := NV). apply (run_verdict _ _ _ _ st n d false m M) in NV'. destruct NV' as (e & E).
  destruct (run_first _ _ _ _ st n d m e M E) as (g & t & G & L).
  assert (Ch := proj2 (run_shape _ _ _ _ st false n d m e M E) eq_refl).
  assert (Ex : explains orc sc0 true n m g).
  { destruct (run_ok _ _ _ _ st n d true m M) as (_ & _ & K). auto. }
  destruct (proj1 (explains_flat NL) true n m g Ex eq_refl) as (n' & es & -> & F).
  assert (Q : go_main sprint ix_text plain_text ignored sc orc n m m = Some (TestResult false false (map text (leaves (GMulti n' es))) false false)).
  { unfold go_main. rewrite Ig, checked_both, E, G. cbn [go_error check_valid].
    rewrite (flat_all es F). cbn [leaves] in L |- *. rewrite L. cbn [map]. rewrite (chain_root e Ch). fold text.
    replace (bytes_eqb (text (innermost e)) (text (innermost e))) with true by (symmetry; apply bytes_eqb_eq; reflexivity). reflexivity. }
  exists (GMulti n' es). split; [exact G|]. split; [exact Q|]. unfold go_harness. rewrite Q. unfold deliver.
  specialize (U _ G). assert (Fb : forallb utf8b (tr_reasons (TestResult false false (map text (leaves (GMulti n' es))) false false)) = true).
  { cbn [tr_reasons]. apply forallb_forall. intros s I. apply in_map_iff in I. destruct I as (x & <- & I). apply utf8b_valid.
    rewrite Forall_forall in U. auto. }
  rewrite Fb. unfold to_answer. cbn [tr_valid tr_error tr_reasons tr_allow tr_multi]. now rewrite map_length.
Qed.
End Case.
End Go.

(** ** All languages *)
Lemma same_msg_refl m : same_msg m m.
Proof.
  destruct m as [fs os]. constructor.
  - induction fs as [|[f v] fs IH]; constructor; auto. repeat constructor.
  - induction os as [|[o [[f v]|]] os IH]; constructor; auto; repeat constructor.
Qed.
Lemma deliver_some b e k a m : deliver (TestResult b e k a m) = None \/ deliver (TestResult b e k a m) = Some (Answer b e (Z.of_nat (List.length k)) a m).
Proof. unfold deliver. destruct (forallb utf8b _); auto. Qed.
Lemma deliver_utf8 b e k a m : Forall valid_utf8 k -> deliver (TestResult b e k a m) = Some (Answer b e (Z.of_nat (List.length k)) a m).
Proof.
  intros F. unfold deliver. cbn [tr_reasons]. replace (forallb utf8b k) with true; [reflexivity|].
  symmetry. apply forallb_forall. intros s I. rewrite Forall_forall in F. apply utf8b_valid; auto.
Qed.

Section All.
Variables (re_ok : bytes -> bool) (sc0 sc : schema) (orc : oracles).
Variables (jl : java_libs) (cl : cc_libs) (pl : py_libs) (pn : py_names).
Variables (sprint : list piece -> bytes) (ix_text : ixval -> bytes) (plain_text : GoSem.plain -> bytes).
Variable ignored : string -> bool.
Notation fit := (fit sc0 sc orc cl pl pn ignored re_ok).
Notation covered := (covered sc0 sc orc jl cl pl ignored).
Notation runs := (runs sc0 sc orc jl cl pl pn sprint ix_text plain_text ignored).
Notation smooth := (smooth sc0 sc orc jl cl pl pn sprint ix_text plain_text ignored).
Notation right_case := (right_case sc0 orc).

Lemma fit_checked h : fit h -> check_schema re_ok sc0 = Some sc /\ wf_schema sc0.
Proof. destruct h; intros []; auto. Qed.


(** Java, C++ and Python decide by the rules. *)
Lemma two_ways (o : outcome) (P Q : Prop) : (P <-> Q) -> (o = Passes <-> P) /\ (o = Rejects <-> ~ P) -> (exists e, o = e /\ (e = Passes \/ e = Rejects)) ->
  (Q /\ o = Passes) \/ (~ Q /\ o = Rejects).
Proof. intros E [A B] (e & -> & [->| ->]); [left|right]; intuition. Qed.

Lemma java_case t m1 fuel : fit LJava -> covered t LJava -> same_msg (c_msg t) m1 -> mheight m1 < fuel ->
  (valid orc sc0 (c_type t) (c_msg t) /\ assert_valid_f jl sc ignored fuel (c_type t) m1 = Passes) \/
  (~ valid orc sc0 (c_type t) (c_msg t) /\ assert_valid_f jl sc ignored fuel (c_type t) m1 = Rejects).
Proof.
  intros F (Ig & d & M & [J1 J2]) S H. destruct (fit_checked _ F) as [Ck W].
  assert (M1 := same_message sc0 _ d _ _ M S).
  assert (V1 : valid orc sc0 (c_type t) (c_msg t) <-> valid orc sc0 (c_type t) m1) by (destruct M; eapply valid_same; eauto).
  assert (JV : all_values sc (java_value sc orc jl) (c_type t) m1) by (eapply values_kept; eauto; apply java_value_same).
  assert (E := java_assert_valid_exact _ _ _ _ jl _ F _ d m1 M1 (mkJavaMessage _ _ _ _ _ _ J1 JV) fuel H).
  destruct F as [C0 W0 O JS]. destruct M1 as [F1 HM T1].
  eapply two_ways; [symmetry; exact V1|exact E|]. eexists. split; [reflexivity|].
  exact (Says.says_two _ _ (JavaRunFacts.assert_valid_says re_ok sc0 sc orc jl ignored C0 W0 O JS fuel _ d m1 F1 T1 JV Ig H)).
Qed.
Lemma cc_case t m1 fuel : fit LCc -> covered t LCc -> same_msg (c_msg t) m1 -> mheight m1 < fuel ->
  (valid orc sc0 (c_type t) (c_msg t) /\ cc_validate_f cl sc fuel (c_type t) m1 = Passes) \/
  (~ valid orc sc0 (c_type t) (c_msg t) /\ cc_validate_f cl sc fuel (c_type t) m1 = Rejects).
Proof.
  intros F (Ig & d & M & J2) S H. destruct (fit_checked _ F) as [Ck W].
  assert (M1 := same_message sc0 _ d _ _ M S).
  assert (V1 : valid orc sc0 (c_type t) (c_msg t) <-> valid orc sc0 (c_type t) m1) by (destruct M; eapply valid_same; eauto).
  assert (JV : cc_values sc orc cl (c_type t) m1) by (eapply values_kept; eauto; apply cc_value_same).
  assert (E := cc_validate_exact _ _ _ _ _ F _ d m1 M1 JV fuel H).
  destruct F as [C0 W0 O JS]. destruct M1 as [F1 HM T1].
  eapply two_ways; [symmetry; exact V1|exact E|]. eexists. split; [reflexivity|].
  exact (Says.says_two _ _ (CcRunFacts.cc_validate_says re_ok sc0 sc orc cl C0 W0 O JS fuel _ d m1 F1 T1 JV H)).
Qed.
Lemma py_case t m1 fuel : fit LPython -> covered t LPython -> same_msg (c_msg t) m1 -> mheight m1 < fuel ->
  (valid orc sc0 (c_type t) (c_msg t) /\ py_validate_f pl pn sc0 fuel (c_type t) m1 = Passes) \/
  (~ valid orc sc0 (c_type t) (c_msg t) /\ py_validate_f pl pn sc0 fuel (c_type t) m1 = Rejects).
Proof.
  intros F (Ig & d & M & J2) S H. destruct (fit_checked _ F) as [Ck W].
  assert (M1 := same_message sc0 _ d _ _ M S).
  assert (V1 : valid orc sc0 (c_type t) (c_msg t) <-> valid orc sc0 (c_type t) m1) by (destruct M; eapply valid_same; eauto).
  assert (JV : py_values sc orc pl (c_type t) m1) by (eapply values_kept; eauto; apply py_value_same).
  assert (E := py_validate_exact _ _ _ _ _ _ F _ d m1 M1 JV fuel H).
  assert (F' := F). destruct M1 as [F1 HM T1].
  eapply two_ways; [symmetry; exact V1|exact E|]. eexists. split; [reflexivity|].
  exact (Says.says_two _ _ (PyRunFacts.py_validate_says re_ok sc0 sc orc pl pn F fuel _ d m1 F1 T1 JV H)).
Qed.

(** What a harness answers. *)
Lemma answers t h x : fit h -> covered t h -> runs t h x ->
  x = None \/ exists v e k, x = Some (Answer v e k false false) /\ (v = true <-> valid orc sc0 (c_type t) (c_msg t)).
Proof.
  intros F C [R|R]; [auto|]. assert (Ig := proj1 C). destruct h.
  - destruct R as (m1 & m2 & S1 & S2 & ->). destruct C as (_ & d & M & B).
    destruct (go_cases re_ok sc0 sc orc F sprint ix_text plain_text ignored _ d _ M B Ig m1 m2 S1 S2) as [Y N].
    assert (D : valid orc sc0 (c_type t) (c_msg t) \/ ~ valid orc sc0 (c_type t) (c_msg t)).
    { destruct (run_verdict _ _ _ _ F _ d true _ M) as [A1 A2]. destruct (run_ok _ _ _ _ F _ d true _ M) as (NS & _).
      destruct (validate sc orc true (c_type t) (c_msg t)) as [|e|]; [left; now apply A1|right; apply A2; eauto|congruence]. }
    destruct D as [V|V].
    + right. exists true, false, 0%Z. rewrite (Y V). split; [reflexivity|tauto].
    + destruct (N V) as [E|(e & k & E)]; [auto|]. right. exists false, e, k. split; [exact E|]. split; [discriminate|tauto].
  - destruct R as (m1 & fuel & err & what & S & H & ->). rewrite Ig. cbn [negb]. unfold cc_harness, cc_main.
    destruct (cc_case t m1 fuel F C S H) as [[V ->]|[V ->]].
    + right. exists true, false, 1%Z. split; [reflexivity|tauto].
    + destruct (deliver_some false false [err] false false) as [E|E]; [auto|]. right. exists false, false, 1%Z. split; [exact E|]. split; [discriminate|tauto].
  - destruct R as (m1 & fuel & reason & S & H & ->). rewrite Ig. unfold java_harness, java_main. right.
    destruct (java_case t m1 fuel F C S H) as [[V ->]|[V ->]].
    + exists true, false, 0%Z. split; [reflexivity|tauto].
    + exists false, false, 1%Z. split; [reflexivity|]. split; [discriminate|tauto].
  - destruct R as (m1 & fuel & reason & S & H & ->). unfold py_harness, py_main.
    destruct (py_case t m1 fuel F C S H) as [[V ->]|[V ->]].
    + right. exists true, false, 0%Z. split; [reflexivity|tauto].
    + destruct (utf8b _); [|auto]. right. exists false, false, 1%Z. split; [reflexivity|]. split; [discriminate|tauto].
Qed.

Lemma smooth_answers t h x : (h = LGo -> no_legacy sc0) -> fit h -> covered t h -> smooth t h x ->
  exists v k, x = Some (Answer v false k false false) /\ (v = true <-> valid orc sc0 (c_type t) (c_msg t)).
Proof.
  intros NL F C R. assert (Ig := proj1 C). destruct h.
  - destruct R as (m1 & S & U & ->). destruct C as (_ & d & M & B).
    assert (M1 := same_message sc0 _ d _ _ M S).
    assert (V1 : valid orc sc0 (c_type t) (c_msg t) <-> valid orc sc0 (c_type t) m1) by (destruct F, M; eapply valid_same; eauto).
    destruct (go_cases re_ok sc0 sc orc F sprint ix_text plain_text ignored _ d _ M1 B Ig m1 m1 (same_msg_refl m1) (same_msg_refl m1)) as [Y N].
    destruct (validate sc orc true (c_type t) m1) as [|e|] eqn:E.
    + exists true, 0%Z. rewrite Y; [|apply (run_verdict _ _ _ _ F _ d true _ M1); exact E].
      split; [reflexivity|]. split; [|reflexivity]. intros _. apply V1, (run_verdict _ _ _ _ F _ d true _ M1), E.
    + assert (NV : ~ valid orc sc0 (c_type t) m1) by (apply (run_verdict _ _ _ _ F _ d true _ M1); eauto).
      destruct (go_smooth re_ok sc0 sc orc F sprint ix_text plain_text ignored _ d _ M1 B Ig (NL eq_refl) NV) as (g & G & _ & H).
      { intros g' E'. apply U. congruence. }
      rewrite H. exists false. eexists. split; [reflexivity|]. split; [discriminate|tauto].
    + destruct (run_ok _ _ _ _ F _ d true _ M1) as (NS & _). congruence.
  - destruct R as (m1 & fuel & err & what & S & H & U & ->). rewrite Ig. cbn [negb]. unfold cc_harness, cc_main.
    destruct (cc_case t m1 fuel F C S H) as [[V ->]|[V ->]].
    + exists true, 1%Z. split; [reflexivity|tauto].
    + rewrite deliver_utf8; [|repeat constructor; exact U]. exists false, 1%Z. split; [reflexivity|]. split; [discriminate|tauto].
  - destruct R as (m1 & fuel & reason & S & H & ->). rewrite Ig. unfold java_harness, java_main.
    destruct (java_case t m1 fuel F C S H) as [[V ->]|[V ->]].
    + exists true, 0%Z. split; [reflexivity|tauto].
    + exists false, 1%Z. split; [reflexivity|]. split; [discriminate|tauto].
  - destruct R as (m1 & fuel & reason & S & H & U & L & ->).
    destruct (py_case t m1 fuel F C S H) as [[V ->]|[V ->]].
    + exists true, 0%Z. split; [reflexivity|tauto].
    + rewrite py_delivers by auto. exists false, 1%Z. split; [reflexivity|]. split; [discriminate|tauto].
Qed.

(** ** A whole run *)
Lemma filter_none {A} (p : A -> bool) l : List.length (filter p l) = 0 <-> Forall (fun x => p x = false) l.
Proof.
  induction l as [|a l IH]; cbn; [intuition|]. rewrite Forall_cons_iff, <- IH. destruct (p a); cbn; intuition discriminate.
Qed.
Lemma filter_every {A} (p : A -> bool) l : Forall (fun x => p x = true) l -> List.length (filter p l) = List.length l.
Proof. induction 1 as [|a l H _ IH]; cbn; auto. rewrite H. cbn. now rewrite IH. Qed.

Variable encodes : tcase -> bool.
Notation possible ex := (possible tcase lang c_failures ex).
Notation report ex := (report tcase lang encodes c_failures ex).

Lemma report_length hs ts (js : list (job tcase lang)) : Permutation js (flat_map (jobs _ _ encodes hs) ts) -> (forall t, In t ts -> encodes t = true) ->
  List.length js = List.length ts * List.length hs.
Proof.
  intros P En. rewrite (Permutation_length P). clear - En. induction ts as [|t ts IH]; cbn; auto.
  rewrite app_length, IH by (intros; apply En; now right). unfold jobs. rewrite (En t (or_introl eq_refl)), map_length. reflexivity.
Qed.

(** Without failures every case is right. *)
Lemma report_green hs ts l : hs <> [] -> report runs hs ts l -> failed _ _ l = 0 ->
  (forall h, In h hs -> fit h) -> (forall t h, In t ts -> In h hs -> covered t h) -> 
  Forall right_case ts /\ skips _ _ l = 0 /\ successes _ _ l = List.length ts * List.length hs.
Proof.
  intros NH [P F] G Fit Cov. apply filter_none in G.
  assert (J : forall t h, In t ts -> In h hs -> encodes t = true -> In (t, Some h) (map fst l)).
  { intros t h It Ih E. apply (Permutation_in _ (Permutation_sym P)). apply in_flat_map. exists t. split; [exact It|].
    unfold jobs. rewrite E. apply in_map_iff. eauto. }
  assert (B : forall j r, In (j, r) l -> exists t, In t ts /\ In j (jobs _ _ encodes hs t)).
  { intros j r I. assert (K : In j (map fst l)) by (apply in_map_iff; exists (j, r); auto). apply (Permutation_in _ P) in K. now apply in_flat_map in K. }
  rewrite Forall_forall in F, G.
  assert (En : forall t, In t ts -> encodes t = true).
  { intros t It. destruct (encodes t) eqn:E; auto. exfalso.
    assert (K : In (t, None) (map fst l)).
    { apply (Permutation_in _ (Permutation_sym P)). apply in_flat_map. exists t. split; [exact It|]. unfold jobs. rewrite E. now left. }
    apply in_map_iff in K. destruct K as ([j r] & Ej & I). cbn in Ej. subst j. assert (Q := F _ I). cbn in Q. subst r. now specialize (G _ I). }
  assert (R : forall t h r, In ((t, Some h), r) l -> In t ts /\ In h hs).
  { intros t h r I. destruct (B _ _ I) as (t' & It & Ij). unfold jobs in Ij. rewrite (En t' It) in Ij. apply in_map_iff in Ij.
    destruct Ij as (h' & [= <- <-] & Ih). auto. }
  assert (Sk : forall x, In x l -> r_skipped (snd x) = false).
  { intros [[t [h|]] r] I; cbn [snd].
    - destruct (R _ _ _ I) as [It Ih]. destruct (F _ I) as (e & X & ->).
      destruct (answers t h e (Fit h Ih) (Cov t h It Ih) X) as [->|(v & er & k & -> & _)]; [reflexivity|].
      unfold verdict. cbn. destruct er; [reflexivity|]. now destruct (negb (Bool.eqb v _)).
    - assert (Q := F _ I). cbn in Q. now subst r. }
  split.
  - apply Forall_forall. intros t It. destruct hs as [|h hs]; [congruence|].
    assert (I := J t h It (or_introl eq_refl) (En t It)). apply in_map_iff in I. destruct I as ([j r] & Ej & I). cbn in Ej. subst j.
    destruct (F _ I) as (e & X & Er). assert (G1 := G _ I). assert (S1 := Sk _ I). cbn [snd] in G1, S1.
    rewrite S1 in G1. cbn in G1. apply negb_false_iff in G1. subst r.
    destruct (answers t h e (Fit h (or_introl eq_refl)) (Cov t h It (or_introl eq_refl)) X) as [->|(v & er & k & -> & V)]; [discriminate G1|].
    destruct er; [discriminate G1|]. unfold right_case. rewrite <- V. symmetry. apply (plain_success (c_failures t) v k).
    destruct (verdict (c_failures t) (Some (Answer v false k false false))) as [ok sk]; cbn in G1, S1. congruence.
  - split; [unfold skips; apply filter_none, Forall_forall; exact Sk|]. rewrite <- (report_length hs ts (map fst l) P En), map_length.
    apply filter_every, Forall_forall. intros x I. specialize (G x I). rewrite (Sk x I) in G |- *. cbn in G |- *. now apply negb_false_iff in G.
Qed.

(** Right cases give no failures. *)
Lemma report_smooth hs ts l : report smooth hs ts l -> Forall right_case ts -> (forall t, In t ts -> encodes t = true) ->
  (In LGo hs -> no_legacy sc0) -> (forall h, In h hs -> fit h) -> (forall t h, In t ts -> In h hs -> covered t h) ->
  successes _ _ l = List.length ts * List.length hs /\ failed _ _ l = 0 /\ skips _ _ l = 0.
Proof.
  intros [P F] Rt En NL Fit Cov. rewrite Forall_forall in F, Rt.
  assert (Ok : Forall (fun x => snd x = Result true false) l).
  { apply Forall_forall. intros [j r] I. cbn [snd].
    assert (K : In j (map fst l)) by (apply in_map_iff; exists (j, r); auto). apply (Permutation_in _ P) in K.
    apply in_flat_map in K. destruct K as (t & It & Ij). unfold jobs in Ij. rewrite (En t It) in Ij. apply in_map_iff in Ij.
    destruct Ij as (h & <- & Ih). destruct (F _ I) as (e & X & ->).
    destruct (smooth_answers t h e) as (v & k & -> & V); auto; [intros ->; auto|].
    apply plain_success. rewrite V. symmetry. exact (Rt t It). }
  assert (L := report_length hs ts (map fst l) P En). rewrite map_length in L.
  unfold successes, failed, skips. rewrite <- L. split; [|split].
  - apply filter_every. eapply Forall_impl; [|exact Ok]. cbn. intros x ->. reflexivity.
  - apply filter_none. eapply Forall_impl; [|exact Ok]. cbn. intros x ->. reflexivity.
  - apply filter_none. eapply Forall_impl; [|exact Ok]. cbn. intros x ->. reflexivity.
Qed.
End All.

(** ** Runs with fewer outcomes *)
Section Mono.
Variables (case harness : Type) (encodes : case -> bool) (failures : case -> Z) (hs : list harness).
Variables ex ex' : case -> harness -> execution -> Prop.
Lemma steps_mono : (forall t h x, ex t h x -> ex' t h x) -> forall s s',
  steps case harness encodes failures ex hs s s' -> steps case harness encodes failures ex' hs s s'.
Proof.
  intros L s s' H. induction H as [s|s s1 s2 _ IH St]; [apply steps_refl|]. apply (steps_next _ _ _ _ _ _ _ _ _ IH).
  clear - L St. remember (Some s2) as o eqn:E. rewrite E in *. clear E. destruct St; try (econstructor; eauto; fail).
Qed.
End Mono.

