(** A message with one field or one oneof: the consequences of the theorems on whole messages that
    PropField.v states. *)
From Coq Require Import Lia Floats.SpecFloat.
From Verif Require Import Base Utf8 Num Rules Types Time Iface Checker GoGen GoSem Spec SpecErr Meaning Wt Setting MainFacts
  BaseFacts NumFacts TimeFacts ExecFacts ExecMsg Main ValidSame MeaningFacts.

(** The message type "M" has a single field "F"; any other message types and enums may exist. *)
Definition with_field (ms : list msgdesc) (es : list enumdesc) (top : list string) (t : ftype) (fr : field_rules) : schema :=
  mkSchema (mkMsg "M" [mkField "F" t fr] [] false MBoth :: ms) es ("M"%string :: top).
Definition one (v : value) : msgval := MV [("F"%string, v)] [].

(** The message type "M" has a single oneof "O". *)
Definition with_oneof (ms : list msgdesc) (es : list enumdesc) (top : list string) (fs : list field) (req : option bool) : schema :=
  mkSchema (mkMsg "M" [] [mkOneof "O" fs req] false MBoth :: ms) es ("M"%string :: top).
Definition choice (c : option (string * value)) : msgval := MV [] [("O"%string, c)].

Lemma wf_nodup sc : wf_schema sc -> forall d, In d (sc_msgs sc) -> NoDup (map f_name (all_fields d)).
Proof. intros H d Hd. apply H in Hd. apply Hd. Qed.

Lemma meant_step orc sc n m d : find_msg sc n = Some d -> md_disabled d = false ->
  (meant orc sc n m <-> msg_meaning orc sc d m /\ forall n1 m1, msg_embeds sc d m n1 m1 -> meant orc sc n1 m1).
Proof.
  intros Hd Ed. unfold meant. split.
  - intros H. split; [apply (H n m d); auto; constructor|]. intros n1 m1 E n' m' d' I. apply (H n' m' d'). eapply includes_down; eauto.
  - intros [A B] n' m' d' I. inversion I; subst.
    + intros H1 H2. assert (d' = d) by congruence. now subst.
    + match goal with H1 : find_msg sc n = Some ?x |- _ => assert (x = d) by congruence; subst x end. eapply B; eauto.
Qed.

Section S.
Variables (re_ok : bytes -> bool) (sc0 sc : schema) (orc : oracles).
Hypothesis st : setting re_ok sc0 sc orc.

Lemma run_meant all n d m : message sc0 n d m -> (validate sc orc all n m = VNil <-> meant orc sc0 n m).
Proof.
  intros M. rewrite (proj1 (run_verdict _ _ _ _ st n d all m M)). destruct st.
  eapply valid_meant; eauto. now apply wf_nodup.
Qed.
End S.

Section F.
Variables (re_ok : bytes -> bool) (ms : list msgdesc) (es : list enumdesc) (top : list string).
Variables (sc : schema) (orc : oracles).

Lemma one_message t fr v : wt_field (with_field ms es top t fr) t v ->
  message (with_field ms es top t fr) "M" (mkMsg "M" [mkField "F" t fr] [] false MBoth) (one v).
Proof.
  intros W. constructor; [reflexivity|reflexivity|]. constructor; [|constructor]. constructor; [|constructor].
  apply (wt_nm _ (mkField "F" t fr)). exact W.
Qed.

Lemma run_one all t fr v : setting re_ok (with_field ms es top t fr) sc orc -> wt_field (with_field ms es top t fr) t v ->
  (validate sc orc all "M" (one v) = VNil <->
   field_meaning orc (with_field ms es top t fr) (mkField "F" t fr) v /\
   forall n m, field_embeds (with_field ms es top t fr) (mkField "F" t fr) v n m -> meant orc (with_field ms es top t fr) n m).
Proof.
  intros st W. rewrite (run_meant _ _ _ _ st all _ _ _ (one_message t fr v W)).
  rewrite (meant_step orc (with_field ms es top t fr) "M" (one v) (mkMsg "M" [mkField "F" t fr] [] false MBoth) eq_refl eq_refl).
  set (s0 := with_field ms es top t fr). unfold msg_meaning, msg_embeds. cbn [md_fields md_oneofs].
  split.
  - intros [(A & _) B]. split; [apply A; [left|]; reflexivity|]. intros n m E. apply B. left. exists (mkField "F" t fr), v. repeat split; auto. left; auto.
  - intros [A B]. split; [split; [|split]|].
    + intros f v' [<-|[]] [= <-]. exact A.
    + intros o [].
    + intros o f w [].
    + intros n1 m1 [(f & v' & [<-|[]] & [= <-] & E)|(o & f & w & [] & _)]. now apply B.
Qed.

(** No embedded messages to look at. *)
Definition plain_t (t : ftype) : bool :=
  let p e := match e with TMsg _ => false | _ => true end in
  match t with FOne e | FRep e => p e | FMap k v => p k && p v end.

Lemma plain_embeds s f v n m : plain_t (f_type f) = true -> ~ field_embeds s f v n m.
Proof.
  unfold field_embeds, elem_embeds. destruct f as [nm t fr]. cbn [f_type f_rules]. destruct t as [e|e|k w]; cbn [plain_t].
  - intros P (-> & _). discriminate.
  - intros P. destruct v; auto. intros (x & _ & -> & _). discriminate.
  - intros P. destruct v; auto. intros (x & y & _ & [(-> & _)|(-> & _)]); [discriminate|]. destruct k; discriminate.
Qed.

Lemma run_plain all t fr v : plain_t t = true -> setting re_ok (with_field ms es top t fr) sc orc -> wt_field (with_field ms es top t fr) t v ->
  (validate sc orc all "M" (one v) = VNil <-> field_meaning orc (with_field ms es top t fr) (mkField "F" t fr) v).
Proof.
  intros P st W. rewrite (run_one all t fr v st W). split; [tauto|]. intros H. split; auto.
  intros n m E. exfalso. eapply plain_embeds; eauto. exact P.
Qed.

Lemma choice_message fs req c : match c with None => True | Some (fn, v) => exists f, In f fs /\ fn = f_name f /\ wt_field (with_oneof ms es top fs req) (f_type f) v end ->
  message (with_oneof ms es top fs req) "M" (mkMsg "M" [] [mkOneof "O" fs req] false MBoth) (choice c).
Proof.
  intros W. constructor; [reflexivity|reflexivity|]. constructor; [constructor|]. constructor; [|constructor].
  destruct c as [[fn v]|].
  - destruct W as (f & Hf & -> & W). apply (wt_set _ (mkOneof "O" fs req)); auto.
  - apply (wt_unset _ (mkOneof "O" fs req)).
Qed.

Lemma run_unset all fs req : setting re_ok (with_oneof ms es top fs req) sc orc ->
  (validate sc orc all "M" (choice None) = VNil <-> req <> Some true).
Proof.
  intros st. rewrite (run_meant _ _ _ _ st all _ _ _ (choice_message fs req None I)).
  rewrite (meant_step orc (with_oneof ms es top fs req) "M" (choice None) (mkMsg "M" [] [mkOneof "O" fs req] false MBoth) eq_refl eq_refl).
  unfold msg_meaning, msg_embeds. cbn [md_fields md_oneofs]. split.
  - intros [(_ & A & _) _]. apply (A (mkOneof "O" fs req)); [left|]; reflexivity.
  - intros H. split; [split; [|split]|].
    + intros f v [].
    + intros o [<-|[]] _. exact H.
    + intros o f v [<-|[]] _. discriminate.
    + intros n1 m1 [(f & v & [] & _)|(o & f & v & [<-|[]] & _ & E & _)]. discriminate.
Qed.

Lemma run_set all fs req f v : setting re_ok (with_oneof ms es top fs req) sc orc -> In f fs ->
  wt_field (with_oneof ms es top fs req) (f_type f) v ->
  (validate sc orc all "M" (choice (Some (f_name f, v))) = VNil <->
   field_meaning orc (with_oneof ms es top fs req) f v /\
   forall n m, field_embeds (with_oneof ms es top fs req) f v n m -> meant orc (with_oneof ms es top fs req) n m).
Proof.
  intros st Hf W.
  assert (M : message (with_oneof ms es top fs req) "M" (mkMsg "M" [] [mkOneof "O" fs req] false MBoth) (choice (Some (f_name f, v))))
    by (apply choice_message; eauto).
  rewrite (run_meant _ _ _ _ st all _ _ _ M).
  rewrite (meant_step orc (with_oneof ms es top fs req) "M" (choice (Some (f_name f, v))) (mkMsg "M" [] [mkOneof "O" fs req] false MBoth) eq_refl eq_refl).
  assert (ND : NoDup (map f_name fs)).
  { destruct (set_wf _ _ _ _ st (mkMsg "M" [] [mkOneof "O" fs req] false MBoth) (or_introl eq_refl)) as [[ND _] _].
    unfold all_fields in ND. cbn in ND. now rewrite app_nil_r in ND. }
  assert (U : forall g, In g fs -> f_name g = f_name f -> g = f).
  { intros g Hg E. clear - ND Hf Hg E. induction fs as [|x t IH]; [contradiction|]. cbn in ND. apply NoDup_cons_iff in ND. destruct ND as [N1 N2].
    destruct Hf as [<-|Hf], Hg as [<-|Hg]; auto; exfalso; apply N1; [rewrite <- E|rewrite E]; now apply in_map. }
  unfold msg_meaning, msg_embeds. cbn [md_fields md_oneofs]. split.
  - intros [(_ & _ & A) B]. split.
    + apply (A (mkOneof "O" fs req)); auto. left; auto.
    + intros n m E. apply B. right. exists (mkOneof "O" fs req), f, v. repeat split; auto. left; auto.
  - intros [A B]. split; [split; [|split]|].
    + intros g w [].
    + intros o [<-|[]]. discriminate.
    + intros o g w [<-|[]] Hg E. injection E as E <-. cbn [o_fields] in Hg. now rewrite (U g Hg (eq_sym E)).
    + intros n1 m1 [(g & w & [] & _)|(o & g & w & [<-|[]] & Hg & E & K)]. injection E as E <-. rewrite (U g Hg (eq_sym E)) in K. auto.
Qed.
End F.

(** * Equal requirements, equal reports *)

(** What an error says, without its cause. *)
Definition says (e : gerr) : string * (string * (option ixval * list piece)) :=
  match e with
  | GErr n f ix r _ _ => (n, (f, (ix, r)))
  | GMulti n _ => (n, (""%string, (None, [])))
  | GPlain _ => (""%string, (""%string, (None, [])))
  end.
Definition report (r : vres) : list (string * (string * (option ixval * list piece))) :=
  match r with
  | VErr (GMulti _ es) => map says es
  | VErr e => [says e]
  | _ => []
  end.

Lemma explains_list_says orc orc' sc sc' n l : forall es es',
  explains_list orc sc n l es -> explains_list orc' sc' n l es' -> map says es = map says es'.
Proof.
  induction l as [|[f [ix r]] t IH]; intros es es' H H'.
  - inversion H; inversion H'; subst; reflexivity.
  - inversion H; inversion H'; subst; try contradiction; auto. cbn. f_equal. auto.
Qed.

Lemma first_bad_unique (l1 l1' l2 l2' : list (string * (option ixval * req))) x x' :
  l1 ++ x :: l2 = l1' ++ x' :: l2' ->
  Forall (fun i => rq_holds (snd (snd i))) l1 -> Forall (fun i => rq_holds (snd (snd i))) l1' ->
  ~ rq_holds (snd (snd x)) -> ~ rq_holds (snd (snd x')) -> x = x'.
Proof.
  revert l1'. induction l1 as [|a t IH]; intros [|a' t'] E F F' N N'; cbn in E; injection E as E1 E2; auto.
  - subst. apply Forall_cons_iff in F'. tauto.
  - subst. apply Forall_cons_iff in F. tauto.
  - apply Forall_cons_iff in F, F'. apply (IH t'); tauto.
Qed.

Lemma same_report re_ok re_ok' sc0 sc0' sc sc' orc n d d' m m' :
  setting re_ok sc0 sc orc -> setting re_ok' sc0' sc' orc ->
  message sc0 n d m -> message sc0' n d' m' -> md_disabled d = false -> md_disabled d' = false ->
  full_reqs orc sc0 d m = full_reqs orc sc0' d' m' ->
  forall all, report (validate sc orc all n m) = report (validate sc' orc all n m').
Proof.
  intros st st' M M' D D' E. destruct all.
  - destruct (run_all_list _ _ _ _ st _ _ _ M D) as [[R L]|(es & _ & R & L)],
      (run_all_list _ _ _ _ st' _ _ _ M' D') as [[R' L']|(es' & _ & R' & L')]; rewrite R, R'; cbn [report]; rewrite E in L.
    + reflexivity.
    + apply (explains_list_says _ _ _ _ _ _ _ _ L L').
    + apply (explains_list_says _ _ _ _ _ _ _ _ L L').
    + apply (explains_list_says _ _ _ _ _ _ _ _ L L').
  - assert (A : forall re s0 s dd mm, setting re s0 s orc -> message s0 n dd mm -> md_disabled dd = false ->
        validate s orc false n mm = VNil -> Forall (fun i => rq_holds (snd (snd i))) (full_reqs orc s0 dd mm)).
    { intros re s0 s dd mm S0 Ms Ed R. apply (run_verdict _ _ _ _ S0 _ _ _ _ Ms) in R.
      apply (valid_step orc s0 n mm dd (msg_decl _ _ _ _ Ms)) in R. destruct R as [R|R]; [congruence|exact R]. }
    assert (B : forall re s0 s dd mm e, setting re s0 s orc -> message s0 n dd mm ->
        validate s orc false n mm = VErr e -> ~ Forall (fun i => rq_holds (snd (snd i))) (full_reqs orc s0 dd mm)).
    { intros re s0 s dd mm e S0 Ms R F. destruct (run_first_error _ _ _ _ S0 _ _ _ _ Ms R) as (l1 & f & ix & r & l2 & c & El & _ & N & _).
      rewrite El in F. apply Forall_app in F. destruct F as [_ F]. apply Forall_cons_iff in F. tauto. }
    destruct (validate sc orc false n m) as [|e|] eqn:R; destruct (validate sc' orc false n m') as [|e'|] eqn:R'; try reflexivity.
    all: try (exfalso; destruct (run_ok _ _ _ _ st _ _ false _ M) as [K _]; exact (K R)).
    all: try (exfalso; destruct (run_ok _ _ _ _ st' _ _ false _ M') as [K _]; exact (K R')).
    + exfalso. apply (B _ _ _ _ _ _ st' M' R'). rewrite <- E. eapply A; eauto.
    + exfalso. apply (B _ _ _ _ _ _ st M R). rewrite E. eapply A; eauto.
    + destruct (run_first_error _ _ _ _ st _ _ _ _ M R) as (l1 & f & ix & r & l2 & c & El & F & N & -> & _).
      destruct (run_first_error _ _ _ _ st' _ _ _ _ M' R') as (l1' & f' & ix' & r' & l2' & c' & El' & F' & N' & -> & _).
      rewrite El, El' in E. assert (K := first_bad_unique _ _ _ _ _ _ E F F' N N'). injection K as -> -> ->. reflexivity.
Qed.

Lemma report_nil re_ok sc0 sc orc all n d m : setting re_ok sc0 sc orc -> message sc0 n d m -> md_disabled d = false ->
  (report (validate sc orc all n m) = [] <-> validate sc orc all n m = VNil).
Proof.
  intros st M D. split; [|intros ->; reflexivity]. intros H. destruct all.
  - destruct (run_all_list _ _ _ _ st _ _ _ M D) as [[R L]|(es & N & R & L)]; auto. rewrite R in H. cbn in H. destruct es; [congruence|discriminate].
  - destruct (validate sc orc false n m) as [|e|] eqn:R; auto.
    + destruct (run_first_error _ _ _ _ st _ _ _ _ M R) as (l1 & f & ix & r & l2 & c & El & F & N & -> & _). discriminate.
    + exfalso. destruct (run_ok _ _ _ _ st _ _ false _ M) as [K _]. exact (K R).
Qed.

Lemma one_reqs orc s t fr v : full_reqs orc s (mkMsg "M" [mkField "F" t fr] [] false MBoth) (one v) =
  map (fun r => ("F"%string, r)) (field_reqs orc s (valid orc s) (mkField "F" t fr) v).
Proof. unfold full_reqs, msg_reqs, one. cbn. now rewrite !app_nil_r. Qed.
