(** The generated Validate and ValidateAll against the specification, for whole schemas. *)
From Coq Require Import Lia ZifyBool ZifyN ZifyNat.
From Verif Require Import Base Utf8 Num Rules Types Time Iface Checker GoIR GoGen Regex Known GoSem
  Spec SpecErr Wt ExecFacts ExecLeaf ExecRule ExecField ExecMsg.

(** ** Embedded requirements *)
Definition not_emb (r : req) : Prop := match rq_cause r with Embedded _ _ => False | _ => True end.

Lemma ne_nil : Forall not_emb []. Proof. constructor. Qed.
Lemma ne_when {A} (o : option A) q : (forall a, not_emb (q a)) -> Forall not_emb (when o q).
Proof. destruct o; cbn; auto. Qed.
Lemma ne_whenb b l : Forall not_emb l -> Forall not_emb (whenb b l).
Proof. destruct b; cbn; auto. Qed.
Lemma ne_when_ne o q : (forall a, not_emb (q a)) -> Forall not_emb (when_ne o q).
Proof. destruct o as [[|]|]; cbn; auto. Qed.
Lemma ne_in {A} (eq : A -> Prop) a b pr : Forall not_emb (in_reqs eq a b pr).
Proof. unfold in_reqs. destruct a, b; repeat constructor. Qed.

Lemma ne_len c u a b d : Forall not_emb (len_reqs c u a b d).
Proof. unfold len_reqs. destruct a, b, d; try destruct (N.eqb _ _); repeat constructor. Qed.
Lemma ne_wk orc w s : Forall not_emb (wk_reqs orc w s).
Proof. destruct w as [[[]|[]|[]|[]|[]|[]|[]|[]|[]|?]|]; repeat constructor. Qed.
Lemma ne_regex orc r s : Forall not_emb (regex_reqs orc r s).
Proof.
  unfold regex_reqs. destruct (s_pattern r); [repeat constructor|]. destruct (s_wk r) as [[]|]; try constructor.
  destruct k; repeat constructor.
Qed.

Ltac ne := repeat first
  [ apply ne_nil | apply ne_in | apply ne_len | apply ne_wk | apply ne_regex
  | apply Forall_app; split | apply ne_whenb
  | apply ne_when; intros | apply ne_when_ne; intros
  | constructor; [exact I|] | exact I
  | match goal with |- Forall _ (if ?b then _ else _) => destruct b end
  | match goal with |- Forall _ (match ?b with _ => _ end) => destruct b end ].

Lemma ne_checks r l : not_emb r -> Forall not_emb l -> Forall not_emb (match l with [] => [] | _ => r :: l end).
Proof. destruct l; auto. Qed.

Lemma rule_not_emb orc sc e r v : Forall not_emb (rule_reqs orc sc e r v).
Proof.
  unfold rule_reqs. destruct r, v; try apply ne_nil.
  - unfold num_reqs. ne.
  - unfold bool_reqs. ne.
  - unfold str_reqs. ne.
  - unfold byt_reqs. ne.
  - unfold enum_reqs. ne.
  - unfold any_reqs, required_reqs. ne.
  - unfold dur_reqs, required_reqs. apply Forall_app; split; [ne|]. destruct d; [|constructor]. cbv zeta. apply ne_checks; [exact I|]. ne.
  - unfold ts_reqs, required_reqs. apply Forall_app; split; [ne|]. destruct t; [|constructor]. cbv zeta. apply ne_checks; [exact I|]. unfold now_reqs. ne.
Qed.

(** Two readings of the embedded messages. *)
Section TwoReadings.
Variable orc : oracles.
Variable sc : schema.
Variable P Q : string -> msgval -> Prop.

Definition two (a b : req) : Prop :=
  rq_reason a = rq_reason b /\ rq_cause a = rq_cause b /\
  match rq_cause a with
  | Embedded n m => rq_holds a = P n m /\ rq_holds b = Q n m
  | _ => rq_holds a = rq_holds b
  end.

Lemma two_same l : Forall not_emb l -> Forall2 two l l.
Proof.
  induction 1 as [|r l H _ IH]; constructor; auto. unfold two, not_emb in *.
  destruct (rq_cause r); auto; contradiction.
Qed.

Lemma two_elem e fr v : Forall2 two (elem_reqs orc sc P e fr v) (elem_reqs orc sc Q e fr v).
Proof.
  destruct fr as [mr [r|]]; cbn [elem_reqs].
  - destruct e; try apply two_same, rule_not_emb. destruct v as [| | | | | |[]| | | | |]; try apply two_same, rule_not_emb.
    destruct (required mr); cbn; repeat constructor.
  - destruct (is_embed e); [|constructor]. unfold message_reqs. apply Forall2_app.
    + destruct (required mr); cbn; repeat constructor.
    + destruct (negb (skipped mr)); cbn [whenb]; [|constructor].
      destruct e; try constructor. destruct v as [| | | | |[]| | | | | |]; try constructor.
      destruct (validated_type _ _); cbn; repeat constructor.
Qed.

Definition two_t (a b : option ixval * req) : Prop := fst a = fst b /\ two (snd a) (snd b).
Definition two_i (a b : item) : Prop := fst a = fst b /\ two_t (snd a) (snd b).

Lemma two_tag ix l l' : Forall2 two l l' -> Forall2 two_t (tag ix l) (tag ix l').
Proof. induction 1; constructor; auto. split; auto. Qed.

Lemma two_tag_same ix l : Forall not_emb l -> Forall2 two_t (tag ix l) (tag ix l).
Proof. intros. now apply two_tag, two_same. Qed.

Lemma count_not_emb n a b o p : Forall not_emb (count_reqs n a b o p).
Proof. unfold count_reqs. ne. Qed.

Lemma two_items e u fr l : forall ea i,
  Forall2 two_t (items_reqs orc sc P e u fr ea i l) (items_reqs orc sc Q e u fr ea i l).
Proof.
  induction l as [|x t IH]; intros; cbn [items_reqs]; [constructor|]. apply Forall2_app; [|apply IH].
  apply two_tag. apply Forall2_app; [apply two_same; ne|apply two_elem].
Qed.

Lemma two_field f v : Forall2 two_t (field_reqs orc sc P f v) (field_reqs orc sc Q f v).
Proof.
  assert (R : forall e r l, Forall2 two_t (rep_reqs orc sc P e r l) (rep_reqs orc sc Q e r l)).
  { intros. unfold rep_reqs. destruct (_ && _); [constructor|]. apply Forall2_app; [apply two_tag_same, count_not_emb|apply two_items]. }
  assert (M : forall k w r l, Forall2 two_t (map_reqs orc sc P k w r l) (map_reqs orc sc Q k w r l)).
  { intros. unfold map_reqs. destruct (_ && _); [constructor|]. apply Forall2_app; [apply two_tag_same, count_not_emb|].
    induction l as [|p t IH]; cbn [flat_map]; [constructor|]. apply Forall2_app; [|apply IH].
    apply two_tag. apply Forall2_app; [apply two_same; ne|apply Forall2_app; apply two_elem]. }
  unfold field_reqs. destruct (f_type f).
  - apply two_tag, two_elem.
  - destruct v; try constructor. destruct (fr_typ _) as [[]|]; apply R.
  - destruct v; try constructor. destruct (fr_typ _) as [[]|]; apply M.
Qed.

Lemma two_named n l l' : Forall2 two_t l l' -> Forall2 two_i (map (fun r => (n, r)) l) (map (fun r => (n, r)) l').
Proof. induction 1; constructor; auto. split; auto. Qed.

Lemma Forall2_flat_map {A B} (R : B -> B -> Prop) (f g : A -> list B) l :
  (forall x, Forall2 R (f x) (g x)) -> Forall2 R (flat_map f l) (flat_map g l).
Proof. intros H. induction l; cbn; [constructor|apply Forall2_app; auto]. Qed.

Lemma two_msg d m : Forall2 two_i (msg_reqs orc sc P d m) (msg_reqs orc sc Q d m).
Proof.
  unfold msg_reqs. apply Forall2_app; apply Forall2_flat_map.
  - intros f. destruct (assoc _ _); [apply two_named, two_field|constructor].
  - intros o. destruct (assoc _ _) as [[[fn v]|]|]; [| |constructor]; cbn [oneof_reqs].
    + destruct (find _ _); [apply two_named, two_field|constructor].
    + destruct (getb _); repeat constructor.
Qed.
End TwoReadings.

(** ** Unfolding validity *)
Section Validity.
Variable orc : oracles.
Variable sc : schema.

Lemma valid_step n m d : find_msg sc n = Some d ->
  (valid orc sc n m <-> md_disabled d = true \/ Forall it_holds (msg_reqs orc sc (valid orc sc) d m)).
Proof.
  intros Hd. assert (T := two_msg orc sc (valid orc sc) (fun _ _ => True) d m). split.
  - intros V. destruct (md_disabled d) eqn:Ed; [auto|right]. apply Forall_forall. intros [f [ix r]] Hin.
    apply In_nth_error in Hin. destruct Hin as [i Hi].
    assert (exists j, nth_error (own_reqs orc sc d m) i = Some j /\ two_i (valid orc sc) (fun _ _ => True) (f, (ix, r)) j).
    { unfold own_reqs. clear - T Hi. revert i Hi. induction T; intros [|i] Hi; cbn in *; try discriminate; eauto.
      injection Hi as <-. eauto. }
    destruct H as ([f' [ix' r']] & Hj & E1 & E2 & E3 & E4 & E5). cbn in *. subst f' ix'.
    apply nth_error_In in Hj. unfold it_holds. cbn. destruct (rq_cause r) eqn:Ec.
    3:{ destruct E5 as [-> _]. intros n' m' d' Hr Hf Hd' f' ix' r0 Hin. eapply V; [|exact Hf|exact Hd'|exact Hin].
        eapply reach_down; eauto. }
    all: rewrite E5; eapply V; [apply reach_here|exact Hd|exact Ed|exact Hj].
  - intros [Ed|F] n' m' d' Hr Hf Hd' f ix r Hin.
    + inversion Hr; subst; congruence.
    + inversion Hr as [|? ? d0 f0 ix0 r0 n1 m1 ? ? Hd0 Ed0 Hin0 Hc0 Hr0]; subst.
      * assert (d' = d) by congruence. subst d'. apply In_nth_error in Hin. destruct Hin as [i Hi].
        assert (exists j, nth_error (msg_reqs orc sc (valid orc sc) d m') i = Some j /\ two_i (valid orc sc) (fun _ _ => True) j (f, (ix, r))).
        { unfold own_reqs in Hi. clear - T Hi. revert i Hi. induction T; intros [|i] Hi; cbn in *; try discriminate; eauto.
          injection Hi as <-. eauto. }
        destruct H as ([f' [ix' r']] & Hj & E1 & E2 & E3 & E4 & E5). cbn in *. subst f' ix'.
        apply nth_error_In in Hj. rewrite Forall_forall in F. specialize (F _ Hj). unfold it_holds in F. cbn in F.
        destruct (rq_cause r'); [congruence|congruence|]. destruct E5 as [_ ->]. exact I.
      * assert (d0 = d) by congruence. subst d0. apply In_nth_error in Hin0. destruct Hin0 as [i Hi].
        assert (exists j, nth_error (msg_reqs orc sc (valid orc sc) d m) i = Some j /\ two_i (valid orc sc) (fun _ _ => True) j (f0, (ix0, r0))).
        { unfold own_reqs in Hi. clear - T Hi. revert i Hi. induction T; intros [|i] Hi; cbn in *; try discriminate; eauto.
          injection Hi as <-. eauto. }
        destruct H as ([f' [ix' r']] & Hj & E1 & E2 & E3 & E4 & E5). cbn in *. subst f' ix'.
        apply nth_error_In in Hj. rewrite Forall_forall in F. specialize (F _ Hj). unfold it_holds in F. cbn in F.
        rewrite E4, Hc0 in E5. destruct E5 as [E5 _]. rewrite E5 in F. eapply F; eauto.
Qed.
End Validity.

(** ** Embedded messages of well-typed messages *)
Section Embedded.
Variable orc : oracles.
Variable sc : schema.
Variable P : string -> msgval -> Prop.

Lemma not_emb_in l r n x : Forall not_emb l -> In r l -> rq_cause r = Embedded n x -> False.
Proof. intros F H E. rewrite Forall_forall in F. specialize (F r H). unfold not_emb in F. now rewrite E in F. Qed.

Lemma elem_embedded e fr v r n x : In r (elem_reqs orc sc P e fr v) -> rq_cause r = Embedded n x ->
  e = TMsg n /\ v = VMsg (Some x) /\ validated_type sc n = true.
Proof.
  intros H E. destruct fr as [mr [ru|]]; cbn [elem_reqs] in H.
  - exfalso. assert (G : forall e' v', In r (rule_reqs orc sc e' ru v') -> False) by (intros; eapply not_emb_in; eauto using rule_not_emb).
    destruct e; eauto. destruct v as [| | | | | |[]| | | | |]; eauto.
    eapply not_emb_in; [|exact H|exact E]. ne.
  - destruct (is_embed e); [|contradiction]. unfold message_reqs in H. apply in_app_iff in H. destruct H as [H|H].
    + exfalso. eapply not_emb_in; [|exact H|exact E]. ne.
    + destruct (negb (skipped mr)); [|contradiction]. cbn [whenb] in H.
      destruct e; try contradiction. destruct v as [| | | | |[]| | | | | |]; try contradiction.
      destruct (validated_type _ _) eqn:Ev; [|contradiction]. destruct H as [<-|[]]. cbn in E. injection E as <- <-. auto.
Qed.

(** [inside v e w]: [w] is [v] or one of its elements, of type [e]. *)
Inductive inside : ftype -> value -> etype -> value -> Prop :=
| in_one e v : inside (FOne e) v e v
| in_list e l v : In v l -> inside (FRep e) (VList l) e v
| in_vals k e l p : In p l -> inside (FMap k e) (VMap l) e (snd p)
| in_keys k e l p : In p l -> inside (FMap k e) (VMap l) k (fst p).

Lemma field_embedded f v ix r n x : In (ix, r) (field_reqs orc sc P f v) -> rq_cause r = Embedded n x ->
  inside (f_type f) v (TMsg n) (VMsg (Some x)) /\ validated_type sc n = true.
Proof.
  intros H E.
  assert (TG : forall ix' l, In (ix, r) (tag ix' l) -> In r l).
  { intros ix' l Hl. apply in_map_iff in Hl. destruct Hl as (y & Hy & Hin). congruence. }
  assert (R : forall e fr u l ea i, In (ix, r) (items_reqs orc sc P e u fr ea i l) -> exists y fr', In y l /\ In r (elem_reqs orc sc P e fr' y)).
  { intros e fr u l. induction l as [|y t IH]; intros ea i Hl; cbn [items_reqs] in Hl; [contradiction|].
    apply in_app_iff in Hl. destruct Hl as [Hl|Hl].
    - apply TG in Hl. apply in_app_iff in Hl. destruct Hl as [Hl|Hl]; [|exists y; eexists; split; [left; auto|eauto]].
      exfalso. eapply not_emb_in; [|exact Hl|exact E]. ne.
    - destruct (IH _ _ Hl) as (z & fr' & A & B). exists z, fr'. split; [right|]; auto. }
  assert (R2 : forall e rr l, In (ix, r) (rep_reqs orc sc P e rr l) -> exists y fr', In y l /\ In r (elem_reqs orc sc P e fr' y)).
  { intros e rr l Hl. unfold rep_reqs in Hl. destruct (_ && _); [contradiction|]. apply in_app_iff in Hl. destruct Hl as [Hl|Hl]; eauto.
    exfalso. apply TG in Hl. eapply not_emb_in; [|exact Hl|exact E]. apply count_not_emb. }
  assert (M : forall k w rr l, In (ix, r) (map_reqs orc sc P k w rr l) -> exists p fr', In p l /\
     (In r (elem_reqs orc sc P k fr' (fst p)) \/ In r (elem_reqs orc sc P w fr' (snd p)))).
  { intros k w rr l Hl. unfold map_reqs in Hl. destruct (_ && _); [contradiction|]. apply in_app_iff in Hl. destruct Hl as [Hl|Hl].
    - exfalso. apply TG in Hl. eapply not_emb_in; [|exact Hl|exact E]. apply count_not_emb.
    - apply in_flat_map in Hl. destruct Hl as (p & Hp & Hl). apply TG in Hl. apply in_app_iff in Hl. destruct Hl as [Hl|Hl].
      + exfalso. eapply not_emb_in; [|exact Hl|exact E]. ne.
      + apply in_app_iff in Hl. destruct Hl; exists p; eexists; eauto. }
  unfold field_reqs in H. destruct (f_type f) as [e|e|k w].
  - apply TG in H. destruct (elem_embedded _ _ _ _ _ _ H E) as (-> & -> & Hv). split; [constructor|auto].
  - destruct v; try contradiction.
    assert (K : exists rr, In (ix, r) (rep_reqs orc sc P e rr l)) by (destruct (fr_typ _) as [[]|]; eauto).
    destruct K as [rr K]. destruct (R2 _ _ _ K) as (y & fr' & A & B).
    destruct (elem_embedded _ _ _ _ _ _ B E) as (-> & -> & Hv). split; [constructor; auto|auto].
  - destruct v; try contradiction.
    assert (K : exists rr, In (ix, r) (map_reqs orc sc P k w rr l)) by (destruct (fr_typ _) as [[]|]; eauto).
    destruct K as [rr K]. destruct (M _ _ _ _ K) as (p & fr' & A & [B|B]);
    destruct (elem_embedded _ _ _ _ _ _ B E) as (-> & Hx & Hv); rewrite <- Hx; (split; [constructor; auto|auto]).
Qed.

Lemma inside_wt t v e w : wt_field sc t v -> inside t v e w -> wt_elem sc e w.
Proof.
  intros W I. inversion I; subst; inversion W; subst; auto.
  - rewrite Forall_forall in *. auto.
  - rewrite Forall_forall in *. match goal with H : forall x, In x l -> _ |- _ => now apply H end.
  - rewrite Forall_forall in *. match goal with H : forall x, In x l -> _ |- _ => now apply H end.
Qed.

Lemma inside_height t v e w n x : ftype_ok sc t -> inside t v e w -> e = TMsg n -> w = VMsg (Some x) -> (S (mheight x) <= vheight v)%nat.
Proof.
  intros F I Ee Ew. destruct I as [e v|e l v H|k e l p H|k e l p H]; subst e || subst k; cbn [vheight].
  - rewrite Ew. reflexivity.
  - assert (H0 := list_max_in vheight _ _ H). rewrite Ew in H0. exact H0.
  - assert (H0 := list_max_in (fun p => vheight (snd p)) _ _ H). cbn in H0. rewrite Ew in H0. exact H0.
  - destruct F as [F _]. discriminate F.
Qed.

Lemma msg_embedded d m f ix r n x : wf_msg d -> (forall f, In f (all_fields d) -> ftype_ok sc (f_type f)) ->
  wt_msg sc d m -> In (f, (ix, r)) (msg_reqs orc sc P d m) -> rq_cause r = Embedded n x ->
  exists d', find_msg sc n = Some d' /\ wt_msg sc d' x /\ (S (mheight x) <= mheight m)%nat /\ validated_type sc n = true.
Proof.
  intros [ND1 ND2] Hft W H E. inversion W as [d' fs os Hfs Hos E1 E2]. subst d'. rewrite E2.
  assert (NDf : NoDup (map f_name (md_fields d))).
  { unfold all_fields in ND1. rewrite map_app in ND1. clear - ND1. induction (map f_name (md_fields d)); constructor.
    - cbn in ND1. apply NoDup_cons_iff in ND1. intros H. apply ND1. apply in_app_iff; auto.
    - apply IHl. cbn in ND1. now apply NoDup_cons_iff in ND1. }
  assert (FIN : forall g v, In g (all_fields d) -> In (ix, r) (field_reqs orc sc P g v) -> wt_field sc (f_type g) v ->
     (vheight v <= mheight m)%nat -> exists d', find_msg sc n = Some d' /\ wt_msg sc d' x /\ (S (mheight x) <= mheight m)%nat /\ validated_type sc n = true).
  { intros g v Hg Hr Hw Hh. destruct (field_embedded _ _ _ _ _ _ Hr E) as [I V].
    assert (Wx := inside_wt _ _ _ _ Hw I). inversion Wx; subst. exists d0. repeat (split; auto).
    assert (Hx := inside_height _ _ _ _ _ _ (Hft g Hg) I eq_refl eq_refl). lia. }
  unfold msg_reqs in H. apply in_app_iff in H. rewrite <- E2 in H. cbn [mv_fields mv_oneofs] in H.
  destruct H as [H|H]; apply in_flat_map in H.
  - destruct H as (g & Hg & H). destruct (wt_assoc _ _ _ _ Hfs NDf Hg) as (v & A & B & C). rewrite A in H.
    apply in_map_iff in H. destruct H as ([ix' r'] & Hy & Hin). injection Hy as <- <- <-.
    apply (FIN g v); auto; [unfold all_fields; apply in_app_iff; auto|].
    rewrite <- E2. cbn [mheight]. assert (H := list_max_in (fun p => vheight (snd p)) fs _ C). cbn in H. lia.
  - destruct H as (o & Ho & H). destruct (wt_assoc_oneof _ _ _ _ Hos ND2 Ho) as (s & A & B & C). rewrite A in H.
    destruct s as [[fn v]|]; cbn [oneof_reqs] in H.
    + destruct (find (fun f => String.eqb fn (f_name f)) (o_fields o)) as [g|] eqn:Ef; [|contradiction].
      apply find_some in Ef. destruct Ef as [Hg Hn]. apply String.eqb_eq in Hn.
      apply in_map_iff in H. destruct H as ([ix' r'] & Hy & Hin). injection Hy as <- <- <-.
      assert (Hall : In g (all_fields d)) by (unfold all_fields; apply in_app_iff; right; apply in_flat_map; eauto).
      apply (FIN g v); auto.
      * inversion B as [|o' g' v' Hg' Wv]; subst.
        assert (g' = g); [|subst; auto]. assert (Hall' : In g' (all_fields d)) by (unfold all_fields; apply in_app_iff; right; apply in_flat_map; eauto).
        assert (Hnn : f_name g' = f_name g) by congruence.
        clear - ND1 Hall Hall' Hnn. induction (all_fields d) as [|y l IH]; [contradiction|]. cbn in ND1. apply NoDup_cons_iff in ND1. destruct ND1 as [N1 N2].
        destruct Hall as [->|Ha], Hall' as [->|Hb]; auto.
        -- elim N1. rewrite <- Hnn. now apply in_map.
        -- elim N1. rewrite Hnn. now apply in_map.
      * rewrite <- E2. cbn [mheight]. assert (H := list_max_in (fun p => match snd p with Some (_, v) => vheight v | None => O end) os _ C). cbn in H. lia.
    + destruct (getb _); [|contradiction]. destruct H as [H|[]]. injection H as <- <- <-. discriminate E.
Qed.
End Embedded.

(** ** Schemas *)
Lemma assoc_in_nodup {A} (l : list (string * A)) x v : NoDup (map fst l) -> In (x, v) l -> assoc x l = Some v.
Proof.
  induction l as [|[k w] t IH]; cbn; intros ND H; [contradiction|]. apply NoDup_cons_iff in ND. destruct ND as [N1 N2].
  destruct (String.eqb_spec x k) as [->|Hn].
  - destruct H as [[= <-]|H]; auto. elim N1. apply in_map with (f := fst) in H. exact H.
  - destruct H as [[= -> ->]|H]; [congruence|auto].
Qed.

Lemma check_msg_name re_ok sch d0 d : check_msg re_ok sch d0 = Some d ->
  md_name d = md_name d0 /\ md_methods d = md_methods d0 /\ md_disabled d = md_disabled d0.
Proof.
  unfold check_msg. destruct (md_disabled d0) eqn:E; [intros [= <-]; auto|].
  destruct (map_opt _ _); [|discriminate]. destruct (map_opt _ _); [|discriminate]. intros [= <-]. auto.
Qed.

Section Schema.
Variable re_ok : bytes -> bool.
Variable sc0 sc : schema.
Variable orc : oracles.
Hypothesis checked : check_schema re_ok sc0 = Some sc.
Hypothesis wf : wf_schema sc0.
Hypothesis sup : supported sc.
Hypothesis orc_ok : oracle_ok orc.

Lemma sch_msgs : Forall2 (fun d0 d => check_msg re_ok sc0 d0 = Some d) (sc_msgs sc0) (sc_msgs sc).
Proof.
  unfold check_schema in checked. destruct (map_opt (check_msg re_ok sc0) (sc_msgs sc0)) eqn:E; [|discriminate].
  injection checked as <-. now apply map_opt_forall2.
Qed.

Lemma sch_enums e : find_enum sc e = find_enum sc0 e.
Proof.
  unfold check_schema in checked. destruct (map_opt (check_msg re_ok sc0) (sc_msgs sc0)) eqn:E; [|discriminate].
  injection checked as <-. reflexivity.
Qed.

Lemma sch_find n : match find_msg sc0 n with
  | Some d0 => exists d, find_msg sc n = Some d /\ check_msg re_ok sc0 d0 = Some d /\ In d (sc_msgs sc) /\ In d0 (sc_msgs sc0) /\ md_name d0 = n
  | None => find_msg sc n = None
  end.
Proof.
  unfold find_msg. induction sch_msgs as [|d0 d l0 l H _ IH]; cbn; auto.
  destruct (check_msg_name _ _ _ _ H) as (E & _ & _). rewrite E.
  destruct (String.eqb_spec n (md_name d0)).
  - exists d. repeat (split; auto).
  - destruct (find _ l0); auto. destruct IH as (d' & A & B & C & D & F). exists d'. repeat (split; auto).
Qed.

Lemma sch_methods n : option_map md_methods (find_msg sc n) = option_map md_methods (find_msg sc0 n).
Proof.
  assert (H := sch_find n). destruct (find_msg sc0 n).
  - destruct H as (d & -> & H & _). cbn. destruct (check_msg_name _ _ _ _ H) as (_ & -> & _). reflexivity.
  - now rewrite H.
Qed.

Lemma call_all_has all n : call_all sc all n = all && has_all sc0 n.
Proof.
  unfold call_all, has_all. assert (H := sch_methods n). destruct (find_msg sc n), (find_msg sc0 n); cbn in H; try discriminate; auto.
  injection H as ->. reflexivity.
Qed.

Lemma validated_methods n d : find_msg sc0 n = Some d -> validated_type sc0 n = has_methods d.
Proof. intros H. unfold validated_type. now rewrite H. Qed.

Lemma field_env_ok d f : In d (sc_msgs sc) -> has_methods d = true -> In f (all_fields d) ->
  field_env sc (pkg_decls sc) (file_uuid sc) (mc_helpers (msg_tpl d)) (md_name d) f.
Proof.
  intros Hd Hm Hf. constructor; auto.
  - intros x v Hx. apply assoc_in_nodup; [apply sup|]. unfold pkg_decls. apply in_flat_map. exists d.
    split; [apply filter_In; auto|]. cbn. right. right. apply in_flat_map. eauto.
  - intros h Hh. cbn [msg_tpl mc_helpers].
    assert (Hn : needs d h = true) by (apply existsb_exists; eauto).
    unfold has_helper. apply existsb_exists. exists h. split; [|destruct h; reflexivity].
    apply filter_In. split; auto.
    assert (S : forall fr, str_needs fr h = true -> In h [FHostname; FEmail; FUuid]).
    { intros fr. unfold str_needs. destruct fr as [[mr [[]|]]|]; try discriminate.
      destruct h; cbn; auto; try discriminate; destruct (s_wk r) as [[]|]; discriminate. }
    unfold field_needs in Hh. destruct (f_type f) as [[]|[]|k v]; try discriminate; eauto.
    + destruct w; try discriminate; eauto.
    + destruct (fr_typ _) as [[]|]; try discriminate; eauto.
    + destruct (fr_typ _) as [[]|]; try discriminate. apply orb_true_iff in Hh.
      destruct Hh as [Hh|Hh]; [destruct k|destruct v]; try discriminate; eauto.
Qed.

Definition result_ok (all : bool) (n : string) (m : msgval) (r : vres) : Prop :=
  r <> VStuck /\ (r = VNil <-> valid orc sc0 n m) /\ forall e, r = VErr e -> explains orc sc0 all n m e.

Lemma validate_f_ok k : forall all n m d0, find_msg sc0 n = Some d0 -> has_methods d0 = true ->
  wt_msg sc0 d0 m -> (mheight m < k)%nat -> result_ok all n m (validate_f sc orc k all n m).
Proof.
  induction k as [|k IH]; intros all n m d0 Hd0 Hmeth Hwt Hh; [lia|].
  assert (Hf := sch_find n). rewrite Hd0 in Hf. destruct Hf as (d & Hd & Hck & Hin & Hin0 & Hname).
  destruct (check_msg_name _ _ _ _ Hck) as (N1 & N2 & N3).
  cbn [validate_f]. unfold code_of. rewrite Hd.
  assert (Hm : has_methods d = true) by (unfold has_methods in *; now rewrite N2). rewrite Hm.
  set (rec := validate_f sc orc k).
  destruct (md_disabled d0) eqn:Edis.
  { (* disabled *)
    unfold exec_msg. cbn [msg_tpl mc_disabled]. rewrite N3. split; [discriminate|]. split; [|discriminate].
    split; auto. intros _. apply (valid_step orc sc0 n m d0 Hd0). auto. }
  destruct (wf d0 Hin0) as [Hwf Hft].
  assert (Hspec : vres_spec sc rec all n (msg_reqs orc sc0 (emb sc rec all) d0 m)
      (exec_msg sc orc (pkg_decls sc) (file_uuid sc) rec (mc_helpers (msg_tpl d)) all m (msg_tpl d))).
  { apply exec_msg_spec with (re_ok := re_ok) (sch := sc0); auto.
    - apply sch_enums.
    - apply sch_methods.
    - intros b n' x d' Hd' Hw Hx Hv. unfold rec. apply (IH b n' x d'); auto; [|lia].
      now rewrite <- (validated_methods n' d' Hd').
    - congruence.
    - destruct sup as [_ S]. apply S; auto.
    - apply Forall_forall. intros f Hfin. rewrite <- Hname, <- N1. now apply field_env_ok. }
  set (R := msg_reqs orc sc0 (emb sc rec all) d0 m) in *.
  assert (T := two_msg orc sc0 (emb sc rec all) (valid orc sc0) d0 m). fold R in T. fold (full_reqs orc sc0 d0 m) in T.
  assert (Hemb : forall f ix r n' x, In (f, (ix, r)) R -> rq_cause r = Embedded n' x ->
     result_ok (all && has_all sc0 n') n' x (rec (call_all sc all n') n' x)).
  { intros f ix r n' x Hr Hc. destruct (msg_embedded _ _ _ _ _ _ _ _ _ _ Hwf Hft Hwt Hr Hc) as (d' & A & B & C & D).
    rewrite call_all_has. unfold rec. apply (IH _ n' x d'); auto; [|lia]. now rewrite <- (validated_methods n' d' A). }
  (* the two readings agree *)
  assert (T2 : Forall2 (fun i j : item => fst i = fst j /\ fst (snd i) = fst (snd j) /\
      rq_reason (snd (snd i)) = rq_reason (snd (snd j)) /\ rq_cause (snd (snd i)) = rq_cause (snd (snd j)) /\
      (it_holds i <-> it_holds j) /\
      forall c, cause_ok sc rec all (rq_cause (snd (snd i))) c -> explains_cause orc sc0 all (rq_cause (snd (snd i))) c) R (full_reqs orc sc0 d0 m)).
  { eapply Forall2_in; [|exact T]. intros [f [ix r]] [f' [ix' r']] I1 I2 (E1 & E2 & E3 & E4 & E5). cbn in *.
    repeat (split; auto). 
    - unfold it_holds. cbn. destruct (rq_cause r) eqn:Ec; try (rewrite E5; tauto).
      destruct E5 as [-> ->]. apply (Hemb _ _ _ _ _ I1 Ec).
    - unfold it_holds. cbn. destruct (rq_cause r) eqn:Ec; try (rewrite E5; tauto).
      destruct E5 as [-> ->]. apply (Hemb _ _ _ _ _ I1 Ec).
    - intros c Hc. destruct (rq_cause r) eqn:Ec; cbn in Hc.
      + subst. constructor.
      + destruct Hc as [p ->]. constructor.
      + destruct Hc as (e & -> & He). constructor. eapply (Hemb _ _ _ _ _ I1 Ec); eauto. }
  clear T Hemb. set (F := full_reqs orc sc0 d0 m) in *.
  assert (Hv : valid orc sc0 n m <-> Forall it_holds F).
  { rewrite (valid_step orc sc0 n m d0 Hd0). split; [intros [H|H]; [congruence|exact H]|auto]. }
  assert (HRF : Forall it_holds R <-> Forall it_holds F).
  { clear - T2. induction T2 as [|i j l l' (_ & _ & _ & _ & H & _) _ IH]; [tauto|]. rewrite !Forall_cons_iff. tauto. }
  destruct (exec_msg _ _ _ _ _ _ _ _ _) as [|e|]; [| |contradiction].
  - split; [discriminate|]. split; [|discriminate]. split; auto. intros _. apply Hv, HRF. exact Hspec.
  - split; [discriminate|]. cbn [vres_spec] in Hspec. split.
    + split; [discriminate|]. intros V. apply Hv, HRF in V. exfalso. destruct all.
      * destruct Hspec as (es & Hne & _ & Hr). clear - V Hne Hr. induction Hr; inversion V; subst; auto.
      * destruct Hspec as (a & i & b & -> & _ & Hn & _). apply Forall_app in V. destruct V as [_ V]. inversion V; auto.
    + intros g [= <-]. destruct all.
      * destruct Hspec as (es & Hne & -> & Hr). eapply explains_all; eauto. fold F.
        clear - T2 Hr. revert es Hr. induction T2 as [|i j l l' (E1 & E2 & E3 & E4 & E5 & E6) _ IH]; intros es Hr; inversion Hr; subst.
        -- constructor.
        -- destruct j as [f [ix r]]. constructor; auto. now apply E5.
        -- destruct j as [f [ix r]]. match goal with H : describes _ _ _ _ _ _ |- _ => destruct H as (c & Hc & ->) end. rewrite E1, E2, E3. cbn.
           cbn in *. constructor; auto; [tauto|]. rewrite <- E4. auto.
      * destruct Hspec as (a & i & b & ER & Ha & Hn & (c & Hc & ->)). rewrite ER in T2.
        apply Forall2_app_inv_l in T2. destruct T2 as (a' & rest & Ta & Tr & EF).
        inversion Tr as [|? j ? b' (E1 & E2 & E3 & E4 & E5 & E6) Tb]; subst. destruct j as [f [ix r]]. cbn in *.
        rewrite E1, E2, E3. eapply explains_first; eauto.
        -- intros f' ix' r' Hin'. assert (FA : Forall it_holds a').
           { clear - Ta Ha. induction Ta as [|i j l l' (_ & _ & _ & _ & H & _) _ IH]; inversion Ha; subst; constructor; auto. now apply H. }
           rewrite Forall_forall in FA. apply (FA _ Hin').
        -- intros Hx. apply Hn, E5. exact Hx.
        -- rewrite <- E4. auto.
Qed.

Theorem validate_ok all n m d0 : find_msg sc0 n = Some d0 -> has_methods d0 = true -> wt_msg sc0 d0 m ->
  result_ok all n m (validate sc orc all n m).
Proof. intros. unfold validate. eapply validate_f_ok; eauto. Qed.
End Schema.
