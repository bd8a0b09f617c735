(** Validity does not depend on the order in which maps are visited. *)
From Coq Require Import Lia Sorting.Permutation.
From Verif Require Import Base Num Rules Types Time Iface Checker GoIR GoGen GoSem Spec SpecErr Wt ExecFacts ExecRule ExecMsg
  Sim Order Main.

(** By recursion on the derivation. *)
Fixpoint same_wt sc v v' (H : same v v') {struct H} :
  (forall e, wt_elem sc e v -> wt_elem sc e v') /\ (forall t, wt_field sc t v -> wt_field sc t v')
with same_wt_msg sc m m' (H : same_msg m m') {struct H} : forall d, wt_msg sc d m -> wt_msg sc d m'.
Proof.
  - destruct H as [v|m m' H|l l' H|l l1 l' P H].
    + auto.
    + assert (A : forall e, wt_elem sc e (VMsg (Some m)) -> wt_elem sc e (VMsg (Some m'))).
      { intros e W. inversion W as [| | | | | |n d m0 Hd Hm| | | | | | |]; subst. econstructor; [exact Hd|]. apply (same_wt_msg sc m m' H d Hm). }
      split; [exact A|]. intros t W. inversion W; subst. constructor. auto.
    + split; [intros e W; inversion W|]. intros t W. inversion W as [e v We|e l0 F|]; subst; [inversion We|]. constructor.
      clear W. revert F. induction H as [|x y t t' Hx _ IH]; intros F; constructor; apply Forall_cons_iff in F; destruct F as [F1 F2]; auto.
      apply (same_wt sc x y Hx), F1.
    + split; [intros e W; inversion W|]. intros t W. inversion W as [e v We| |kt vt l0 F]; subst; [inversion We|]. constructor.
      apply (Permutation_Forall P) in F. clear W P. revert F. induction H as [|x y t t' Hx _ IH]; intros F; constructor; apply Forall_cons_iff in F; destruct F as [F1 F2]; auto.
      destruct Hx as [k w w' Hw]. cbn in *. split; [apply F1|]. apply (same_wt sc w w' Hw), F1.
  - destruct H as [fs fs' os os' H1 H2]. intros d W. inversion W as [d0 fs0 os0 F1 F2]; subst. constructor.
    + clear - F1 H1 same_wt. revert F1. generalize (md_fields d). induction H1 as [|x y t t' Hx _ IH]; intros ff F; inversion F; subst; constructor; auto.
      destruct Hx as [k w w' Hw]. match goal with W : wt_named _ _ _ |- _ => inversion W; subst end. constructor. apply (same_wt sc w w' Hw). auto.
    + clear - F2 H2 same_wt. revert F2. generalize (md_oneofs d). induction H2 as [|x y t t' Hx _ IH]; intros ff F; inversion F; subst; constructor; auto.
      destruct Hx as [k|k f w w' Hw]; match goal with W : wt_oneof _ _ _ |- _ => inversion W; subst end; constructor; auto. apply (same_wt sc w w' Hw). auto.
Qed.

Lemma same_scalar sc e v v' : wt_elem sc e v -> is_embed e = false -> same v v' -> v = v'.
Proof. intros W E S. destruct S; auto; inversion W; subst; discriminate. Qed.

Section Same.
Variable orc : oracles.
Variable sc : schema.
Variable P : string -> msgval -> Prop.

Definition agree (h : nat) : Prop :=
  forall n d x x', (S (mheight x) <= h)%nat -> find_msg sc n = Some d -> wt_msg sc d x -> same_msg x x' -> (P n x <-> P n x').

Notation elem := (elem_reqs orc sc P).

Lemma elem_same e fr v v' : agree (vheight v) -> wt_elem sc e v -> same v v' ->
  Forall rq_holds (elem e fr v) <-> Forall rq_holds (elem e fr v').
Proof.
  intros A W S. destruct S as [v|m m' H|l l' H|l l1 l' Pm H]; [tauto| |inversion W|inversion W].
  - destruct fr as [mr [r|]]; cbn [elem_reqs].
    + destruct e, r; cbn; tauto.
    + destruct (is_embed e); [|tauto]. unfold message_reqs. rewrite !Forall_app.
      assert (E1 : Forall rq_holds (whenb (required mr) [want (is_set (VMsg (Some m))) [PStr "value is required"]]) <->
                   Forall rq_holds (whenb (required mr) [want (is_set (VMsg (Some m'))) [PStr "value is required"]])).
      { destruct (required mr); cbn; [|tauto]. rewrite !Forall_cons_iff. cbn. intuition congruence. }
      inversion W as [| | | | | |n d m0 Hd Hm| | | | | | |]; subst.
      assert (E2 : Forall rq_holds (whenb (validated_type sc n) [mkReq (P n m) [PStr "embedded message failed validation"] (Embedded n m)]) <->
                   Forall rq_holds (whenb (validated_type sc n) [mkReq (P n m') [PStr "embedded message failed validation"] (Embedded n m')])).
      { destruct (validated_type sc n); cbn; [|tauto]. rewrite !Forall_cons_iff. cbn.
        assert (K := A n d m m' (le_n _) Hd Hm H). intuition. }
      destruct (negb (skipped mr)); cbn [whenb]; [|rewrite E1; tauto]. rewrite E1, E2. tauto.
Qed.

Definition t_holds (p : option ixval * req) : Prop := rq_holds (snd p).

Lemma tag_holds ix l : Forall t_holds (tag ix l) <-> Forall rq_holds l.
Proof. unfold tag. rewrite Forall_map. reflexivity. Qed.

Lemma items_same e fr l l' : agree (list_max (map vheight l)) -> Forall (wt_elem sc e) l -> Forall2 same l l' -> forall ea ea' i i',
  Forall t_holds (items_reqs orc sc P e false fr ea i l) <-> Forall t_holds (items_reqs orc sc P e false fr ea' i' l').
Proof.
  intros A W F. revert A W. induction F as [|x y t t' H _ IH]; intros A W ea ea' i i'; cbn [items_reqs whenb]; [split; constructor|].
  apply Forall_cons_iff in W. destruct W as [W1 W2].
  rewrite !Forall_app, !tag_holds. cbn [app].
  assert (LM : forall z, In z (x :: t) -> (vheight z <= list_max (map vheight (x :: t)))%nat) by (intros; now apply list_max_in).
  rewrite (elem_same e fr x y); auto.
  - rewrite (IH (fun n d a b Ha => A n d a b ltac:(unfold list_max in *; cbn [map fold_right] in *; lia)) W2 (ea ++ [x]) (ea' ++ [y]) (S i) (S i')). reflexivity.
  - intros n d a b Ha. apply A. specialize (LM x (or_introl eq_refl)). lia.
Qed.

Lemma rep_same e r l l' : agree (list_max (map vheight l)) -> Forall (wt_elem sc e) l -> Forall2 same l l' ->
  (getb (r_unique r) = true -> l = l') ->
  Forall t_holds (rep_reqs orc sc P e r l) <-> Forall t_holds (rep_reqs orc sc P e r l').
Proof.
  intros A W F U. unfold rep_reqs.
  assert (N : is_nil l = is_nil l') by (destruct F; reflexivity). rewrite N.
  destruct (_ && _); [tauto|]. rewrite (Forall2_len _ _ _ F), !Forall_app.
  destruct (getb (r_unique r)).
  - rewrite (U eq_refl). tauto.
  - rewrite (items_same e _ l l' A W F [] [] 0 0). tauto.
Qed.

Lemma map_same k v r l l1 l' : agree (list_max (map (fun p => vheight (snd p)) l)) ->
  Forall (fun p => wt_elem sc k (fst p) /\ wt_elem sc v (snd p)) l -> Permutation l l1 -> Forall2 same_entry l1 l' ->
  Forall t_holds (map_reqs orc sc P k v r l) <-> Forall t_holds (map_reqs orc sc P k v r l').
Proof.
  intros A W Pm F. unfold map_reqs.
  assert (LN : List.length l = List.length l') by (now rewrite (Permutation_length Pm), (Forall2_len _ _ _ F)).
  assert (N : is_nil l = is_nil l') by (destruct l, l'; cbn in *; auto; discriminate). rewrite N.
  destruct (_ && _); [tauto|]. rewrite LN, !Forall_app.
  assert (K : Forall t_holds (flat_map (fun p => tag (Some (IxV (fst p)))
           (whenb (getb (p_no_sparse r)) [want (is_set (snd p)) [PStr "value cannot be sparse, all pairs must be non-nil"]]
            ++ elem k (rules_or_none (p_keys r)) (fst p) ++ elem v (rules_or_none (p_values r)) (snd p))) l) <->
          Forall t_holds (flat_map (fun p => tag (Some (IxV (fst p)))
           (whenb (getb (p_no_sparse r)) [want (is_set (snd p)) [PStr "value cannot be sparse, all pairs must be non-nil"]]
            ++ elem k (rules_or_none (p_keys r)) (fst p) ++ elem v (rules_or_none (p_values r)) (snd p))) l')).
  { set (g := fun p : value * value => tag (Some (IxV (fst p))) _).
    transitivity (Forall t_holds (flat_map g l1)).
    { split; apply Permutation_Forall; [|symmetry]; now apply Permutation_flat_map. }
    assert (A1 : agree (list_max (map (fun p => vheight (snd p)) l1))) by (now rewrite <- (list_max_perm _ _ _ Pm)).
    apply (Permutation_Forall Pm) in W.
    clear - A1 F W. revert A1 W. induction F as [|x y t t' H _ IH]; intros A1 W; cbn [flat_map]; [tauto|].
    apply Forall_cons_iff in W. destruct W as [[_ W1] W2]. rewrite !Forall_app. rewrite IH; auto.
    2:{ intros n d a b Ha. apply A1. unfold list_max in *. cbn [map fold_right] in *. lia. }
    destruct H as [kk w w' H]. unfold g at 1 3. rewrite !tag_holds. cbn [fst snd]. rewrite !Forall_app.
    rewrite (elem_same v _ w w'); auto.
    2:{ intros n d a b Ha. apply A1. unfold list_max in *. cbn [map fold_right snd] in *. lia. }
    assert (E : is_set w <-> is_set w') by (destruct H; cbn; intuition congruence).
    assert (E2 : Forall rq_holds (whenb (getb (p_no_sparse r)) [want (is_set w) [PStr "value cannot be sparse, all pairs must be non-nil"]]) <->
                 Forall rq_holds (whenb (getb (p_no_sparse r)) [want (is_set w') [PStr "value cannot be sparse, all pairs must be non-nil"]])).
    { destruct (getb _); cbn; [|tauto]. rewrite !Forall_cons_iff. cbn. intuition. }
    rewrite E2. tauto. }
  rewrite K. tauto.
Qed.

(** [unique] is only used on scalars. *)
Definition unique_ok (f : field) : Prop :=
  forall e r, f_type f = FRep e -> fr_typ (f_rules f) = Some (RRepeated r) -> getb (r_unique r) = true -> is_embed e = false.

Lemma field_valid_same f v v' : agree (vheight v) -> unique_ok f -> wt_field sc (f_type f) v -> same v v' ->
  Forall t_holds (field_reqs orc sc P f v) <-> Forall t_holds (field_reqs orc sc P f v').
Proof.
  intros A U W S. unfold field_reqs. destruct (f_type f) as [e|e|k w] eqn:Et.
  - rewrite !tag_holds. inversion W; subst. now apply elem_same.
  - inversion W as [|e0 l F E0 E1|]; subst.
    assert (SC : forall l', Forall2 same l l' -> is_embed e = false -> l = l').
    { intros l' F2 He. clear - F F2 He. induction F2 as [|x y t t' H _ IH]; auto. apply Forall_cons_iff in F. destruct F as [F1 F].
      rewrite IH; auto. f_equal. eapply same_scalar; eauto. }
    assert (K : exists l', v' = VList l' /\ Forall2 same l l').
    { inversion S; subst; [|eauto]. eexists. split; [reflexivity|]. clear. induction l; constructor; auto. constructor. }
    destruct K as (l' & -> & F2). destruct (fr_typ (f_rules f)) as [[]|] eqn:Er; try (apply rep_same; auto; discriminate).
    apply rep_same; auto. intros. apply SC; auto. eapply U; eauto.
  - inversion W as [| |k0 w0 l F E0 E1]; subst.
    assert (K : exists l1 l', v' = VMap l' /\ Permutation l l1 /\ Forall2 same_entry l1 l').
    { inversion S; subst; [|eauto]. eexists l, l. split; [reflexivity|]. split; [reflexivity|]. clear. induction l as [|[]]; constructor; auto; constructor; constructor. }
    destruct K as (l1 & l' & -> & Pm & F2). destruct (fr_typ (f_rules f)) as [[]|]; eapply map_same; eauto.
Qed.

Lemma msg_valid_same d m m' : agree (mheight m) -> wf_msg d -> Forall unique_ok (all_fields d) ->
  wt_msg sc d m -> same_msg m m' ->
  Forall it_holds (msg_reqs orc sc P d m) <-> Forall it_holds (msg_reqs orc sc P d m').
Proof.
  intros A [ND1 ND2] U W S. destruct S as [fs fs' os os' S1 S2]. inversion W as [d0 fs0 os0 F1 F2]; subst.
  unfold msg_reqs. rewrite !Forall_app. cbn [mv_fields mv_oneofs].
  assert (NM : forall fn l, Forall it_holds (map (fun r => (fn, r)) l) <-> Forall t_holds l) by (intros; rewrite Forall_map; reflexivity).
  assert (NDf : NoDup (map f_name (md_fields d))).
  { unfold all_fields in ND1. rewrite map_app in ND1. clear - ND1. induction (map f_name (md_fields d)); constructor.
    - cbn in ND1. apply NoDup_cons_iff in ND1. intros H. apply ND1. apply in_app_iff; auto.
    - apply IHl. cbn in ND1. now apply NoDup_cons_iff in ND1. }
  assert (E1 : forall f, In f (md_fields d) ->
     (Forall it_holds (match assoc (f_name f) fs with Some v => map (fun r => (f_name f, r)) (field_reqs orc sc P f v) | None => [] end) <->
      Forall it_holds (match assoc (f_name f) fs' with Some v => map (fun r => (f_name f, r)) (field_reqs orc sc P f v) | None => [] end))).
  { intros f Hf. destruct (wt_assoc _ _ _ _ F1 NDf Hf) as (v & Av & Wv & Iv).
    assert (K : exists v', assoc (f_name f) fs' = Some v' /\ same v v').
    { clear - S1 Av. induction S1 as [|x y t t' H _ IH]; [discriminate|]. destruct H as [k w w' H]. cbn in *.
      destruct (String.eqb _ _); [injection Av as <-; eauto|auto]. }
    destruct K as (v' & Av' & Sv). rewrite Av, Av', !NM. apply field_valid_same; auto.
    - intros n d0 x x' Hx. apply A. cbn [mheight]. assert (L := list_max_in (fun p => vheight (snd p)) fs _ Iv). cbn in L. lia.
    - rewrite Forall_forall in U. apply U. unfold all_fields. apply in_app_iff. auto. }
  assert (E2 : forall o, In o (md_oneofs d) ->
     (Forall it_holds (match assoc (o_name o) os with Some s => oneof_reqs orc sc P o s | None => [] end) <->
      Forall it_holds (match assoc (o_name o) os' with Some s => oneof_reqs orc sc P o s | None => [] end))).
  { intros o Ho. destruct (wt_assoc_oneof _ _ _ _ F2 ND2 Ho) as (s & As & Ws & Is).
    assert (K : match s with None => assoc (o_name o) os' = Some None | Some (f, v) => exists v', assoc (o_name o) os' = Some (Some (f, v')) /\ same v v' end).
    { clear - S2 As. induction S2 as [|x y t t' H _ IH]; [discriminate|]. destruct H as [k|k f w w' H]; cbn in *;
      (destruct (String.eqb _ _); [injection As as <-; eauto|exact (IH As)]). }
    rewrite As. destruct s as [[fn v]|]; [|now rewrite K]. destruct K as (v' & -> & Sv). cbn [oneof_reqs].
    destruct (find (fun f => String.eqb fn (f_name f)) (o_fields o)) as [g|] eqn:Ef; [|tauto]. rewrite !NM.
    apply find_some in Ef. destruct Ef as [Hg Hn]. apply String.eqb_eq in Hn.
    assert (Hall : In g (all_fields d)) by (unfold all_fields; apply in_app_iff; right; apply in_flat_map; eauto).
    apply field_valid_same; auto.
    - intros n d0 x x' Hx. apply A. cbn [mheight]. assert (L := list_max_in (fun p => match snd p with Some (_, v) => vheight v | None => O end) os _ Is). cbn in L. lia.
    - rewrite Forall_forall in U. now apply U.
    - inversion Ws as [|o' g' v0 Hg' Wv]; subst.
      assert (g' = g); [|subst; auto]. assert (Hall' : In g' (all_fields d)) by (unfold all_fields; apply in_app_iff; right; apply in_flat_map; eauto).
      assert (Hnn : f_name g' = f_name g) by congruence.
      clear - ND1 Hall Hall' Hnn. induction (all_fields d) as [|y l IH]; [contradiction|]. cbn in ND1. apply NoDup_cons_iff in ND1. destruct ND1 as [N1 N2].
      destruct Hall as [->|Ha], Hall' as [->|Hb]; auto.
      + elim N1. rewrite <- Hnn. now apply in_map.
      + elim N1. rewrite Hnn. now apply in_map. }
  assert (FM : forall {X} (f g : X -> list item) l, (forall x, In x l -> (Forall it_holds (f x) <-> Forall it_holds (g x))) ->
     (Forall it_holds (flat_map f l) <-> Forall it_holds (flat_map g l))).
  { intros X f g l. induction l as [|x t IH]; intros H; cbn [flat_map]; [tauto|]. rewrite !Forall_app, IH, (H x); auto; [tauto|left; auto|].
    intros; apply H; right; auto. }
  rewrite (FM _ _ _ _ E1), (FM _ _ _ _ E2). tauto.
Qed.
End Same.

Section Whole.
Variable re_ok : bytes -> bool.
Variable sc0 sc : schema.
Variable orc : oracles.
Hypothesis checked : check_schema re_ok sc0 = Some sc.
Hypothesis wf : wf_schema sc0.

Lemma check_field_unique sch f f' : check_field re_ok sch f = Some f' -> unique_ok f.
Proof.
  unfold check_field, guard. destruct (check_message _ _); [|discriminate]. destruct (check_fr _ _ _ _) eqn:E; [|discriminate].
  intros _ e r Et Er U. rewrite Et in E. destruct (f_rules f) as [mr [ru|]]; cbn in Er; [|discriminate]. injection Er as ->.
  cbn [check_fr] in E. unfold guard in E. rewrite U in E. destruct (_ && _) eqn:C; [|discriminate].
  apply andb_true_iff in C. destruct C as [_ C]. cbn in C. now apply negb_true_iff.
Qed.

Lemma checked_unique d0 : In d0 (sc_msgs sc0) -> md_disabled d0 = false -> Forall unique_ok (all_fields d0).
Proof.
  intros Hin Hd. unfold check_schema in checked. destruct (map_opt _ _) eqn:E; [|discriminate].
  apply map_opt_forall2 in E.
  assert (K : exists d, check_msg re_ok sc0 d0 = Some d).
  { clear - E Hin. induction E; [contradiction|]. destruct Hin as [->|]; eauto. }
  destruct K as [d K]. unfold check_msg in K. rewrite Hd in K.
  destruct (map_opt (check_field re_ok sc0) (md_fields d0)) eqn:E1; [|discriminate].
  destruct (map_opt (check_oneof re_ok sc0) (md_oneofs d0)) eqn:E2; [|discriminate].
  apply map_opt_forall2 in E1, E2. unfold all_fields. apply Forall_app. split.
  - clear - E1. induction E1; constructor; auto. eapply check_field_unique; eauto.
  - clear - E2. induction E2 as [|o o' t t' H _ IH]; cbn [flat_map]; [constructor|]. apply Forall_app. split; auto.
    unfold check_oneof in H. destruct (map_opt _ (o_fields o)) eqn:E; [|discriminate]. apply map_opt_forall2 in E.
    clear - E. induction E; constructor; auto. eapply check_field_unique; eauto.
Qed.

Lemma find_in n d : find_msg sc0 n = Some d -> In d (sc_msgs sc0).
Proof. intros H. now apply find_some in H. Qed.

(** Well-typed embedded messages of any schema. *)
Lemma valid_same_k k : forall n d m m', (mheight m < k)%nat -> find_msg sc0 n = Some d -> wt_msg sc0 d m -> same_msg m m' ->
  (valid orc sc0 n m <-> valid orc sc0 n m').
Proof.
  induction k as [|k IH]; intros n d m m' Hk Hd W S; [lia|].
  rewrite (valid_step orc sc0 n m d Hd), (valid_step orc sc0 n m' d Hd).
  destruct (md_disabled d) eqn:Ed; [tauto|]. apply or_iff_compat_l.
  apply msg_valid_same; auto.
  - intros n' d' x x' Hx Hd' Wx Sx. apply (IH n' d' x x'); auto. lia.
  - apply wf. now apply find_in in Hd.
  - apply checked_unique; auto. now apply find_in in Hd.
Qed.

Lemma valid_same n d m m' : find_msg sc0 n = Some d -> wt_msg sc0 d m -> same_msg m m' ->
  (valid orc sc0 n m <-> valid orc sc0 n m').
Proof. intros. eapply valid_same_k; eauto. Qed.
End Whole.
