(** Conditions under which the names of a generated package are distinct, and the relation of [go_fits] to [supported]. *)
From Coq Require Import Floats.SpecFloat Lia.
From Verif Require Import Base Num Rules Types Time Iface Checker GoIR GoGen GoSem Spec Wt WtDec GoType GoFit GoTypeFacts GoCompile.
Local Open Scope string_scope.

(** * Supported rules fit *)
Lemma lens_ok_fit a b c l : lens_ok l -> In a l -> In b l -> In c l -> lens_fit a b c.
Proof.
  intros L A B C. unfold lens_fit. destruct a; [apply L; auto|]. split; intros n ->; apply L; auto.
Qed.

Lemma rule_ok_fit sc p w e r t : rule_ok sc p w e r -> t = go_type e \/ (w = true /\ exists k, wrapped_type k = e) ->
  leaf_fit (file_uuid sc) p w t r.
Proof.
  intros R T. destruct r as [k r|c|r|r|r|r|r|r|r|r], e; cbn [rule_ok] in R; try contradiction; cbn [leaf_fit].
  - destruct R as [_ (_ & R)]. exact R.
  - exact I.
  - destruct R as (L & R). split; [|split; [|exact R]]; eapply lens_ok_fit; eauto; cbn; auto 10.
  - destruct R as (L & A & _ & R). split; [|split; [exact A|exact R]]. eapply lens_ok_fit; eauto; cbn; auto 10.
  - destruct R as (A & B & C & _). repeat split; auto; apply A; auto.
  - destruct T as [-> |[_ [k E]]]; [|destruct k; discriminate]. destruct R as (A & B & C). split; [exact I|].
    destruct p; [right; repeat split; auto|left; apply A; discriminate ..].
  - destruct T as [-> |[_ [k E]]]; [|destruct k; discriminate]. split; [intros _; exact I|right; auto].
  - destruct T as [-> |[_ [k E]]]; [|destruct k; discriminate]. split; [intros _; exact I|right; auto].
Qed.

Lemma elem_ok_fit sc p e fr : elem_ok sc p e (rules_or_none fr) -> elem_fit (file_uuid sc) p e fr.
Proof.
  destruct fr as [[m [r|]]|]; cbn; auto. intros H. destruct e; cbn [on_wrapped];
    try (apply rule_ok_fit with (1 := H); left; reflexivity).
  destruct H as [-> H].
  assert (W : on_wrapped (TWrap w) r = true).
  { destruct r, w; cbn in H |- *; try contradiction; reflexivity. }
  cbn [on_wrapped] in W. rewrite W. split; [reflexivity|]. apply rule_ok_fit with (1 := H). right. eauto.
Qed.

Lemma elem_ok_pattern sc p e fr : p <> PTop -> elem_ok sc p e (rules_or_none fr) -> bytes_pattern fr = false.
Proof.
  intros P. destruct fr as [[m [r|]]|]; cbn; auto. destruct r; auto. intros H.
  assert (B : b_pattern r = None); [|now rewrite B].
  destruct e; cbn in H; try contradiction; [|destruct H as [-> _]; now contradiction P].
  destruct H as (_ & _ & H & _). auto.
Qed.

(** The loop over the entries of a map uses the key. *)
Definition loops_named (sc : schema) : Prop :=
  forall d f k v r, In d (sc_msgs sc) -> In f (all_fields d) -> f_type f = FMap k v -> fr_typ (f_rules f) = Some (RMap r) ->
    map_loops v r = true -> key_named k v r = true.

Lemma field_ok_fit sc f : field_ok sc f ->
  (forall k v r, f_type f = FMap k v -> fr_typ (f_rules f) = Some (RMap r) -> map_loops v r = true -> key_named k v r = true) ->
  field_fit (file_uuid sc) f.
Proof.
  intros S K. unfold field_ok in S. unfold field_fit. destruct f as [fn t [mr tr]]. cbn [f_type f_rules fr_typ] in *.
  destruct tr as [r|]; [|exact I].
  destruct t as [e|e|k v].
  - assert (E : elem_fit (file_uuid sc) PTop e (Some (FR mr (Some r)))) by (apply elem_ok_fit; exact S).
    destruct r; auto; cbn in S; destruct e; try contradiction S; destruct S as [_ S]; destruct w; contradiction S.
  - destruct r; try contradiction. destruct S as (L & _ & E). split; [split; intros n H; apply L; rewrite <- H; cbn; auto|].
    split; [now apply elem_ok_fit|]. eapply elem_ok_pattern; eauto. discriminate.
  - destruct r; try contradiction. destruct S as (L & _ & E1 & E2 & H). split; [split; intros n Q; apply L; rewrite <- Q; cbn; auto|].
    split; [now apply elem_ok_fit|]. split; [now apply elem_ok_fit|]. split; [exact H|]. split; [|apply K; reflexivity].
    apply elem_ok_pattern in E2; [|discriminate]. rewrite E2. discriminate.
Qed.

Lemma supported_fits sc : supported sc -> loops_named sc -> go_fits sc.
Proof.
  intros [_ S] K d Hd M D. specialize (S d Hd D M). rewrite Forall_forall in *. intros f Hf.
  apply field_ok_fit; [auto|]. intros k v r. now apply (K d f).
Qed.

(** * Names *)
Lemma append_tail a b s t : a ++ s = b ++ t -> String.length s <= String.length t -> exists c, t = c ++ s /\ a = b ++ c.
Proof.
  revert b. induction a as [|x a IH]; intros b E L.
  - destruct b as [|y b]; cbn in E.
    + exists "". auto.
    + exfalso. assert (Q := f_equal String.length E). cbn in Q. rewrite append_length in Q. lia.
  - destruct b as [|y b]; cbn in E.
    + exists (String x a). split; auto.
    + injection E as -> E. destruct (IH b E L) as (c & -> & ->). exists c. auto.
Qed.

Lemma append_empty a : a ++ "" = a.
Proof. induction a; cbn; congruence. Qed.

Lemma NoDup_map_filter {A B} (g : A -> B) p l : NoDup (map g l) -> NoDup (map g (filter p l)).
Proof.
  induction l as [|x l IH]; cbn; auto. intros N. apply NoDup_cons_iff in N. destruct N as [N1 N2].
  destruct (p x); auto. cbn. constructor; auto. intros H. apply N1. apply in_map_iff in H. destruct H as (y & <- & Hy).
  apply filter_In in Hy. apply in_map. tauto.
Qed.

Lemma append_same a b s : a ++ s = b ++ s -> a = b.
Proof.
  intros E. destruct (append_tail a b s s E (Nat.le_refl _)) as (c & H & ->). destruct c as [|x c]; [now rewrite append_empty|].
  exfalso. assert (Q := f_equal String.length H). cbn in Q. rewrite append_length in Q. lia.
Qed.

Lemma plain_no_us n : plain_name n -> no_us n = true.
Proof.
  induction n as [|c n IH]; cbn; auto. intros P. apply andb_true_iff. split.
  - apply negb_true_iff, Ascii.eqb_neq. intros ->. apply (P "" n). reflexivity.
  - apply IH. intros a b E. apply (P (String c a) b). cbn. now rewrite E.
Qed.

Lemma no_us_plain n : no_us n = true -> plain_name n.
Proof. intros H a b ->. rewrite no_us_app in H. cbn in H. now rewrite andb_false_r in H. Qed.

Lemma NoDup_map_inj {A B} (g : A -> B) l : (forall x y, In x l -> In y l -> g x = g y -> x = y) -> NoDup l -> NoDup (map g l).
Proof.
  intros I. induction 1 as [|x l N _ IH]; cbn; constructor.
  - intros H. apply in_map_iff in H. destruct H as (y & E & Hy). apply N. rewrite (I x y); auto; [now left|now right].
  - apply IH. intros; apply I; auto; now right.
Qed.

Lemma plain_paths sc : NoDup (map md_name (sc_msgs sc)) ->
  (forall d, In d (sc_msgs sc) -> NoDup (map f_name (all_fields d))) ->
  (forall d f, In d (sc_msgs sc) -> In f (all_fields d) -> plain_name (f_name f)) -> NoDup (paths sc).
Proof.
  intros N F P. unfold paths.
  apply (NoDup_tagged md_name _ (fun y n => exists k, no_us k = true /\ y = n ++ "_" ++ k)).
  - apply NoDup_map_filter, N.
  - intros d y Hd Hy. apply filter_In in Hd. apply in_map_iff in Hy. destruct Hy as (f & <- & Hf).
    exists (f_name f). split; auto. apply plain_no_us, (P d); tauto.
  - intros y n n' (k & K & ->) (k' & K' & E). now apply last_us in E.
  - intros d Hd. apply filter_In in Hd. destruct Hd as [Hd _].
    rewrite <- (map_map f_name (fun n => md_name d ++ "_" ++ n)). apply NoDup_map_inj; [|auto].
    intros x y _ _ E. now apply append_cancel, append_cancel in E.
Qed.

Lemma own_types sc : NoDup (map md_name (sc_msgs sc) ++ map en_name (sc_enums sc))%list ->
  (forall n, In n (map md_name (sc_msgs sc) ++ map en_name (sc_enums sc))%list ->
     forall s, n <> s ++ "MultiError" /\ n <> s ++ "ValidationError") -> NoDup (type_names sc).
Proof.
  intros N E. unfold type_names. rewrite List.app_assoc. apply NoDup_app_iff. split; [exact N|]. split.
  - apply NoDup_app_iff in N. destruct N as [N _].
    apply (NoDup_tagged md_name _ (fun y n => y = n ++ "MultiError" \/ y = n ++ "ValidationError")).
    + apply NoDup_map_filter, N.
    + intros d y _ [<-|[<-|[]]]; auto.
    + assert (X : forall a b, a ++ "MultiError" <> b ++ "ValidationError").
      { intros a b H. apply append_tail in H; [|cbn; lia]. destruct H as (c & H & _).
        do 5 (destruct c as [|? c]; [discriminate H|]). destruct c; [discriminate H|].
        assert (Q := f_equal String.length H). cbn in Q. rewrite append_length in Q. cbn in Q. lia. }
      intros y n n' [-> | ->] [H|H]; try (now apply append_same in H); [now apply X in H|symmetry in H; now apply X in H].
    + intros d _. constructor; [|constructor; [intros []|constructor]]. intros [H|[]]. now apply append_cancel in H.
  - intros x Hx H. apply in_flat_map in H. destruct H as (d & _ & [H|[H|[]]]); symmetry in H; now apply (E x Hx) in H.
Qed.
