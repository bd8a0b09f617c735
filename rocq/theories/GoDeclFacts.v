(** The declarations of a field and the rules behind them. *)
From Verif Require Import Base Num Rules Types Time GoIR GoGen GoSem Spec Wt GoType GoFit GoTypeFacts
  GoFieldFacts BaseFacts Checker.
Local Open Scope string_scope.

Lemma assoc_app {A} x (l m : list (string * A)) :
  assoc x (app l m) = match assoc x l with Some v => Some v | None => assoc x m end.
Proof. induction l as [|[y v] l IH]; cbn; auto. destruct (String.eqb x y); auto. Qed.

Section Field.
Variable decls : list (string * pkgvar).
Variable mn : string.
Variable f : field.
Notation nm := (lookup_name mn (f_name f)).
Hypothesis tabs : forall k, table k -> assoc (nm k) decls = assoc (nm k) (field_decls mn f).
Notation lists_ok := (lists_ok decls).
Notation leaf_stmt := (leaf_stmt decls).
Notation tab := (tab decls).

Definition decls_fit : Prop := Forall (fun p => decl_ok (snd p)) (field_decls mn f).

Lemma eqb_nm k k' : no_us k = true -> no_us k' = true -> String.eqb (nm k) (nm k') = String.eqb k k'.
Proof using.
  clear. intros H H'. destruct (String.eqb_spec (nm k) (nm k')) as [E|E].
  - apply lookup_inj in E; auto. destruct E as [_ ->]. now rewrite String.eqb_refl.
  - destruct (String.eqb_spec k k') as [->|]; [now contradiction E|reflexivity].
Qed.

Lemma tab_in c : cx_msg c = mn -> cx_field c = f_name f ->
  tab c "InLookup" = assoc (nm "InLookup") (field_decls mn f) /\
  tab c "NotInLookup" = assoc (nm "NotInLookup") (field_decls mn f) /\
  tab c "Pattern" = assoc (nm "Pattern") (field_decls mn f).
Proof using tabs.
  intros H1 H2. unfold tab, lookup. rewrite H1, H2. unfold table in tabs. repeat split; apply tabs; auto.
Qed.

Lemma num_set_tab t l : tab_ok t false (Some (num_set t l)).
Proof using. unfold num_set. destruct (_ && _); cbn; auto. Qed.
Lemma str_set_tab t l : tab_ok t false (Some (str_set t l)).
Proof using. unfold str_set. destruct (nodupb _ _); cbn; auto. Qed.
Lemma enum_set_tab t l : tab_ok t false (Some (enum_set t l)).
Proof using. unfold enum_set. destruct (nodupb _ _); cbn; auto. Qed.
Lemma dur_set_tab t l : tab_ok t false (Some (dur_set t l)).
Proof using. unfold dur_set. destruct (nodupb _ _); cbn; auto. Qed.
Lemma byt_set_tab l : tab_ok GBytes true (Some (byt_set (FOne TBytes) l)).
Proof using. unfold byt_set. cbn. destruct (_ && _); cbn; auto. Qed.

Lemma gty_num k : gty_of (TNum k) = go_type (TNum k).
Proof using. destruct k; reflexivity. Qed.

(** The two tables that a rule with lists declares at its field. *)
Lemma lists_decl {A} (l l' : list A) d d' (rest : list (string * pkgvar)) c t conv :
  cx_msg c = mn -> cx_field c = f_name f ->
  field_decls mn f = app (decl_if l (nm "InLookup") d) (app (decl_if l' (nm "NotInLookup") d') rest) ->
  assoc (nm "InLookup") rest = None -> assoc (nm "NotInLookup") rest = None ->
  (decls_fit /\ lists_ok c t conv (negb (is_nil l)) (negb (is_nil l')) <->
   (l <> [] -> decl_ok d /\ tab_ok t conv (Some d)) /\ (l' <> [] -> decl_ok d' /\ tab_ok t conv (Some d')) /\
   Forall (fun p => decl_ok (snd p)) rest).
Proof using tabs.
  intros H1 H2 D R1 R2. destruct (tab_in c H1 H2) as (T1 & T2 & _).
  unfold decls_fit, GoTypeFacts.lists_ok. rewrite T1, T2, D. clear T1 T2 D tabs.
  rewrite !Forall_app, !assoc_app.
  destruct l as [|a l], l' as [|a' l']; cbn [decl_if assoc is_nil negb];
    rewrite ?String.eqb_refl, ?(eqb_nm "InLookup" "NotInLookup"), ?(eqb_nm "NotInLookup" "InLookup") by reflexivity;
    cbn [String.eqb Ascii.eqb Bool.eqb]; rewrite ?R1, ?R2;
    split; intros H; repeat match goal with H : _ /\ _ |- _ => destruct H end;
    repeat match goal with H : Forall _ [_] |- _ => apply Forall_inv in H; cbn [snd] in H end;
    repeat split; auto; try (intros; congruence); try discriminate;
    try (apply Forall_cons; [|constructor]; cbn [snd]);
    try match goal with H : _ :: _ <> [] -> _ /\ _ |- _ => apply H; discriminate end;
    intros _; match goal with H : _ :: _ <> [] -> _ /\ _ |- _ => apply H; discriminate end.
Qed.

Lemma ne_nil {A} (l : list A) (P : Prop) : (l = [] -> P) -> (l <> [] -> P) <-> P.
Proof using. intros H. split; auto. destruct l; auto. intros X. apply X. discriminate. Qed.
Lemma ne_and {A} (l : list A) (P Q : Prop) : (l = [] -> P) -> Q -> (l <> [] -> P /\ Q) <-> P.
Proof using. intros H q. split; [|intros; split; auto]. destruct l; auto. intros X. apply X. discriminate. Qed.

(** Any, duration and timestamp rules at the field itself. *)
Lemma any_at c r : cx_msg c = mn -> cx_field c = f_name f -> fr_typ (f_rules f) = Some (RAny r) ->
  (decls_fit /\ leaf_stmt c (go_ftype (f_type f)) (RAny r) <-> any_fit PTop (go_ftype (f_type f)) r).
Proof using tabs.
  intros H1 H2 R. destruct (tab_in c H1 H2) as (T1 & T2 & _). cbn [GoFieldFacts.leaf_stmt]. unfold any_fit, no_lists.
  assert (D : field_decls mn f = app (decl_if (a_in r) (nm "InLookup") (str_set (in_type (f_type f) GString) (a_in r)))
    (app (decl_if (a_not_in r) (nm "NotInLookup") (str_set (in_type (f_type f) GString) (a_not_in r))) [])).
  { unfold field_decls. rewrite R, app_nil_r. reflexivity. }
  pose proof (lists_decl _ _ _ _ _ c GString false H1 H2 D eq_refl eq_refl) as L.
  unfold GoTypeFacts.lists_ok in L.
  assert (N : forall l : list bytes, negb (is_nil l) = true <-> l <> []) by (intros []; cbn; split; congruence).
  assert (Z : forall l : list bytes, l = [] \/ l <> []) by (intros []; [left|right]; congruence).
  assert (TA : go_ftype (f_type f) = GPtr TAny -> in_type (f_type f) GString = GString).
  { destruct (f_type f) as [[| | | | | | | | |]| |]; cbn; try discriminate; try reflexivity. destruct k; discriminate. }
  split.
  - intros (DF & NI & I1 & I2). split; auto.
    destruct (Z (a_in r)) as [E1|E1], (Z (a_not_in r)) as [E2|E2]; auto; right.
    + destruct (I2 E2) as [T3 T4]. rewrite (TA T3) in L. split; auto. split; auto.
      rewrite E1. split; auto.
      destruct (proj1 L) as (_ & X & _); [split; [exact DF|split; [intros h; now contradiction (proj1 (N _) h)|intros _; exact T4]]|]. apply str_set_ok, X; auto.
    + destruct (I1 E1) as [T3 T4]. rewrite (TA T3) in L. split; auto. split; auto.
      rewrite E2. split; auto.
      destruct (proj1 L) as (X & _ & _); [split; [exact DF|split; [intros _; exact T4|intros h; now contradiction (proj1 (N _) h)]]|]. apply str_set_ok, X; auto.
    + destruct (I1 E1) as [T3 T4], (I2 E2) as [_ T5]. rewrite (TA T3) in L. split; auto. split; auto.
      assert (X := proj1 L (conj DF (conj (fun _ => T4) (fun _ => T5)))).
      destruct X as (X & Y & _). split; apply str_set_ok; [apply X|apply Y]; auto.
  - intros (NI & [[E1 E2]|(T3 & _ & B1 & B2)]).
    + split; [|split; [auto|split; congruence]]. unfold decls_fit. rewrite D, E1, E2. constructor.
    + rewrite (TA T3) in L.
      destruct (proj2 L) as (DF & I1 & I2).
      { repeat split; try apply str_set_ok; auto; apply str_set_tab. }
      rewrite !N in I1. rewrite !N in I2. auto 10.
Qed.

Lemma dur_at c r : cx_msg c = mn -> cx_field c = f_name f -> fr_typ (f_rules f) = Some (RDuration r) ->
  (decls_fit /\ leaf_stmt c (go_ftype (f_type f)) (RDuration r) <-> dur_fit PTop (go_ftype (f_type f)) r).
Proof using tabs.
  intros H1 H2 R. cbn [GoFieldFacts.leaf_stmt]. unfold dur_fit, dur_ok.
  assert (D : field_decls mn f = app (decl_if (d_in r) (nm "InLookup") (dur_set (in_type (f_type f) GDuration) (d_in r)))
    (app (decl_if (d_not_in r) (nm "NotInLookup") (dur_set (in_type (f_type f) GDuration) (d_not_in r))) [])).
  { unfold field_decls. rewrite R, app_nil_r. reflexivity. }
  pose proof (lists_decl _ _ _ _ _ c GDuration false H1 H2 D eq_refl eq_refl) as L.
  assert (TA : go_ftype (f_type f) = GPtr TDur -> in_type (f_type f) GDuration = GDuration).
  { destruct (f_type f) as [[| | | | | | | | |]| |]; cbn; try discriminate; try reflexivity. destruct k; discriminate. }
  split.
  - intros (DF & NI & [I|(T & LI & LL)]); split; auto. right. rewrite (TA T) in L.
    destruct (proj1 L (conj DF LL)) as (X & Y & _). split; auto. split; auto. split; [intros p; now contradiction p|].
    split; apply dur_set_ok.
    + destruct (d_in r); [constructor; auto; constructor|]. apply X. discriminate.
    + destruct (d_not_in r); [constructor; auto; constructor|]. apply Y. discriminate.
  - intros (NI & [I|(T & LI & _ & B1 & B2)]).
    + split; [|auto]. destruct I as (_ & _ & _ & _ & _ & E1 & E2). unfold decls_fit. rewrite D, E1, E2. constructor.
    + rewrite (TA T) in L. destruct (proj2 L) as (DF & LL).
      { repeat split; try apply dur_set_ok; auto; apply dur_set_tab. }
      auto 10.
Qed.

Lemma ts_at c r : fr_typ (f_rules f) = Some (RTimestamp r) ->
  (decls_fit /\ leaf_stmt c (go_ftype (f_type f)) (RTimestamp r) <-> ts_fit (go_ftype (f_type f)) r).
Proof using.
  clear. intros R. cbn [GoFieldFacts.leaf_stmt]. unfold ts_fit, decls_fit, field_decls. rewrite R.
  unfold ts_lits, ts_ok. split; [intros (_ & H); exact H|]. split; [constructor|auto].
Qed.

Definition unwrapped (e : etype) : etype := match e with TWrap w => wrapped_type w | _ => e end.

Lemma needs_str e r uuid : f_type f = FOne e -> fr_typ (f_rules f) = Some (RString r) -> rule_at e (RString r) ->
  ((field_needs FUuid f = true -> uuid = true) <-> (s_wk r = Some (WUuid true) -> uuid = true)).
Proof using.
  clear. intros T R A. unfold field_needs. rewrite T. unfold str_needs. destruct (f_rules f) as [m o]. cbn in R. subst o.
  destruct A as [-> | ->]; destruct (s_wk r) as [[]|]; split; intros H X; try discriminate X; apply H; congruence.
Qed.
Lemma needs_other e r : f_type f = FOne e -> fr_typ (f_rules f) = Some r -> (forall s, r <> RString s) ->
  field_needs FUuid f = false.
Proof using.
  clear. intros T R N. unfold field_needs. rewrite T. unfold str_needs. destruct (f_rules f) as [m o]. cbn in R. subst o.
  destruct e; auto; [|destruct w; auto]; destruct r; auto; now contradiction (N r).
Qed.

Lemma top_one uuid e r c : f_type f = FOne e -> fr_typ (f_rules f) = Some r ->
  rule_checked r -> rule_at e r -> rule_typed r -> cx_msg c = mn -> cx_field c = f_name f ->
  (decls_fit /\ leaf_stmt c (if on_wrapped e r then go_type (unwrapped e) else go_type e) r /\
     (field_needs FUuid f = true -> uuid = true) <->
   leaf_fit uuid PTop (on_wrapped e r) (go_type e) r).
Proof using tabs.
  intros T R K A W H1 H2. destruct r; try contradiction.
  - rewrite (needs_other e _ T R) by discriminate. cbn [GoFieldFacts.leaf_stmt leaf_fit].
    assert (E : (if on_wrapped e (RNum k r) then go_type (unwrapped e) else go_type e) = go_type (TNum k)).
    { destruct A as [-> |(w & -> & E)]; [reflexivity|]. cbn [on_wrapped unwrapped]. now rewrite E. }
    rewrite E. clear E.
    assert (I : in_type (f_type f) (gty_of (TNum k)) = go_type (TNum k)).
    { rewrite T. destruct A as [-> |(w & -> & E)]; cbn [in_type is_embed]; apply gty_num. }
    assert (D : field_decls mn f = app (decl_if (n_in r) (nm "InLookup") (num_set (go_type (TNum k)) (n_in r)))
      (app (decl_if (n_not_in r) (nm "NotInLookup") (num_set (go_type (TNum k)) (n_not_in r))) [])).
    { unfold field_decls. rewrite R, I, app_nil_r. reflexivity. }
    pose proof (lists_decl _ _ _ _ _ c (go_type (TNum k)) false H1 H2 D eq_refl eq_refl) as L.
    unfold num_fit. rewrite forallb_app, andb_true_iff.
    assert (W1 : forall n, In n (n_in r) -> num_of_kind k n = true) by (intros n Hn; apply W; auto 10).
    assert (W2 : forall n, In n (n_not_in r) -> num_of_kind k n = true) by (intros n Hn; apply W; auto 10).
    rewrite !ne_and in L by (first [apply num_set_tab|intros ->; apply num_set_ok; [easy|split; reflexivity]]).
    rewrite !num_set_ok in L by auto. unfold consts_ok.
    split.
    + intros (DF & (CO & LI) & _). destruct (proj1 L (conj DF LI)) as ((? & ?) & (? & ?) & _).
      split; [exact CO|]. split; [intros X; now contradiction X|auto].
    + intros (CO & _ & (B1 & B2) & B3 & B4). destruct (proj2 L) as [DF LI]; [repeat split; auto|].
      split; auto. split; auto. discriminate.
  - rewrite (needs_other e _ T R) by discriminate. cbn. split; auto. intros _. split; [|split; [exact I|discriminate]].
    unfold decls_fit, field_decls. rewrite R. constructor.
  - rewrite (needs_str e r uuid T R A). cbn [GoFieldFacts.leaf_stmt leaf_fit].
    assert (I : in_type (f_type f) GString = GString).
    { rewrite T. destruct A as [-> | ->]; reflexivity. }
    assert (D : field_decls mn f = app (decl_if (s_in r) (nm "InLookup") (str_set GString (s_in r)))
      (app (decl_if (s_not_in r) (nm "NotInLookup") (str_set GString (s_not_in r))) (decl_opt (s_pattern r) (nm "Pattern")))).
    { unfold field_decls. now rewrite R, I. }
    assert (RP : forall k, no_us k = true -> String.eqb k "Pattern" = false -> assoc (nm k) (decl_opt (s_pattern r) (nm "Pattern")) = None).
    { intros k U V. destruct (s_pattern r); auto. cbn [decl_opt decl_if assoc]. now rewrite eqb_nm, V. }
    pose proof (lists_decl _ _ _ _ _ c GString false H1 H2 D (RP "InLookup" eq_refl eq_refl) (RP "NotInLookup" eq_refl eq_refl)) as L.
    rewrite !ne_and in L by (first [apply str_set_tab|intros ->; apply str_set_ok; reflexivity]).
    rewrite !str_set_ok in L.
    assert (FP : Forall (fun p => decl_ok (snd p)) (decl_opt (s_pattern r) (nm "Pattern"))).
    { destruct (s_pattern r); repeat constructor. }
    destruct (tab_in c H1 H2) as (_ & _ & TP).
    assert (PT : s_pattern r <> None -> exists p, tab c "Pattern" = Some (DRegex p)).
    { rewrite TP, D, !assoc_app. intros X. destruct (s_pattern r) as [p|]; [|now contradiction X]. exists p.
      assert (Y : forall k d (l : list bytes), no_us k = true -> String.eqb "Pattern" k = false -> assoc (nm "Pattern") (decl_if l (nm k) d) = None).
      { intros k d [|x l] U V; auto. cbn [decl_opt decl_if assoc]. now rewrite eqb_nm, V. }
      rewrite !Y by reflexivity. cbn [decl_opt assoc]. now rewrite String.eqb_refl. }
    unfold str_fit. split.
    + intros (DF & (L1 & L2 & LI & _) & U). destruct (proj1 L (conj DF LI)) as (B1 & B2 & _).
      repeat split; auto; destruct H; discriminate.
    + intros (L1 & L2 & _ & B1 & B2 & U). destruct (proj2 L) as [DF LI]; auto 10.
  - rewrite (needs_other e _ T R) by discriminate. cbn [GoFieldFacts.leaf_stmt leaf_fit].
    assert (D : field_decls mn f = app (decl_if (b_in r) (nm "InLookup") (byt_set (FOne e) (b_in r)))
      (app (decl_if (b_not_in r) (nm "NotInLookup") (byt_set (FOne e) (b_not_in r))) (decl_opt (b_pattern r) (nm "Pattern")))).
    { unfold field_decls. now rewrite R, T. }
    assert (RP : forall k, no_us k = true -> String.eqb k "Pattern" = false -> assoc (nm k) (decl_opt (b_pattern r) (nm "Pattern")) = None).
    { intros k U V. destruct (b_pattern r); auto. cbn [decl_opt decl_if assoc]. now rewrite eqb_nm, V. }
    pose proof (lists_decl _ _ _ _ _ c GBytes true H1 H2 D (RP "InLookup" eq_refl eq_refl) (RP "NotInLookup" eq_refl eq_refl)) as L.
    assert (FP : Forall (fun p => decl_ok (snd p)) (decl_opt (b_pattern r) (nm "Pattern"))).
    { destruct (b_pattern r); repeat constructor. }
    destruct (tab_in c H1 H2) as (_ & _ & TP).
    assert (PT : b_pattern r <> None -> exists p, tab c "Pattern" = Some (DRegex p)).
    { rewrite TP, D, !assoc_app. intros X. destruct (b_pattern r) as [p|]; [|now contradiction X]. exists p.
      assert (Y : forall k d (l : list bytes), no_us k = true -> String.eqb "Pattern" k = false -> assoc (nm "Pattern") (decl_if l (nm k) d) = None).
      { intros k d [|x l] U V; auto. cbn [decl_opt decl_if assoc]. now rewrite eqb_nm, V. }
      rewrite !Y by reflexivity. cbn [decl_opt assoc]. now rewrite String.eqb_refl. }
    unfold byt_fit, no_lists. rewrite forallb_app, andb_true_iff.
    destruct A as [-> | ->]; cbn [on_wrapped unwrapped go_type wrapped_type] in *.
    + rewrite !ne_and in L by (first [apply byt_set_tab|intros ->; apply byt_set_ok; split; reflexivity]).
      rewrite !byt_set_ok in L. split.
      * intros (DF & (L1 & LI & _) & _). destruct (proj1 L (conj DF LI)) as ((? & ?) & (? & ?) & _).
        split; [exact L1|]. split; [intros [X|X]; [now contradiction X|discriminate]|auto].
      * intros (L1 & _ & (B1 & B2) & B3 & B4). destruct (proj2 L) as [DF LI]; auto 10.
        split; auto. split; auto. discriminate.
    + assert (B : forall l, decl_ok (byt_set (FOne (TWrap WkBytes)) l) -> False) by (intros l H; exact H).
      split.
      * intros (DF & (L1 & LI & _) & _). destruct (proj1 L (conj DF LI)) as (X & Y & _).
        assert (E1 : b_in r = []) by (destruct (b_in r); auto; exfalso; eapply B, X; discriminate).
        assert (E2 : b_not_in r = []) by (destruct (b_not_in r); auto; exfalso; eapply B, Y; discriminate).
        rewrite E1, E2. repeat split; auto; try (intros; now contradiction H).
      * intros (L1 & N & _). destruct N as [E1 E2]; [right; reflexivity|].
        destruct (proj2 L) as [DF LI]; [rewrite E1, E2; split; [|split]; auto; congruence|].
        split; auto. split; auto. discriminate.
  - rewrite (needs_other e _ T R) by discriminate. cbn [GoFieldFacts.leaf_stmt leaf_fit].
    destruct A as [n ->]. cbn [on_wrapped go_type].
    assert (D : field_decls mn f = app (decl_if (e_in r) (nm "InLookup") (enum_set (GEnum n) (e_in r)))
      (app (decl_if (e_not_in r) (nm "NotInLookup") (enum_set (GEnum n) (e_not_in r))) [])).
    { unfold field_decls. rewrite R, T, app_nil_r. reflexivity. }
    pose proof (lists_decl _ _ _ _ _ c (GEnum n) false H1 H2 D eq_refl eq_refl) as L.
    assert (W1 : forall z, In z (e_in r) -> enum_fits z) by (intros z Hz; apply W; auto).
    assert (W2 : forall z, In z (e_not_in r) -> enum_fits z) by (intros z Hz; apply W; auto).
    rewrite !ne_and in L by (first [apply enum_set_tab|intros ->; apply enum_set_ok; [easy|reflexivity]]).
    rewrite !enum_set_ok in L by auto. unfold enum_fit. split.
    + intros (DF & LI & _). destruct (proj1 L (conj DF LI)) as (B1 & B2 & _). repeat split; auto; destruct H; discriminate.
    + intros (_ & B1 & B2). destruct (proj2 L) as [DF LI]; auto. split; auto. split; auto. discriminate.
  - rewrite (needs_other e _ T R) by discriminate.
    assert (O : on_wrapped e (RAny r) = false) by (destruct e; reflexivity). rewrite O.
    pose proof (any_at c r H1 H2 R) as L. rewrite T in L. cbn [go_ftype] in L. cbn [leaf_fit]. rewrite <- L.
    split; [intros (X & Y & _); auto|intros (X & Y)]. split; auto. split; auto. discriminate.
  - rewrite (needs_other e _ T R) by discriminate.
    assert (O : on_wrapped e (RDuration r) = false) by (destruct e; reflexivity). rewrite O.
    pose proof (dur_at c r H1 H2 R) as L. rewrite T in L. cbn [go_ftype] in L. cbn [leaf_fit]. rewrite <- L.
    split; [intros (X & Y & _); auto|intros (X & Y)]. split; auto. split; auto. discriminate.
  - rewrite (needs_other e _ T R) by discriminate.
    assert (O : on_wrapped e (RTimestamp r) = false) by (destruct e; reflexivity). rewrite O.
    pose proof (ts_at c r R) as L. rewrite T in L. cbn [go_ftype] in L. cbn [leaf_fit]. rewrite <- L.
    split; [intros (X & Y & _); auto|intros (X & Y)]. split; auto. split; auto. discriminate.
Qed.

(** ** Items of lists *)

Lemma bare_leaf uuid p c t r : p <> PTop -> rule_checked r -> leaf_typed r t -> tab c "InLookup" = None -> tab c "NotInLookup" = None ->
  (forall s, r <> RString s) -> (forall s, r <> REnum s) ->
  (leaf_stmt c t r <->
   leaf_fit uuid p false t r /\ (forall s, r = RBytes s -> b_pattern s <> None -> exists p, tab c "Pattern" = Some (DRegex p))).
Proof using.
  clear. intros P K T T1 T2 NS NE.
  assert (L : forall A t conv (l l' : list A), lists_ok c t conv (negb (is_nil l)) (negb (is_nil l')) <-> l = [] /\ l' = []).
  { intros A t' conv l l'. unfold GoTypeFacts.lists_ok. rewrite T1, T2.
    destruct l, l'; cbn; split; intros H; try (destruct H; discriminate); auto; try (split; intros; discriminate);
      destruct H as [X Y]; try contradiction (X eq_refl); contradiction (Y eq_refl). }
  destruct r; cbn [GoFieldFacts.leaf_stmt leaf_fit]; try contradiction; try (now contradiction (NS r)); try (now contradiction (NE r)).
  - rewrite L. unfold num_fit, no_lists, consts_ok. split.
    + intros (C & E1 & E2). rewrite E1, E2. repeat split; auto; discriminate.
    + intros ((C & N & _) & _). auto.
  - split; auto. intros _. split; auto. discriminate.
  - rewrite L. unfold byt_fit, no_lists. split.
    + intros (C & (E1 & E2) & Q). rewrite E1, E2. repeat split; auto. intros s [= <-]. exact Q.
    + intros ((C & N & _) & Q). split; auto. split; auto. apply Q. reflexivity.
  - rewrite T1, T2. unfold any_fit, no_lists. split.
    + intros (N & I1 & I2). split; [|discriminate]. split; auto. left.
      split; [destruct (a_in r)|destruct (a_not_in r)]; auto; exfalso; [apply I1|apply I2]; discriminate.
    + intros ((N & [[E1 E2]|(_ & X & _)]) & _); [|contradiction]. rewrite E1, E2. split; auto. split; intros X; now contradiction X.
  - rewrite L. unfold dur_fit, dur_ok, no_lists, dur_lits. split.
    + intros (N & D). split; [|discriminate]. split; auto. destruct D as [D|(D & E & E1 & E2)]; auto. right.
      rewrite E1, E2. auto 10.
    + intros ((N & D) & _). split; auto. destruct D as [D|(D & E & E1 & _)]; auto.
  - unfold ts_fit, ts_ok, ts_lits. split; [intros H; split; [auto|discriminate]|tauto].
Qed.

Definition wk_uuid (uuid : bool) (fr : option field_rules) : Prop :=
  forall m s, fr = Some (FR m (Some (RString s))) -> s_wk s = Some (WUuid true) -> uuid = true.

Lemma str_needs_uuid fr uuid : (str_needs fr FUuid = true -> uuid = true) <-> wk_uuid uuid fr.
Proof using.
  clear. unfold wk_uuid, str_needs. destruct fr as [[m [[]|]]|]; try (split; intros; discriminate).
  split.
  - intros H m' s [= <- <-] E. rewrite E in H. auto.
  - intros H X. destruct (s_wk r) as [[]|] eqn:E; try discriminate X. subst b. exact (H _ _ eq_refl E).
Qed.

Lemma item_leaf uuid e q m r c : f_type f = FRep e -> fr_typ (f_rules f) = Some (RRepeated q) -> r_items q = Some (FR m (Some r)) ->
  rule_checked r -> rule_at e r -> on_wrapped e r = false -> rule_typed r -> cx_msg c = mn -> cx_field c = f_name f ->
  (decls_fit /\ leaf_stmt c (go_type e) r /\ (field_needs FUuid f = true -> uuid = true) <->
   leaf_fit uuid PItem false (go_type e) r /\ bytes_pattern (r_items q) = false).
Proof using tabs.
  intros T R Q K A O W H1 H2.
  destruct (tab_in c H1 H2) as (T1 & T2 & T3).
  assert (B : (forall s, r <> RString s) -> (forall s, r <> REnum s) ->
    (decls_fit /\ leaf_stmt c (go_type e) r /\ (field_needs FUuid f = true -> uuid = true) <->
     leaf_fit uuid PItem false (go_type e) r /\ bytes_pattern (r_items q) = false)).
  { intros NS NE.
    assert (D : field_decls mn f = []).
    { unfold field_decls. rewrite R, Q. destruct r; try reflexivity; [now contradiction (NS r)|now contradiction (NE r)]. }
    assert (N : field_needs FUuid f = false).
    { unfold field_needs. rewrite T, R, Q. destruct e; auto. cbn. destruct r; auto. now contradiction (NS r). }
    rewrite D in T1, T2, T3. rewrite (bare_leaf uuid PItem c _ r); auto; [|discriminate|apply at_typed; auto].
    rewrite N, T3, Q. unfold decls_fit. rewrite D. clear D N. split.
    - intros (_ & (L & P) & _). split; auto. destruct r; auto. cbn. destruct (b_pattern r) eqn:E; auto.
      destruct (P r eq_refl) as [p X]; [rewrite E|]; discriminate.
    - intros (L & P). split; [constructor|]. split; [|discriminate]. split; auto. intros s -> E. cbn in P. destruct (b_pattern s); try discriminate. now contradiction E. }
  destruct r; try (apply B; discriminate); clear B; cbn [GoFieldFacts.leaf_stmt leaf_fit] in *.
  - destruct A as [-> | ->]; [|discriminate O]. clear O.
    assert (N : (field_needs FUuid f = true -> uuid = true) <-> (s_wk r = Some (WUuid true) -> uuid = true)).
    { unfold field_needs. rewrite T, R. rewrite str_needs_uuid, Q. unfold wk_uuid. split; intros H; eauto.
      intros m' s [= <- <-]. auto. }
    rewrite N, Q. clear N. cbn [bytes_pattern].
    assert (D : field_decls mn f = app (decl_opt (s_pattern r) (nm "Pattern"))
      (app (decl_if (s_in r) (nm "InLookup") (str_set GString (s_in r)))
      (decl_if (s_not_in r) (nm "NotInLookup") (str_set GString (s_not_in r))))).
    { unfold field_decls. rewrite R, Q. cbn [str_rules_of enum_rules_of]. now rewrite app_nil_r. }
    unfold decls_fit, GoTypeFacts.lists_ok. rewrite T1, T2, T3, D, !Forall_app, !assoc_app. clear T1 T2 T3 D tabs.
    assert (DI : forall A (l : list A) k k' d, no_us k = true -> no_us k' = true ->
      assoc (nm k) (decl_if l (nm k') d) = if negb (is_nil l) && String.eqb k k' then Some d else None).
    { intros A0 l k k' d U V. destruct l; auto. cbn [decl_if assoc]. rewrite eqb_nm; auto. }
    assert (DO : forall k, no_us k = true ->
      assoc (nm k) (decl_opt (s_pattern r) (nm "Pattern")) =
      if String.eqb k "Pattern" then option_map DRegex (s_pattern r) else None).
    { intros k U. destruct (s_pattern r); cbn [decl_opt assoc option_map]; [rewrite eqb_nm; auto|]; now destruct (String.eqb _ _). }
    assert (FI : forall (l : list bytes) k, Forall (fun p => decl_ok (snd p)) (decl_if l (nm k) (str_set GString l)) <-> nodupb bytes_eqb l = true).
    { intros l k. destruct l as [|x l]; [split; [reflexivity|constructor]|]. rewrite <- str_set_ok. cbn [decl_if]. rewrite Forall_cons_iff. cbn [snd].
      split; [tauto|]. intros H. split; [exact H|constructor]. }
    rewrite !FI, !DO, !DI by reflexivity. cbn [String.eqb Ascii.eqb Bool.eqb]. rewrite ?andb_false_r, ?andb_true_r.
    unfold str_fit. split.
    + intros ((_ & N1 & N2) & (L1 & L2 & _ & _) & U). repeat split; auto; destruct H; discriminate.
    + intros ((L1 & L2 & _ & N1 & N2 & U) & _). repeat split; auto.
      * destruct (s_pattern r); repeat constructor.
      * intros ->. apply str_set_tab.
      * intros ->. apply str_set_tab.
      * intros X. destruct (s_pattern r) as [p|]; [|now contradiction X]. exists p. reflexivity.
  - destruct A as [n ->]. clear O.
    assert (N : field_needs FUuid f = false) by (unfold field_needs; now rewrite T).
    rewrite N, Q. clear N. cbn [bytes_pattern go_type].
    assert (D : field_decls mn f = app (decl_if (e_in r) (nm "InLookup") (enum_set (GEnum n) (e_in r)))
      (app (decl_if (e_not_in r) (nm "NotInLookup") (enum_set (GEnum n) (e_not_in r))) [])).
    { unfold field_decls. rewrite R, Q, T, app_nil_r. reflexivity. }
    pose proof (lists_decl _ _ _ _ _ c (GEnum n) false H1 H2 D eq_refl eq_refl) as L.
    assert (W1 : forall z, In z (e_in r) -> enum_fits z) by (intros z Hz; apply W; auto).
    assert (W2 : forall z, In z (e_not_in r) -> enum_fits z) by (intros z Hz; apply W; auto).
    rewrite !ne_and in L by (first [apply enum_set_tab|intros ->; apply enum_set_ok; [easy|reflexivity]]).
    rewrite !enum_set_ok in L by auto. unfold enum_fit. split.
    + intros (DF & LI & _). destruct (proj1 L (conj DF LI)) as (B1 & B2 & _). repeat split; auto; destruct H; discriminate.
    + intros ((_ & B1 & B2) & _). destruct (proj2 L) as [DF LI]; auto. split; auto. split; auto. discriminate.
Qed.

(** ** Keys and values of maps *)

Lemma map_decls k v q : f_type f = FMap k v -> fr_typ (f_rules f) = Some (RMap q) ->
  decls_fit /\ assoc (nm "InLookup") (field_decls mn f) = None /\
  assoc (nm "NotInLookup") (field_decls mn f) = None /\
  ((exists p, assoc (nm "Pattern") (field_decls mn f) = Some (DRegex p)) <->
   has_pattern (p_keys q) || has_pattern (p_values q) = true) /\
  (NoDup (map fst (field_decls mn f)) <-> has_pattern (p_keys q) && has_pattern (p_values q) = false).
Proof using.
  clear. intros T R. unfold decls_fit, field_decls. rewrite R.
  assert (S : forall fr, match str_rules_of fr with Some s => decl_opt (s_pattern s) (nm "Pattern") | None => [] end =
    match match str_rules_of fr with Some s => s_pattern s | None => None end with Some p => [(nm "Pattern", DRegex p)] | None => [] end).
  { intros fr. destruct (str_rules_of fr); reflexivity. }
  assert (S' : forall fr, has_pattern fr = is_some match str_rules_of fr with Some s => s_pattern s | None => None end).
  { intros [[m [[]|]]|]; try reflexivity. }
  rewrite !S, !S'. clear S S'.
  destruct (match str_rules_of (p_keys q) with Some s => s_pattern s | None => None end) as [x|],
    (match str_rules_of (p_values q) with Some s => s_pattern s | None => None end) as [y|];
    cbn [app assoc is_some orb andb map fst]; rewrite ?String.eqb_refl, ?eqb_nm by reflexivity;
    cbn [String.eqb Ascii.eqb Bool.eqb]; repeat split; auto; try (repeat constructor; fail); try discriminate;
    try (intros; eexists; reflexivity); try (intros [p H]; discriminate H).
  - intros H. inversion H as [|a l N1 N2]. subst. contradiction N1. now left.
  - intros _. repeat constructor. intros [].
  - intros _. repeat constructor. intros [].
Qed.

Lemma map_leaf uuid p k v q e fr m r c : f_type f = FMap k v -> fr_typ (f_rules f) = Some (RMap q) ->
  (p = PKey /\ fr = p_keys q) \/ (p = PVal /\ fr = p_values q) -> fr = Some (FR m (Some r)) ->
  rule_checked r -> rule_at e r -> on_wrapped e r = false -> rule_typed r -> cx_msg c = mn -> cx_field c = f_name f ->
  (leaf_stmt c (go_type e) r /\ wk_uuid uuid fr <->
   leaf_fit uuid p false (go_type e) r /\ (bytes_pattern fr = true -> has_pattern (p_keys q) || has_pattern (p_values q) = true)).
Proof using tabs.
  intros T R P E K A O W H1 H2.
  destruct (map_decls k v q T R) as (_ & D1 & D2 & D3 & _).
  destruct (tab_in c H1 H2) as (T1 & T2 & T3). rewrite D1 in T1. rewrite D2 in T2.
  assert (P0 : p <> PTop) by (destruct P as [[-> _]|[-> _]]; discriminate).
  assert (P1 : p = PKey \/ p = PVal) by tauto.
  assert (L : forall A t conv (l l' : list A), lists_ok c t conv (negb (is_nil l)) (negb (is_nil l')) <-> l = [] /\ l' = []).
  { intros A0 t' conv l l'. unfold GoTypeFacts.lists_ok. rewrite T1, T2.
    destruct l, l'; cbn; split; intros H; try (destruct H; discriminate); auto; try (split; intros; discriminate);
      destruct H as [X Y]; try contradiction (X eq_refl); contradiction (Y eq_refl). }
  destruct r; try contradiction.
  3: { cbn [GoFieldFacts.leaf_stmt leaf_fit]. rewrite L, T3. unfold str_fit, no_lists.
    assert (PT : s_pattern r <> None -> has_pattern (p_keys q) || has_pattern (p_values q) = true).
    { intros X. destruct P as [[_ <-]|[_ <-]]; rewrite E; cbn; destruct (s_pattern r); try reflexivity; try (now contradiction X).
      apply orb_true_r. }
    assert (B : bytes_pattern fr = false) by (rewrite E; reflexivity). rewrite B.
    split.
    - intros ((L1 & L2 & (E1 & E2) & _) & U). rewrite E1, E2. repeat split; auto; try discriminate. exact (U _ _ E).
    - intros ((L1 & L2 & N & _ & _ & U) & _). split; [|intros m' s E'; rewrite E in E'; injection E' as <- <-; exact U].
      split; auto. split; auto. split; auto. intros X. apply D3, PT, X. }
  4: { cbn [GoFieldFacts.leaf_stmt leaf_fit]. rewrite L. unfold enum_fit, no_lists.
    split.
    - intros ((E1 & E2) & U). rewrite E1, E2. repeat split; auto. rewrite E. discriminate.
    - intros ((N & _) & _). split; auto. intros m' s E'. rewrite E in E'. discriminate E'. }
  all: match goal with |- GoFieldFacts.leaf_stmt _ _ _ ?r /\ _ <-> _ =>
      rewrite (bare_leaf uuid p c _ r); auto; try solve [apply at_typed; auto|discriminate] end;
    rewrite T3;
    (split; [intros ((X & Y) & _); split; auto; rewrite E; cbn; try discriminate|
      intros (X & Y); split; [|intros m' s E'; rewrite E in E'; discriminate E'];
      split; auto; try discriminate]).
  - intros Z. apply D3, (Y r eq_refl). destruct (b_pattern r); discriminate.
  - intros s [= <-] Z. apply D3, Y. rewrite E. cbn. destruct (b_pattern r); [reflexivity|now contradiction Z].
Qed.
End Field.
