(** The templates of lists, maps, fields, oneofs and whole messages report exactly the
    violated requirements of the specification. *)
From Coq Require Import Lia ZifyBool ZifyN ZifyNat SpecFloat.
From Verif Require Import Base Utf8 Num Rules Types Time Iface Checker GoIR GoGen Regex Known GoSem
  Spec Wt BaseFacts Utf8Facts NumFacts TimeFacts RegexFacts KnownFacts ExecFacts ExecLeaf ExecRule.

(** ** Loops *)
Lemma outcome_loop {A} D all (f : A -> state -> out) (q : A -> list item) l :
  (forall x st, In x l -> outcome D all (q x) st (f x st)) ->
  forall st, outcome D all (flat_map q l) st (loop f l st).
Proof.
  induction l as [|x t IH]; intros H st; cbn [loop flat_map]; [apply outcome_nil|].
  change (outcome D all (q x ++ flat_map q t) st
    (match f x st with ONext st' => loop f t st' | ORet e => ORet e | OStuck => OStuck end)).
  apply outcome_bind; [apply H; left; auto|]. intros st' _. apply IH. intros; apply H; right; auto.
Qed.

(** ** Sets of seen items *)
Lemma set_assoc_same {A} x (v : A) l : assoc x (set_assoc x v l) = Some v.
Proof.
  induction l as [|[k w] t IH]; cbn.
  - now rewrite String.eqb_refl.
  - destruct (String.eqb x k) eqn:E; cbn; [now rewrite String.eqb_refl|now rewrite E].
Qed.

Lemma SFcompare_eq_trans a b c : SFcompare a b = Some Eq -> SFcompare b c = Some Eq -> SFcompare a c = Some Eq.
Proof.
  destruct a as [[]|[]| |[] ma ea], b as [[]|[]| |[] mb eb], c as [[]|[]| |[] mc ec]; cbn; try discriminate; auto.
  all: destruct (Z.compare_spec ea eb), (Z.compare_spec eb ec); subst; try discriminate.
  all: rewrite Z.compare_refl; change (Pos.compare_cont Eq) with Pos.compare;
    try (intros H1 H2; injection H1 as H1; injection H2 as H2).
  all: destruct (Pos.compare_spec ma mb), (Pos.compare_spec mb mc); cbn in *; try discriminate; subst; now rewrite Pos.compare_refl.
Qed.

Lemma neq_trans a b c : neq a b -> neq b c -> neq a c.
Proof. destruct a, b, c; cbn; try tauto; [congruence|apply SFcompare_eq_trans]. Qed.

Definition ukey (v : value) : value := match v with VByt s => VStr s | v => v end.

Definition scalar (e : etype) : Prop := is_embed e = false.

Lemma ukey_same sc e x y : scalar e -> wt_elem sc e x -> wt_elem sc e y ->
  (key_eqb (ukey x) (ukey y) = true <-> same_item x y).
Proof.
  unfold scalar. intros He Hx Hy. inversion Hx; subst; try discriminate He; inversion Hy; subst; cbn.
  - apply num_eqb_spec.
  - rewrite Bool.eqb_true_iff. split; congruence.
  - rewrite bytes_eqb_eq. split; congruence.
  - rewrite bytes_eqb_eq. split; congruence.
  - rewrite Z.eqb_eq. split; congruence.
Qed.

Lemma same_item_trans sc e x y z : scalar e -> wt_elem sc e x -> wt_elem sc e y -> wt_elem sc e z ->
  same_item x y -> same_item y z -> same_item x z.
Proof.
  unfold scalar. intros He Hx Hy Hz. inversion Hx; subst; try discriminate He; inversion Hy; subst; inversion Hz; subst; cbn;
    try congruence. apply neq_trans.
Qed.

Lemma unique_key_ok sc e x : scalar e -> wt_elem sc e x -> unique_key (is_bytes_ty e) (RV x) = Some (ukey x).
Proof. unfold scalar. intros He Hx. inversion Hx; subst; try discriminate He; reflexivity. Qed.

Lemma elem_tpl_none c k e o : elem_tpl c k e o = elem_tpl c k e (Some (rules_or_none o)).
Proof. destruct o as [[mr [r|]]|]; reflexivity. Qed.

Lemma elem_none_reqs orc sc emb e o v : elem_none e o = true -> elem_reqs orc sc emb e (rules_or_none o) v = [].
Proof. destruct o as [[mr [r|]]|]; cbn; try discriminate; now destruct (is_embed e). Qed.

Lemma is_nil_set sc e x : is_embed e = true -> wt_elem sc e x ->
  exists b, is_nil_val (RV x) = Some b /\ (b = false <-> is_set x).
Proof.
  intros He Hx. inversion Hx; subst; try discriminate He; cbn [is_nil_val is_set]; eexists; (split; [reflexivity|]);
    try destruct o; cbn; split; intros; congruence.
Qed.

(** ** Checked list and map rules *)
Definition opt_checked re_ok sch e (o0 o : option field_rules) : Prop :=
  check_fr re_ok sch (CElem e) (rules_or_none o0) = Some (rules_or_none o).

Lemma check_rep re_ok sch e mr r0 fr :
  check_fr re_ok sch (CField (FRep e)) (FR mr (Some (RRepeated r0))) = Some fr ->
  exists r, fr = FR mr (Some (RRepeated r)) /\ r_min r = r_min r0 /\ r_max r = r_max r0 /\
    r_unique r = r_unique r0 /\ r_ignore_empty r = r_ignore_empty r0 /\
    opt_checked re_ok sch e (r_items r0) (r_items r).
Proof.
  destruct r0 as [mn mx u [it|] ie]; cbn; unfold guard; intros H;
    match type of H with (if ?b then _ else _) = _ => destruct b; [|discriminate] end.
  - destruct (check_fr re_ok sch (CElem e) it) as [it'|] eqn:E; [|discriminate]. injection H as <-.
    eexists. split; [reflexivity|]. unfold opt_checked. cbn. auto.
  - injection H as <-. eexists. split; [reflexivity|]. unfold opt_checked. cbn. auto 6.
Qed.

Lemma check_map re_ok sch k v mr r0 fr :
  check_fr re_ok sch (CField (FMap k v)) (FR mr (Some (RMap r0))) = Some fr ->
  exists r, fr = FR mr (Some (RMap r)) /\ p_min r = p_min r0 /\ p_max r = p_max r0 /\
    p_no_sparse r = p_no_sparse r0 /\ p_ignore_empty r = p_ignore_empty r0 /\
    opt_checked re_ok sch k (p_keys r0) (p_keys r) /\ opt_checked re_ok sch v (p_values r0) (p_values r).
Proof.
  destruct r0 as [mn mx ns ks vs ie]; cbn; unfold guard; intros H;
    match type of H with (if ?b then _ else _) = _ => destruct b; [|discriminate] end.
  assert (A : forall e o0 o, match o0 with None => Some None
             | Some f => option_map Some (check_fr re_ok sch (CElem e) f) end = Some o -> opt_checked re_ok sch e o0 o).
  { intros e [f|] o Ho; unfold opt_checked; cbn in *.
    - destruct (check_fr re_ok sch (CElem e) f); [|discriminate]. injection Ho as <-. reflexivity.
    - injection Ho as <-. reflexivity. }
  destruct (match ks with None => Some None | Some ks => option_map Some (check_fr re_ok sch (CElem k) ks) end) as [ks'|] eqn:E1; [|discriminate].
  destruct (match vs with None => Some None | Some vs => option_map Some (check_fr re_ok sch (CElem v) vs) end) as [vs'|] eqn:E2; [|discriminate].
  injection H as <-. eexists. split; [reflexivity|]. cbn. repeat (split; auto).
Qed.

Section Field.
Variable sc : schema.
Variable orc : oracles.
Variable decls : list (string * pkgvar).
Variable uuidd : bool.
Variable rec : bool -> string -> msgval -> vres.
Variable hs : list callee.
Variable all : bool.
Variable m : msgval.
Variable mn : string.
Variable sc0 : schema.
Hypothesis same_enums : forall e, find_enum sc e = find_enum sc0 e.
Hypothesis same_methods : forall n,
  option_map md_methods (find_msg sc n) = option_map md_methods (find_msg sc0 n).
Hypothesis orc_ok : oracle_ok orc.
Variable re_ok : bytes -> bool.
Variable sch : schema.

Notation ex := (exec sc orc decls uuidd rec hs all m).
Notation emb := (ExecFacts.emb sc rec all).
Notation runs := (ExecFacts.runs sc orc decls uuidd rec hs all m mn).
Notation runs_w := (ExecFacts.runs_w sc orc decls uuidd rec hs all m mn).
Notation ctx_ok := (ExecFacts.ctx_ok m mn).
Notation describes := (ExecFacts.describes sc rec all mn).
Notation elem_env := (ExecRule.elem_env decls uuidd hs).
Notation rule_env := (ExecRule.rule_env decls uuidd hs).
Notation no_stuck := (ExecRule.no_stuck sc rec all sc0).

(** ** Sizes *)
Lemma runs_count en c ix v L lo hi one many : ctx_ok en c ix v -> len_val v = Some L -> lens_ok [lo; hi] ->
  runs en (count_tpl c lo hi one many) (tagf (cx_field c) ix (count_reqs L lo hi one many)).
Proof.
  intros Hc HL Hok. unfold count_tpl, count_reqs.
  assert (B : forall n, lo = Some n \/ hi = Some n -> (n < 2^63)%N) by (intros n [->| ->]; apply Hok; cbn; auto).
  destruct lo as [a|]; [assert (Ha := B a (or_introl eq_refl))|];
    (destruct hi as [b|]; [assert (Hb := B b (or_intror eq_refl))|]); cbn [getN].
  - destruct (N.eqb_spec a 0); cbn [negb].
    + eapply runs_chk; [exact Hc|eapply eval_CLen; eassumption|]. cbn [cmp_n]. lia.
    + destruct (N.eqb_spec a b).
      * eapply runs_chk; [exact Hc|eapply eval_CLen; eassumption|]. cbn [cmp_n]. lia.
      * eapply runs_chk; [exact Hc|apply eval_COr; eapply eval_CLen; eassumption|]. cbn [cmp_n]. lia.
  - destruct (N.eqb_spec a 0); cbn [negb]; [apply runs_skip|].
    destruct (N.eqb_spec a 0); [contradiction|].
    eapply runs_chk; [exact Hc|eapply eval_CLen; eassumption|]. cbn [cmp_n]. lia.
  - cbn. eapply runs_chk; [exact Hc|eapply eval_CLen; eassumption|]. cbn [cmp_n]. lia.
  - cbn. apply runs_skip.
Qed.

(** ** Lists *)
Definition seen (e : etype) (keys earlier : list value) : Prop :=
  forall x, wt_elem sc0 e x -> (existsb (key_eqb (ukey x)) keys = true <-> Exists (same_item x) earlier).

Definition named (f : string) (l : list (option ixval * req)) : list item := map (fun r => (f, r)) l.
Lemma named_app f a b : named f (a ++ b) = named f a ++ named f b.
Proof. apply map_app. Qed.
Lemma named_tag f ix l : named f (tag ix l) = tagf f ix l.
Proof. unfold named, tag, tagf. rewrite map_map. reflexivity. Qed.

Lemma runs_items c e uniq set (fr0 fr : field_rules) :
  (uniq = true -> scalar e) -> cx_msg c = mn ->
  let ci := mkCtx (cx_msg c) (cx_field c) (cx_ftype c) (AVar "item") (Some "idx"%string) in
  check_fr re_ok sch (CElem e) fr0 = Some fr -> elem_ok sc PItem e fr -> elem_env ci e fr -> type_ok sc0 e ->
  forall l earlier i st, Forall (wt_elem sc0 e) l -> Forall (no_stuck e) l -> Forall (wt_elem sc0 e) earlier ->
  (uniq = true -> exists keys, assoc set (st_sets st) = Some keys /\ seen e keys earlier) ->
  outcome describes all (named (cx_field c) (items_reqs orc sc0 emb e uniq fr0 earlier i l)) st
    (loop (fun p st => ex [("idx"%string, RIdx (fst p)); ("item"%string, RV (snd p))]
        (SSeq (if uniq then SUnique set (is_bytes_ty e) (AVar "item")
                              (SFail (err_idx c "idx" [PStr "repeated value must contain unique items"])) else SSkip)
              (elem_tpl ci false e (Some fr))) st)
      (enum_from i l) st).
Proof.
  intros Hu Hmn ci Hck Hok Henv Hty. induction l as [|x t IH]; intros earlier i st Hwt Hns Hear Hset.
  { apply outcome_nil. }
  apply Forall_cons_iff in Hwt, Hns. destruct Hwt as [Hx Ht], Hns as [Nx Nt].
  cbn [enum_from loop items_reqs]. rewrite named_app.
  set (body := ex _ _ st). cbn [fst snd] in body.
  set (en := [("idx"%string, RIdx i); ("item"%string, RV x)]) in *.
  assert (Hctx : ctx_ok en ci (Some (IxN i)) (RV x)) by (constructor; auto).
  assert (G : good_ctx ci) by (split; cbn; auto 6).
  assert (He : runs en (elem_tpl ci false e (Some fr)) (tagf (cx_field c) (Some (IxN i)) (elem_reqs orc sc0 emb e fr0 x))).
  { change (cx_field c) with (cx_field ci). eapply runs_elem with (p := PItem) (ct := CElem e); eauto. discriminate. }
  assert (Hone : outcome describes all
     (named (cx_field c) (tag (Some (IxN i)) (whenb uniq [want (~ Exists (same_item x) earlier) [PStr "repeated value must contain unique items"]]
         ++ elem_reqs orc sc0 emb e fr0 x))) st body /\
     forall st', body = ONext st' -> uniq = true -> exists keys, assoc set (st_sets st') = Some keys /\ seen e keys (earlier ++ [x])).
  { rewrite named_tag, tagf_app. subst body. destruct uniq.
    2:{ split; [|discriminate]. change (tagf (cx_field c) (Some (IxN i)) (whenb false [want (~ Exists (same_item x) earlier) [PStr "repeated value must contain unique items"]])) with (@nil item).
        cbn [app exec]. apply He. }
    specialize (Hu eq_refl). destruct (Hset eq_refl) as (keys & Hk & Hseen). cbn [exec eval_access assoc en String.eqb Ascii.eqb Bool.eqb].
    change (assoc "item"%string en) with (Some (RV x)). cbn iota.
    rewrite (unique_key_ok _ _ _ Hu Hx), Hk. specialize (Hseen x Hx) as Sx.
    destruct (existsb (key_eqb (ukey x)) keys) eqn:Ex.
    - (* seen before *)
      assert (Hd := proj1 Sx eq_refl).
      assert (Hf : outcome' describes all (tagf (cx_field c) (Some (IxN i)) (whenb true [want (~ Exists (same_item x) earlier) [PStr "repeated value must contain unique items"]])) st
                 (fail all en (err_idx c "idx" [PStr "repeated value must contain unique items"]) st)).
      { cbn [whenb tagf map]. eapply fail_outcome; [reflexivity| |].
        - unfold it_holds. cbn. intros N; apply N; exact Hd.
        - exists None. cbn. rewrite Hmn. auto. }
      split.
      + apply outcome_bind; [apply Hf|]. intros st' _. apply He.
      + intros st' E _. destruct (fail _ _ _ st) as [s1|?|] eqn:Ef; try discriminate.
        destruct Hf as [_ Hs1]. specialize (He s1). rewrite E in He. destruct He as [_ Hs2].
        exists keys. split; [congruence|]. intros y Hy. rewrite (Hseen y Hy), Exists_app. split; [auto|].
        intros [H|H]; auto. inversion H as [? ? S|? ? S]; subst; [|inversion S].
        apply Exists_exists in Hd. destruct Hd as (z & Hz & Sz). apply Exists_exists. exists z. split; auto.
        rewrite Forall_forall in Hear. eapply same_item_trans with (y := x); eauto.
    - (* new *)
      assert (Hnd : ~ Exists (same_item x) earlier) by (intros N; apply Sx in N; congruence).
      set (st1 := mkSt (st_errs st) (set_assoc set (ukey x :: keys) (st_sets st))).
      assert (Hst1 : assoc set (st_sets st1) = Some (ukey x :: keys)) by apply set_assoc_same.
      split.
      + apply (outcome_bind describes all _ _ st (ONext st1) (fun s => ex en (elem_tpl ci false e (Some fr)) s)).
        * unfold outcome. destruct all; [exists []; split; [|cbn; now rewrite app_nil_r]|split; [|reflexivity]];
            cbn [whenb tagf map]; [apply reports_nil|]; constructor; auto.
        * intros st' [= <-]. apply He.
      + intros st' E _. specialize (He st1). rewrite E in He. destruct He as [_ Hs2]. rewrite Hs2.
        exists (ukey x :: keys). split; [exact Hst1|]. intros y Hy. cbn [existsb].
        rewrite orb_true_iff, (ukey_same _ _ _ _ Hu Hy Hx), (Hseen y Hy), Exists_app.
        split; [intros [H|H]; auto|intros [H|H]; auto].
        inversion H as [? ? S|? ? S]; subst; [auto|inversion S]. }
  destruct Hone as [H1 H2].
  change (outcome describes all (named (cx_field c) (tag (Some (IxN i)) (whenb uniq [want (~ Exists (same_item x) earlier) [PStr "repeated value must contain unique items"]]
         ++ elem_reqs orc sc0 emb e fr0 x)) ++ named (cx_field c) (items_reqs orc sc0 emb e uniq fr0 (earlier ++ [x]) (S i) t)) st
   (match body with ONext st' => loop (fun p st => ex [("idx"%string, RIdx (fst p)); ("item"%string, RV (snd p))]
        (SSeq (if uniq then SUnique set (is_bytes_ty e) (AVar "item")
                              (SFail (err_idx c "idx" [PStr "repeated value must contain unique items"])) else SSkip)
              (elem_tpl ci false e (Some fr))) st) (enum_from (S i) t) st' | ORet g => ORet g | OStuck => OStuck end)).
  apply outcome_bind; [exact H1|]. intros st' E. apply IH; auto.
  apply Forall_app; auto.
Qed.

Lemma items_reqs_nil e fr o earlier i l : elem_none e o = true -> fr = rules_or_none o ->
  items_reqs orc sc0 emb e false fr earlier i l = [].
Proof.
  intros H ->. revert earlier i. induction l as [|x t IH]; intros; cbn [items_reqs]; auto.
  rewrite elem_none_reqs by auto. cbn. apply IH.
Qed.

Lemma opt_checked_none e o0 o : opt_checked re_ok sch e o0 o -> elem_none e o = true -> elem_none e o0 = true.
Proof.
  unfold opt_checked. destruct o0 as [[mr [r0|]]|]; cbn [rules_or_none elem_none]; intros H Hn.
  - apply check_fr_rule in H; [|eauto]. destruct H as (r & Hr & _).
    destruct o as [fr|]; cbn in Hr; [subst; discriminate|discriminate].
  - cbn in H. injection H as H. destruct o as [fr|]; cbn in H; subst; exact Hn.
  - cbn in H. injection H as H. destruct o as [fr|]; cbn in H; subst; exact Hn.
Qed.

Lemma runs_rep c e r0 r l :
  ctx_ok [] c None (RV (VList l)) ->
  lens_ok [r_min r; r_max r] -> (getb (r_unique r) = true -> is_embed e = false) ->
  r_min r = r_min r0 -> r_max r = r_max r0 -> r_unique r = r_unique r0 -> r_ignore_empty r = r_ignore_empty r0 ->
  opt_checked re_ok sch e (r_items r0) (r_items r) ->
  elem_ok sc PItem e (rules_or_none (r_items r)) ->
  elem_env (mkCtx (cx_msg c) (cx_field c) (cx_ftype c) (AVar "item") (Some "idx"%string)) e (rules_or_none (r_items r)) ->
  type_ok sc0 e -> Forall (wt_elem sc0 e) l -> Forall (no_stuck e) l ->
  runs_w [] (rep_tpl c e r) (named (cx_field c) (rep_reqs orc sc0 emb e r0 l)).
Proof.
  intros Hc Hl Hu E1 E2 E3 E4 Hit Hok Henv Hty Hwt Hns. unfold rep_tpl, rep_reqs.
  rewrite E1, E2, E3, E4 in *.
  replace (named (cx_field c) (if getb (r_ignore_empty r0) && is_nil l then [] else
      tag None (count_reqs (N.of_nat (List.length l)) (r_min r0) (r_max r0) " item(s)" " items, inclusive")
      ++ items_reqs orc sc0 emb e (getb (r_unique r0)) (rules_or_none (r_items r0)) [] 0 l))
    with (if getb (r_ignore_empty r0) && is_nil l then [] else
      tagf (cx_field c) None (count_reqs (N.of_nat (List.length l)) (r_min r0) (r_max r0) " item(s)" " items, inclusive")
      ++ named (cx_field c) (items_reqs orc sc0 emb e (getb (r_unique r0)) (rules_or_none (r_items r0)) [] 0 l)).
  2:{ destruct (_ && _); [reflexivity|]. rewrite named_app. now rewrite named_tag. }
  eapply runs_w_guarded; [apply (co_acc _ _ _ _ _ _ Hc)| |].
  { intros _. rewrite (eval_CLen sc orc decls rec all m mn [] _ (N.of_nat (List.length l))); [|reflexivity|lia].
    destruct l; reflexivity. }
  apply runs_w_SSeq; [apply runs_weaken; eapply runs_count; [exact Hc|reflexivity|exact Hl]|].
  rewrite elem_tpl_none. intros st.
  destruct (getb (r_unique r0)) eqn:Eu.
  - cbn [orb exec]. rewrite (co_acc _ _ _ _ _ _ Hc).
    set (st1 := mkSt _ _).
    assert (O := runs_items c e true (lookup c "Unique") (rules_or_none (r_items r0)) (rules_or_none (r_items r)) Hu (co_msg _ _ _ _ _ _ Hc) Hit Hok Henv Hty l [] 0%nat st1 Hwt Hns (Forall_nil _)).
    unfold outcome in *. apply O. intros _. exists []. split; [apply set_assoc_same|].
    intros x _. cbn. split; [discriminate|intros X; inversion X].
  - cbn [orb]. destruct (elem_none e (r_items r)) eqn:En; cbn [negb].
    + erewrite items_reqs_nil; [|eapply opt_checked_none; eauto|reflexivity]. apply outcome_nil.
    + cbn [exec]. rewrite (co_acc _ _ _ _ _ _ Hc).
      apply (runs_items c e false (lookup c "Unique") (rules_or_none (r_items r0)) (rules_or_none (r_items r))); auto; try discriminate.
      apply (co_msg _ _ _ _ _ _ Hc).
Qed.

(** ** Maps *)
Lemma runs_map c k v r0 r l :
  ctx_ok [] c None (RV (VMap l)) ->
  lens_ok [p_min r; p_max r] -> (getb (p_no_sparse r) = true -> is_embed v = true) ->
  p_min r = p_min r0 -> p_max r = p_max r0 -> p_no_sparse r = p_no_sparse r0 -> p_ignore_empty r = p_ignore_empty r0 ->
  opt_checked re_ok sch k (p_keys r0) (p_keys r) ->
  opt_checked re_ok sch v (p_values r0) (p_values r) ->
  elem_ok sc PKey k (rules_or_none (p_keys r)) -> elem_ok sc PVal v (rules_or_none (p_values r)) ->
  elem_env (mkCtx (cx_msg c) (cx_field c) (cx_ftype c) (AVar "key") (Some "key"%string)) k (rules_or_none (p_keys r)) ->
  elem_env (mkCtx (cx_msg c) (cx_field c) (cx_ftype c) (AVar "val") (Some "key"%string)) v (rules_or_none (p_values r)) ->
  type_ok sc0 v -> map_key k = true ->
  Forall (fun p => wt_elem sc0 k (fst p) /\ wt_elem sc0 v (snd p)) l -> Forall (fun p => no_stuck v (snd p)) l ->
  runs_w [] (map_tpl c k v r) (named (cx_field c) (map_reqs orc sc0 emb k v r0 l)).
Proof.
  intros Hc Hl Hsp E1 E2 E3 E4 Hks Hvs Hok1 Hok2 Henv1 Henv2 Hty Hkey Hwt Hns. unfold map_tpl.
  rewrite E1, E2, E3, E4 in *.
  set (q := fun p : value * value => whenb (getb (p_no_sparse r0))
              [want (is_set (snd p)) [PStr "value cannot be sparse, all pairs must be non-nil"]]
            ++ elem_reqs orc sc0 emb k (rules_or_none (p_keys r0)) (fst p)
            ++ elem_reqs orc sc0 emb v (rules_or_none (p_values r0)) (snd p)).
  assert (EQ : named (cx_field c) (map_reqs orc sc0 emb k v r0 l) = if getb (p_ignore_empty r0) && is_nil l then [] else
      tagf (cx_field c) None (count_reqs (N.of_nat (List.length l)) (p_min r0) (p_max r0) " pair(s)" " pairs, inclusive")
      ++ flat_map (fun p => tagf (cx_field c) (Some (IxV (fst p))) (q p)) l).
  { unfold map_reqs. destruct (_ && _); [reflexivity|]. rewrite named_app, named_tag.
    f_equal. clear. induction l as [|p t IH]; cbn [flat_map]; auto. rewrite named_app.
    now rewrite named_tag, IH. }
  rewrite EQ. clear EQ.
  eapply runs_w_guarded; [apply (co_acc _ _ _ _ _ _ Hc)| |].
  { intros _. rewrite (eval_CLen sc orc decls rec all m mn [] _ (N.of_nat (List.length l))); [|reflexivity|lia].
    destruct l; reflexivity. }
  apply runs_w_SSeq; [apply runs_weaken; eapply runs_count; [exact Hc|reflexivity|exact Hl]|].
  rewrite (elem_tpl_none _ _ k), (elem_tpl_none _ _ v). intros st.
  destruct (getb (p_no_sparse r0) || negb (elem_none v (p_values r)) || negb (elem_none k (p_keys r))) eqn:Eany.
  - cbn [exec]. rewrite (co_acc _ _ _ _ _ _ Hc). apply outcome_loop. intros p st1 Hp.
    rewrite Forall_forall in Hwt, Hns. destruct (Hwt p Hp) as [W1 W2]. specialize (Hns p Hp).
    set (en := [("key"%string, RV (fst p)); ("val"%string, RV (snd p))]).
    set (ck := mkCtx _ _ _ (AVar "key") _) in *. set (cv := mkCtx _ _ _ (AVar "val") _) in *.
    assert (C1 : ctx_ok en ck (Some (IxV (fst p))) (RV (fst p))).
    { constructor; auto. apply (co_msg _ _ _ _ _ _ Hc). }
    assert (C2 : ctx_ok en cv (Some (IxV (fst p))) (RV (snd p))).
    { constructor; auto. apply (co_msg _ _ _ _ _ _ Hc). }
    assert (G1 : good_ctx ck) by (split; cbn; auto 6).
    assert (G2 : good_ctx cv) by (split; cbn; auto 6).
    change (outcome describes all (tagf (cx_field c) (Some (IxV (fst p))) (q p)) st1
      (ex en (SSeq (if getb (p_no_sparse r0) then SIf (AVar "val") CNil (SFail (err_idx c "key" [PStr "value cannot be sparse, all pairs must be non-nil"])) SSkip else SSkip)
         (SSeq (elem_tpl ck true k (Some (rules_or_none (p_keys r)))) (elem_tpl cv false v (Some (rules_or_none (p_values r)))))) st1)).
    unfold q. rewrite !tagf_app. apply runs_w_SSeq; [|apply runs_w_SSeq; apply runs_weaken].
    + apply runs_weaken. destruct (getb (p_no_sparse r0)) eqn:Esp; cbn [whenb]; [|apply runs_skip].
      specialize (Hsp eq_refl).
      intros st2. cbn [exec]. change (eval_access m en (AVar "val")) with (Some (RV (snd p))). cbn iota.
      assert (Hn : exists b, is_nil_val (RV (snd p)) = Some b /\ (b = false <-> is_set (snd p))).
      { eapply is_nil_set; eauto. }
      destruct Hn as (b & Hb & Hs). cbn [eval_cond]. rewrite Hb. destruct b.
      * eapply fail_outcome; [reflexivity| |].
        -- unfold it_holds. cbn. intros Hx. apply Hs in Hx. discriminate.
        -- exists None. cbn. rewrite (co_msg _ _ _ _ _ _ Hc). auto.
      * apply next_outcome. constructor; [|constructor]. unfold it_holds. cbn. now apply Hs.
    + change (cx_field c) with (cx_field ck). eapply runs_elem with (p := PKey) (ct := CElem k); eauto.
      * intros n x -> . discriminate Hkey.
      * destruct k; try exact I; discriminate Hkey.
      * discriminate.
    + change (cx_field c) with (cx_field cv). eapply runs_elem with (p := PVal) (ct := CElem v); eauto. discriminate.
  - apply orb_false_iff in Eany. destruct Eany as [Eany Ek]. apply orb_false_iff in Eany. destruct Eany as [Es Ev].
    apply negb_false_iff in Ek, Ev.
    replace (flat_map (fun p => tagf (cx_field c) (Some (IxV (fst p))) (q p)) l) with (@nil item); [apply outcome_nil|].
    unfold q. rewrite Es. clear - Hks Hvs Ek Ev. induction l as [|p t IH]; cbn [flat_map]; auto.
    rewrite <- IH, !elem_none_reqs; auto; eapply opt_checked_none; eauto.
Qed.
End Field.
