(** Each template, executed, reports exactly the violated requirements of the
    specification, in order. *)
From Coq Require Import Lia ZifyBool ZifyN ZifyNat.
From Verif Require Import Base Utf8 Num Rules Types Time Iface Checker GoIR GoGen Regex Known GoSem
  Spec Wt BaseFacts Utf8Facts NumFacts TimeFacts RegexFacts KnownFacts.

(** A reported requirement: field, index, requirement. *)
Definition item := (string * (option ixval * req))%type.
Definition it_holds (i : item) : Prop := rq_holds (snd (snd i)).
Definition tagf (f : string) (ix : option ixval) (l : list req) : list item :=
  map (fun r => (f, (ix, r))) l.

(** What the execution says about a list of requirements: [D i e] when error [e] describes
    the violation of [i]. *)
Inductive reports (D : item -> gerr -> Prop) : list item -> list gerr -> Prop :=
| rep_nil : reports D [] []
| rep_ok i l es : it_holds i -> reports D l es -> reports D (i :: l) es
| rep_bad i l e es : ~ it_holds i -> D i e -> reports D l es -> reports D (i :: l) (e :: es).

(** The first violated requirement. *)
Definition first_bad (D : item -> gerr -> Prop) (l : list item) (e : gerr) : Prop :=
  exists l1 i l2, l = l1 ++ i :: l2 /\ Forall it_holds l1 /\ ~ it_holds i /\ D i e.

Definition outcome (D : item -> gerr -> Prop) (all : bool) (l : list item) (st : state) (o : out) : Prop :=
  match o with
  | ONext st' =>
      if all then exists es, reports D l es /\ st_errs st' = st_errs st ++ es
      else Forall it_holds l /\ st_errs st' = st_errs st
  | ORet e => all = false /\ first_bad D l e
  | OStuck => False
  end.

(** The same, and the unique-sets are left alone. *)
Definition outcome' (D : item -> gerr -> Prop) (all : bool) (l : list item) (st : state) (o : out) : Prop :=
  outcome D all l st o /\ match o with ONext st' => st_sets st' = st_sets st | _ => True end.

Section Gen.
Variable D : item -> gerr -> Prop.
Variable all : bool.

Lemma reports_app l1 l2 es1 es2 : reports D l1 es1 -> reports D l2 es2 -> reports D (l1 ++ l2) (es1 ++ es2).
Proof. induction 1; simpl; auto; intros; [apply rep_ok|apply rep_bad]; auto. Qed.

Lemma reports_nil l : Forall it_holds l -> reports D l [].
Proof. induction 1; constructor; auto. Qed.

Lemma outcome_nil st : outcome D all [] st (ONext st).
Proof. unfold outcome. destruct all; [exists []; split; [constructor|now rewrite app_nil_r] | auto]. Qed.

(** Sequencing. *)
Lemma outcome_bind l1 l2 st o (k : state -> out) :
  outcome D all l1 st o -> (forall st', o = ONext st' -> outcome D all l2 st' (k st')) ->
  outcome D all (l1 ++ l2) st (match o with ONext st' => k st' | ORet e => ORet e | OStuck => OStuck end).
Proof.
  intros H1 H2. destruct o as [st'|e|]; [|destruct H1 as [Ha (a & i & b & -> & Hb)]|elim H1].
  - specialize (H2 st' eq_refl). unfold outcome in *. destruct (k st') as [st2|e|]; auto.
    + destruct all.
      * destruct H1 as (es1 & R1 & E1), H2 as (es2 & R2 & E2). exists (es1 ++ es2).
        split; [now apply reports_app|]. now rewrite E2, E1, app_assoc.
      * destruct H1 as [F1 E1], H2 as [F2 E2]. split; [apply Forall_app; auto|congruence].
    + destruct H2 as [Ha (a & i & b & -> & F & Hn & Hd)]. split; auto. rewrite Ha in H1.
      exists (l1 ++ a), i, b. rewrite <- app_assoc. split; auto. split; [apply Forall_app; tauto|auto].
  - split; auto. exists a, i, (b ++ l2). now rewrite <- app_assoc.
Qed.

Lemma outcome'_bind l1 l2 st o (k : state -> out) :
  outcome' D all l1 st o -> (forall st', o = ONext st' -> outcome' D all l2 st' (k st')) ->
  outcome' D all (l1 ++ l2) st (match o with ONext st' => k st' | ORet e => ORet e | OStuck => OStuck end).
Proof.
  intros [H1 S1] H2. split.
  - apply outcome_bind; auto. intros st' E. apply H2; auto.
  - destruct o; auto. specialize (H2 s eq_refl). destruct H2 as [_ S2]. destruct (k s); auto. congruence.
Qed.

(** Equivalent requirements. *)
Definition item_equiv (i j : item) : Prop :=
  (it_holds i <-> it_holds j) /\ forall e, D i e -> D j e.

Lemma reports_equiv l l' es : Forall2 item_equiv l l' -> reports D l es -> reports D l' es.
Proof.
  intros H. revert es. induction H as [|i j l l' Hij _ IH]; intros es R; inversion R; subst.
  - constructor.
  - apply rep_ok; [apply Hij|]; auto.
  - destruct Hij as [Hi Hd]. apply rep_bad; [tauto| |]; auto.
Qed.

Lemma holds_equiv l l' : Forall2 item_equiv l l' -> Forall it_holds l -> Forall it_holds l'.
Proof. induction 1; intros F; inversion F; subst; constructor; auto. now apply H. Qed.

Lemma first_bad_equiv l l' e : Forall2 item_equiv l l' -> first_bad D l e -> first_bad D l' e.
Proof.
  intros H (a & i & b & -> & F & Hn & Hd). apply Forall2_app_inv_l in H.
  destruct H as (a' & r & Ha & Hr & ->). inversion Hr as [|? j ? b' [H1 H2] Hb]; subst.
  exists a', j, b'. split; auto. split; [eapply holds_equiv; eauto|]. split; [tauto|auto].
Qed.

Lemma outcome_equiv l l' st o : Forall2 item_equiv l l' -> outcome D all l st o -> outcome D all l' st o.
Proof.
  intros H. unfold outcome. destruct o; auto.
  - destruct all; [intros (es & R & E); exists es; split; auto; eapply reports_equiv; eauto|].
    intros [F E]. split; auto. eapply holds_equiv; eauto.
  - intros [Ha F]. split; auto. eapply first_bad_equiv; eauto.
Qed.
End Gen.

Definition req_equiv (a b : req) : Prop :=
  (rq_holds a <-> rq_holds b) /\ rq_reason a = rq_reason b /\ rq_cause a = rq_cause b.

Lemma req_equiv_refl a : req_equiv a a.
Proof. unfold req_equiv. tauto. Qed.

Lemma reqs_equiv_refl l : Forall2 req_equiv l l.
Proof. induction l; constructor; auto using req_equiv_refl. Qed.

(** * Execution of one message *)
Section Exec.
Variable sc : schema.
Variable orc : oracles.
Variable decls : list (string * pkgvar).
Variable uuidd : bool.
Variable rec : bool -> string -> msgval -> vres.
Variable hs : list callee.
Variable all : bool.
Variable m : msgval.
Variable mn : string.

Notation ex := (exec sc orc decls uuidd rec hs all m).

(** How an embedded message is called: ValidateAll only where it exists. *)
Definition call_all (n : string) : bool :=
  all && match find_msg sc n with
         | Some d => match md_methods d with MBoth => true | _ => false end
         | None => false
         end.
Definition emb (n : string) (x : msgval) : Prop := rec (call_all n) n x = VNil.

Definition cause_ok (k : cause_kind) (c : option gerr) : Prop :=
  match k with
  | NoCause => c = None
  | LibCause => exists p, c = Some (GPlain p)
  | Embedded n x => exists e, c = Some e /\ rec (call_all n) n x = VErr e
  end.

(** The error that describes a violated requirement. *)
Definition describes (i : item) (e : gerr) : Prop :=
  exists c, cause_ok (rq_cause (snd (snd i))) c /\
    e = GErr mn (fst i) (fst (snd i)) (rq_reason (snd (snd i))) c false.

Definition runs (en : env) (s : stmt) (l : list item) : Prop :=
  forall st, outcome' describes all l st (ex en s st).
Definition runs_w (en : env) (s : stmt) (l : list item) : Prop :=
  forall st, outcome describes all l st (ex en s st).

Lemma runs_weaken en s l : runs en s l -> runs_w en s l.
Proof. intros H st. apply H. Qed.

Lemma runs_skip en : runs en SSkip [].
Proof. intros st. split; [apply outcome_nil|reflexivity]. Qed.

Lemma runs_SSeq en a b l1 l2 : runs en a l1 -> runs en b l2 -> runs en (SSeq a b) (l1 ++ l2).
Proof. intros H1 H2 st. cbn [exec]. apply outcome'_bind; auto. Qed.

Lemma runs_w_SSeq en a b l1 l2 : runs_w en a l1 -> runs_w en b l2 -> runs_w en (SSeq a b) (l1 ++ l2).
Proof. intros H1 H2 st. cbn [exec]. apply outcome_bind; auto. Qed.

Lemma runs_seq en ss ls : Forall2 (runs en) ss ls -> runs en (seq ss) (List.concat ls).
Proof.
  induction 1 as [|s l ss ls H1 H2 IH]; [apply runs_skip|].
  cbn [seq List.concat]. destruct ss.
  - inversion H2; subst. cbn [List.concat]. rewrite app_nil_r. exact H1.
  - now apply runs_SSeq.
Qed.

Lemma runs_w_seq en ss ls : Forall2 (runs_w en) ss ls -> runs_w en (seq ss) (List.concat ls).
Proof.
  induction 1 as [|s l ss ls H1 H2 IH]; [apply runs_weaken, runs_skip|].
  cbn [seq List.concat]. destruct ss.
  - inversion H2; subst. cbn [List.concat]. rewrite app_nil_r. exact H1.
  - now apply runs_w_SSeq.
Qed.

Lemma item_equiv_of f ix a b : req_equiv a b -> item_equiv describes (f, (ix, a)) (f, (ix, b)).
Proof.
  intros (H1 & H2 & H3). split; [exact H1|]. unfold describes. cbn [fst snd]. rewrite H2, H3. auto.
Qed.

Lemma tagf_equiv f ix l l' : Forall2 req_equiv l l' -> Forall2 (item_equiv describes) (tagf f ix l) (tagf f ix l').
Proof. induction 1; constructor; auto using item_equiv_of. Qed.

Lemma runs_equiv en s f ix l l' :
  Forall2 req_equiv l l' -> runs en s (tagf f ix l) -> runs en s (tagf f ix l').
Proof.
  intros H R st. destruct (R st) as [H1 H2]. split; auto.
  eapply outcome_equiv; eauto using tagf_equiv.
Qed.

Lemma tagf_app f ix a b : tagf f ix (a ++ b) = tagf f ix a ++ tagf f ix b.
Proof. apply map_app. Qed.

(** ** Building errors *)
Definition ix_val (en : env) (x : option string) : option (option ixval) :=
  match x with
  | None => Some None
  | Some x => match assoc x en with
              | Some (RIdx n) => Some (Some (IxN n))
              | Some (RV v) => Some (Some (IxV v))
              | _ => None end
  end.

Lemma mk_err_plain en c ix reason : ix_val en (cx_ix c) = Some ix ->
  mk_err en (err c reason) = Some (GErr (cx_msg c) (cx_field c) ix reason None false).
Proof. intros H. unfold mk_err, err. cbn. unfold ix_val in H. now rewrite H. Qed.

Lemma mk_err_cause en c ix reason e : ix_val en (cx_ix c) = Some ix -> assoc "err"%string en = Some (RErr e) ->
  mk_err en (err_cause c reason) = Some (GErr (cx_msg c) (cx_field c) ix reason (Some e) false).
Proof. intros H1 H2. unfold mk_err, err_cause. cbn. unfold ix_val in H1. now rewrite H1, H2. Qed.

(** A failing statement reports one violated requirement. *)
Lemma fail_outcome en es st i g : mk_err en es = Some g -> ~ it_holds i -> describes i g ->
  outcome' describes all [i] st (fail all en es st).
Proof.
  intros H1 H2 H3. unfold fail. rewrite H1. destruct all eqn:Ea.
  - split; [|reflexivity]. exists [g]. split; [|reflexivity]. apply rep_bad; auto. constructor.
  - split; auto. split; auto. exists [], i, []. auto.
Qed.

Lemma next_outcome l st : Forall it_holds l -> outcome' describes all l st (ONext st).
Proof.
  intros H. split; [|reflexivity]. unfold outcome. destruct all; auto.
  exists []. split; [now apply reports_nil|now rewrite app_nil_r].
Qed.

(** ** Contexts *)
Record ctx_ok (en : env) (c : ctx) (ix : option ixval) (v : rval) : Prop := mkCtxOk {
  co_msg : cx_msg c = mn;
  co_acc : eval_access m en (cx_acc c) = Some v;
  co_ix : ix_val en (cx_ix c) = Some ix }.

Lemma runs_chk en c ix v f b P reason :
  ctx_ok en c ix v -> eval_cond sc orc decls en v f = Some b -> (b = false <-> P) ->
  runs en (chk c f reason) (tagf (cx_field c) ix [want P reason]).
Proof.
  intros [H1 H2 H3] Hb HP st. unfold chk. cbn [exec]. rewrite H2, Hb. destruct b.
  - cbn [exec]. eapply fail_outcome; [apply mk_err_plain; exact H3| |].
    + unfold it_holds. cbn. rewrite <- HP. discriminate.
    + exists None. cbn. split; auto. now rewrite H1.
  - cbn [exec]. apply next_outcome. constructor; [|constructor]. unfold it_holds. cbn. now apply HP.
Qed.

Lemma runs_opt {A} en c ix (o : option A) (t : A -> stmt) (q : A -> req) :
  (forall a, o = Some a -> runs en (t a) (tagf (cx_field c) ix [q a])) ->
  runs en (opt o t) (tagf (cx_field c) ix (when o q)).
Proof. intros H. destruct o as [a|]; [now apply H|apply runs_skip]. Qed.

(** ignore_empty *)
Lemma runs_guarded en c ix v f (ie b : bool) s l :
  ctx_ok en c ix v -> (ie = true -> eval_cond sc orc decls en v f = Some (negb b)) ->
  runs en s (tagf (cx_field c) ix l) ->
  runs en (guarded ie (cx_acc c) f s) (tagf (cx_field c) ix (if ie && b then [] else l)).
Proof.
  intros [H1 H2 H3] Hf Hs. unfold guarded. destruct ie; cbn [andb]; [|exact Hs].
  intros st. cbn [exec]. rewrite H2, Hf by auto. destruct b; cbn [negb].
  - apply next_outcome. constructor.
  - apply Hs.
Qed.

Lemma runs_w_guarded en c v f (ie b : bool) s l :
  eval_access m en (cx_acc c) = Some v -> (ie = true -> eval_cond sc orc decls en v f = Some (negb b)) ->
  runs_w en s l ->
  runs_w en (guarded ie (cx_acc c) f s) (if ie && b then [] else l).
Proof.
  intros H2 Hf Hs. unfold guarded. destruct ie; cbn [andb]; [|exact Hs].
  intros st. cbn [exec]. rewrite H2, Hf by auto. destruct b; cbn [negb].
  - apply next_outcome. constructor.
  - apply Hs.
Qed.

(** A condition of a sequence of templates against a concatenation of requirements. *)
Lemma runs_seq_tag en f ix ss ls :
  Forall2 (fun s l => runs en s (tagf f ix l)) ss ls ->
  runs en (seq ss) (tagf f ix (List.concat ls)).
Proof.
  intros H. replace (tagf f ix (List.concat ls)) with (List.concat (map (tagf f ix) ls)).
  - apply runs_seq. induction H; constructor; auto.
  - unfold tagf. now rewrite concat_map.
Qed.

(** ** Lists *)
Lemma runs_in {A} en c ix v conv (eq : A -> Prop) (l nl : list A) (pr : list A -> piece) :
  ctx_ok en c ix v ->
  (l <> [] -> exists b, in_set decls (lookup c "InLookup") conv v = Some b /\ (b = true <-> Exists eq l)) ->
  (nl <> [] -> l = [] -> exists b, in_set decls (lookup c "NotInLookup") conv v = Some b /\ (b = true <-> Exists eq nl)) ->
  runs en (in_tpl c conv (negb (is_nil l)) (negb (is_nil nl)) (pr l) (pr nl))
    (tagf (cx_field c) ix (in_reqs eq l nl pr)).
Proof.
  intros Hc H1 H2. unfold in_tpl, in_reqs. destruct l as [|x l].
  - destruct nl as [|y nl]; cbn [is_nil negb]; [apply runs_skip|].
    destruct H2 as (b & Hb & Hi); [discriminate|reflexivity|].
    eapply runs_chk; [exact Hc|cbn [eval_cond]; exact Hb|].
    rewrite <- Hi. destruct b; split; congruence.
  - cbn [is_nil negb]. destruct H1 as (b & Hb & Hi); [discriminate|].
    eapply runs_chk; [exact Hc|cbn [eval_cond]; rewrite Hb; reflexivity|].
    rewrite <- Hi. destruct b; cbn; split; congruence.
Qed.

(** ** Numbers *)
Definition cmp_facts (v x : num) : Prop :=
  (num_ltb v x = true /\ num_leb v x = true /\ num_eqb v x = false /\ num_ltb x v = false /\ num_leb x v = false
    /\ num_eqb x v = false /\ nlt v x /\ ~ neq v x /\ ~ nlt x v /\ ~ neq x v) \/
  (num_ltb v x = false /\ num_leb v x = true /\ num_eqb v x = true /\ num_ltb x v = false /\ num_leb x v = true
    /\ num_eqb x v = true /\ ~ nlt v x /\ neq v x /\ ~ nlt x v /\ neq x v) \/
  (num_ltb v x = false /\ num_leb v x = false /\ num_eqb v x = false /\ num_ltb x v = true /\ num_leb x v = true
    /\ num_eqb x v = false /\ ~ nlt v x /\ ~ neq v x /\ nlt x v /\ ~ neq x v).

Lemma bool_of (b : bool) (P : Prop) : (b = true <-> P) -> (P -> b = true) /\ (~ P -> b = false).
Proof. intros H. split; [tauto|]. destruct b; [tauto|auto]. Qed.

Lemma cmp_facts_of v x : same_kind v x -> ~ nan v -> ~ nan x -> cmp_facts v x.
Proof.
  intros Hs Hv Hx. assert (T := trichotomy v x Hs Hv Hx).
  assert (S : neq v x <-> neq x v) by (split; apply neq_sym).
  destruct (bool_of _ _ (num_ltb_spec v x)), (bool_of _ _ (num_ltb_spec x v)),
    (bool_of _ _ (num_eqb_spec v x)), (bool_of _ _ (num_eqb_spec x v)),
    (bool_of _ _ (num_leb_spec v x)), (bool_of _ _ (num_leb_spec x v)).
  unfold cmp_facts. destruct T as [T|[T|T]]; [left|right; left|right; right]; repeat split; tauto.
Qed.

Lemma kind_same k v x : num_of_kind k v = true -> num_of_kind k x = true -> same_kind v x.
Proof. destruct v, x; cbn; auto; intros H1 H2; apply andb_true_iff in H1, H2; destruct (is_float k); cbn in *; intuition congruence. Qed.

Lemma eval_CNum en v op n : num_lit_ok n = true ->
  eval_cond sc orc decls en (RV (VNum v)) (CNum op (lit_num n)) = Some (cmp_num op v n).
Proof.
  intros H. cbn [eval_cond]. rewrite num_lit_ok_lit, H. f_equal.
  destruct (lit_num_cmp v n) as (H1 & H2 & H3 & H4 & H5 & H6).
  destruct op; cbn [cmp_num]; rewrite ?H1, ?H2, ?H3, ?H4, ?H5, ?H6; reflexivity.
Qed.

Lemma eval_COr en v a b x y : eval_cond sc orc decls en v a = Some x -> eval_cond sc orc decls en v b = Some y ->
  eval_cond sc orc decls en v (COr a b) = Some (x || y).
Proof. intros H1 H2. cbn [eval_cond]. now rewrite H1, H2. Qed.
Lemma eval_CAnd en v a b x y : eval_cond sc orc decls en v a = Some x -> eval_cond sc orc decls en v b = Some y ->
  eval_cond sc orc decls en v (CAnd a b) = Some (x && y).
Proof. intros H1 H2. cbn [eval_cond]. now rewrite H1, H2. Qed.

(** The requirement of a numeric range, as in [num_reqs]. *)
Definition range_reqs (r : num_rules) (v : num) : list req :=
  let up := bnd (n_lt r) (n_lte r) in
  let lo := bnd (n_gt r) (n_gte r) in
  match up, lo with
  | None, None => []
  | _, _ => [want (nan v \/ within_range nlt neq up lo v) (range_reason nltb PNum up lo)]
  end.

Lemma nan_cmp v x op : nan v -> op <> ONe -> cmp_num op v x = false.
Proof.
  intros H. destruct op; cbn; try congruence; intros _;
    [now apply nan_ltb_l|now apply nan_leb_l|now apply nan_ltb_r|now apply nan_leb_r].
Qed.

Ltac use_facts :=
  repeat match goal with
  | H : cmp_facts _ _ |- _ =>
      let E := fresh in destruct H as [E|[E|E]];
      destruct E as (? & ? & ? & ? & ? & ? & ? & ? & ? & ?)
  end.

Ltac rw_bools :=
  repeat match goal with
  | H : num_ltb _ _ = _ |- _ => rewrite ?H in *; clear H
  | H : num_leb _ _ = _ |- _ => rewrite ?H in *; clear H
  | H : num_eqb _ _ = _ |- _ => rewrite ?H in *; clear H
  end.

Ltac ltgt_one Hone Hv :=
  apply Hone; [assumption|];
  match goal with |- context [cmp_num _ ?v ?x] =>
    let Hn := fresh in let F := fresh in
    destruct (is_nan_dec v) as [Hn|Hn];
    [rewrite nan_cmp by (auto; discriminate); tauto|];
    assert (F := Hv x ltac:(assumption) ltac:(assumption) Hn);
    cbn [cmp_num]; use_facts; rw_bools; split; try congruence; intuition congruence
  end.

Ltac ltgt_two Hor Hand Hv Hb :=
  match goal with |- context [tpl_gt ?a ?b] =>
    let F0 := fresh in let Et := fresh in let Ep := fresh in let E0 := fresh in let Hlt := fresh in
    assert (F0 := Hb b a ltac:(assumption) ltac:(assumption) ltac:(assumption) ltac:(assumption));
    assert (Et : tpl_gt a b = nltb b a)
      by (rewrite nltb_num; unfold tpl_gt; clear -F0; use_facts; rw_bools; reflexivity);
    assert (Ep : nltb b a = true <-> nlt b a) by (rewrite nltb_num; apply num_ltb_spec);
    rewrite Et; clear F0 Et;
    destruct (nltb b a) eqn:E0;
    [assert (Hlt : nlt b a) by (apply Ep; reflexivity)
    |assert (Hlt : ~ nlt b a) by (let X := fresh in intros X; apply Ep in X; discriminate)]; clear Ep;
    [apply Hor; try assumption|apply Hand; try assumption];
    match goal with |- context [cmp_num _ ?v _] =>
      let Hn := fresh in let F1 := fresh in let F2 := fresh in
      destruct (is_nan_dec v) as [Hn|Hn];
      [rewrite !nan_cmp by (auto; discriminate); cbn; tauto|];
      assert (F1 := Hv a ltac:(assumption) ltac:(assumption) Hn);
      assert (F2 := Hv b ltac:(assumption) ltac:(assumption) Hn);
      cbn [cmp_num]; use_facts; rw_bools; cbn [orb andb]; split; try congruence; intuition congruence
    end
  end.

Lemma runs_ltgt en c ix k v r :
  ctx_ok en c ix (RV (VNum v)) -> num_of_kind k v = true -> wf_num k r ->
  (forall n, (n_const r = Some n \/ n_lt r = Some n \/ n_lte r = Some n \/ n_gt r = Some n \/
             n_gte r = Some n) -> num_lit_ok n = true) ->
  runs en (ltgt_num c r) (tagf (cx_field c) ix (range_reqs r v)).
Proof.
  intros Hc Hk Hw Hl. unfold ltgt_num, range_reqs.
  assert (Hone : forall n op P reason, num_lit_ok n = true -> (cmp_num op v n = false <-> P) ->
            runs en (chk c (CNum op (lit_num n)) reason) (tagf (cx_field c) ix [want P reason])).
  { intros n op P reason H1 H2. eapply runs_chk; [exact Hc|apply eval_CNum; exact H1|exact H2]. }
  assert (Hor : forall n1 n2 op1 op2 P reason, num_lit_ok n1 = true -> num_lit_ok n2 = true ->
            (cmp_num op1 v n1 || cmp_num op2 v n2 = false <-> P) ->
            runs en (chk c (COr (CNum op1 (lit_num n1)) (CNum op2 (lit_num n2))) reason)
              (tagf (cx_field c) ix [want P reason])).
  { intros n1 n2 op1 op2 P reason H1 H2 H3. eapply runs_chk; [exact Hc|apply eval_COr; apply eval_CNum; assumption|exact H3]. }
  assert (Hand : forall n1 n2 op1 op2 P reason, num_lit_ok n1 = true -> num_lit_ok n2 = true ->
            (cmp_num op1 v n1 && cmp_num op2 v n2 = false <-> P) ->
            runs en (chk c (CAnd (CNum op1 (lit_num n1)) (CNum op2 (lit_num n2))) reason)
              (tagf (cx_field c) ix [want P reason])).
  { intros n1 n2 op1 op2 P reason H1 H2 H3. eapply runs_chk; [exact Hc|apply eval_CAnd; apply eval_CNum; assumption|exact H3]. }
  assert (Hv : forall x, num_of_kind k x = true -> num_lit_ok x = true -> ~ nan v -> cmp_facts v x).
  { intros x H1 H2 H3. apply cmp_facts_of; auto; [eapply kind_same; eauto|now apply num_lit_ok_nan]. }
  assert (Hb : forall x y, num_of_kind k x = true -> num_lit_ok x = true -> num_of_kind k y = true -> num_lit_ok y = true ->
     cmp_facts x y).
  { intros x y H1 H2 H3 H4. apply cmp_facts_of; [eapply kind_same; eauto|now apply num_lit_ok_nan|now apply num_lit_ok_nan]. }
  unfold wf_num in Hw.
  assert (Kin : forall n, (n_lt r = Some n \/ n_lte r = Some n \/ n_gt r = Some n \/ n_gte r = Some n) ->
     num_of_kind k n = true /\ num_lit_ok n = true) by (intros n Hn; split; [apply Hw|apply Hl]; tauto).
  clear Hw Hl.
  destruct (n_lt r) as [lt|]; [destruct (Kin lt ltac:(tauto)) as [Klt Llt]|];
  destruct (n_lte r) as [lte|]; try destruct (Kin lte ltac:(tauto)) as [Klte Llte];
  destruct (n_gt r) as [gt|]; try destruct (Kin gt ltac:(tauto)) as [Kgt Lgt];
  destruct (n_gte r) as [gte|]; try destruct (Kin gte ltac:(tauto)) as [Kgte Lgte];
  cbn [bnd]; try apply runs_skip; cbn [range_reason bval within_range below above].
  all: first [ltgt_one Hone Hv | ltgt_two Hor Hand Hv Hb].
Qed.

Lemma num_zero_cmp k v : num_of_kind k v = true -> num_eqb v (num_zero k) = num_zero_b v.
Proof.
  unfold num_of_kind, num_zero. destruct v as [z|f]; destruct (is_float k) eqn:E; cbn; try discriminate; intros _.
  - destruct z; reflexivity.
  - destruct f as [[]|[]| |[] p e]; reflexivity.
Qed.

Lemma runs_num en c ix k v r :
  ctx_ok en c ix (RV (VNum v)) -> num_of_kind k v = true -> wf_num k r ->
  (forall n, (n_const r = Some n \/ n_lt r = Some n \/ n_lte r = Some n \/ n_gt r = Some n \/
             n_gte r = Some n) -> num_lit_ok n = true) ->
  (n_in r <> [] -> exists ty, assoc (lookup c "InLookup") decls = Some (DSet ty (map (fun n => VNum (lit_num n)) (n_in r)))) ->
  (n_not_in r <> [] -> exists ty, assoc (lookup c "NotInLookup") decls = Some (DSet ty (map (fun n => VNum (lit_num n)) (n_not_in r)))) ->
  runs en (num_tpl c k r) (tagf (cx_field c) ix (num_reqs r v)).
Proof.
  intros Hc Hk Hw Hl Hi Hni. unfold num_tpl, num_reqs.
  assert (Hset : forall x l ty, assoc x decls = Some (DSet ty (map (fun n => VNum (lit_num n)) l)) ->
     exists b, in_set decls x false (RV (VNum v)) = Some b /\ (b = true <-> Exists (neq v) l)).
  { intros x l ty E. unfold in_set. rewrite E. eexists. split; [reflexivity|]. clear E.
    induction l as [|y l IH]; cbn [map existsb].
    - split; [discriminate|]. intros X. inversion X.
    - rewrite orb_true_iff, IH, Exists_cons. cbn [key_eqb].
      destruct (lit_num_cmp v y) as (_ & _ & -> & _). rewrite num_eqb_spec. reflexivity. }
  eapply runs_guarded with (v := RV (VNum v)); [exact Hc| |].
  - intros _. cbn [eval_cond]. replace (num_lit_ok (num_zero k)) with true by (unfold num_zero; destruct (is_float k); reflexivity).
    f_equal. cbn [cmp_num]. f_equal. now apply num_zero_cmp.
  - match goal with |- runs _ (seq [?a; ?b; ?d]) (tagf _ _ (?x ++ ?y ++ ?z)) =>
      replace (x ++ y ++ z) with (List.concat [x; y; z]) by (cbn; now rewrite app_nil_r) end.
    apply runs_seq_tag. constructor; [|constructor; [|constructor; [|constructor]]].
    + unfold const_num. apply runs_opt. intros n En. eapply runs_chk; [exact Hc|apply eval_CNum; apply Hl; auto|].
      cbn [cmp_num]. rewrite negb_false_iff. apply num_eqb_spec.
    + eapply runs_ltgt; eauto.
    + apply runs_in with (v := RV (VNum v)); [exact Hc| |].
      * intros Hne. destruct (Hi Hne) as (ty & E). eapply Hset; eauto.
      * intros Hne _. destruct (Hni Hne) as (ty & E). eapply Hset; eauto.
Qed.

(** Sequences, one statement at a time. *)
Lemma runs_seq_one en f ix s l : runs en s (tagf f ix l) -> runs en (seq [s]) (tagf f ix l).
Proof. auto. Qed.
Lemma runs_seq_cons en f ix s s2 ss l1 l2 : runs en s (tagf f ix l1) -> runs en (seq (s2 :: ss)) (tagf f ix l2) ->
  runs en (seq (s :: s2 :: ss)) (tagf f ix (l1 ++ l2)).
Proof. intros H1 H2. rewrite tagf_app. change (seq (s :: s2 :: ss)) with (SSeq s (seq (s2 :: ss))). now apply runs_SSeq. Qed.
End Exec.
