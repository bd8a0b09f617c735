(** The templates for single values compile exactly when the rules fit. *)
From Coq Require Import Floats.SpecFloat Lia.
From Verif Require Import Base Num Rules Types Time Checker GoIR GoGen GoSem Spec Wt GoType GoFit
  BaseFacts.
Local Open Scope string_scope.

(** * Names *)

Lemma append_length a b : String.length (a ++ b) = (String.length a + String.length b)%nat.
Proof. induction a; cbn; auto. Qed.

Lemma append_assoc a b c : (a ++ b) ++ c = a ++ b ++ c.
Proof. induction a; cbn; congruence. Qed.

Fixpoint no_us (s : string) : bool :=
  match s with EmptyString => true | String c t => negb (Ascii.eqb c "_") && no_us t end.

Lemma no_us_app a b : no_us (a ++ b) = no_us a && no_us b.
Proof. induction a as [|c a IH]; cbn; auto. rewrite IH. now destruct (Ascii.eqb c "_"). Qed.

Lemma last_us a b k k' : no_us k = true -> no_us k' = true ->
  a ++ "_" ++ k = b ++ "_" ++ k' -> a = b /\ k = k'.
Proof.
  intros Hk Hk'. revert b. induction a as [|c a IH]; intros [|c' b] H.
  - cbn in H. injection H as ->. auto.
  - cbn in H. injection H as _ H. subst k. rewrite !no_us_app in Hk. cbn in Hk.
    rewrite ?andb_false_r, ?andb_false_l in Hk. discriminate.
  - cbn in H. injection H as _ H. subst k'. rewrite !no_us_app in Hk'. cbn in Hk'.
    rewrite ?andb_false_r in Hk'. discriminate.
  - cbn in H. injection H as -> H. destruct (IH b H) as [-> ->]. auto.
Qed.

Lemma lookup_name_eq m f k : lookup_name m f k = ("_" ++ m ++ "_" ++ f) ++ "_" ++ k.
Proof. unfold lookup_name. rewrite !append_assoc. reflexivity. Qed.

Lemma lookup_inj m f k m' f' k' : no_us k = true -> no_us k' = true ->
  lookup_name m f k = lookup_name m' f' k' -> m ++ "_" ++ f = m' ++ "_" ++ f' /\ k = k'.
Proof.
  intros Hk Hk' H. rewrite !lookup_name_eq in H. destruct (last_us _ _ _ _ Hk Hk' H) as [E ->].
  split; auto. cbn in E. injection E as E. exact E.
Qed.

(** * Statements *)

Section Facts.
Variable fields : list (string * gty).
Variable decls : list (string * pkgvar).
Variable enums : list string.
Variable helpers : list callee.
Notation env := (list (string * local)).
Notation cond_ok := (cond_ok decls enums).
Notation stmt_ok := (stmt_ok fields decls enums helpers).
Notation block_ok := (block_ok fields decls enums helpers).
Notation acc_ty := (acc_ty fields).
Notation err_ok := (err_ok decls).

Lemma seq_ok G l : stmt_ok G (seq l) <-> Forall (stmt_ok G) l.
Proof.
  induction l as [|s [|s' l] IH].
  - cbn. split; auto.
  - cbn [seq]. rewrite Forall_cons_iff. split; [intros; split; auto|tauto].
  - change (seq (s :: s' :: l)) with (SSeq s (seq (s' :: l))). rewrite Forall_cons_iff, <- IH. reflexivity.
Qed.

Lemma seq_declares l : declares (seq l) = flat_map declares l.
Proof.
  induction l as [|s [|s' l] IH]; auto.
  - cbn. now rewrite app_nil_r.
  - change (seq (s :: s' :: l)) with (SSeq s (seq (s' :: l))). cbn [declares]. now rewrite IH.
Qed.

(** The locals the templates use, and the set of one field. *)
Definition local_names : list string :=
  ["err"; "a"; "d"; "dur"; "t"; "ts"; "lt"; "lte"; "gt"; "gte"; "now"; "within"; "idx"; "item";
   "key"; "val"; "wrapper"; "uri"].
Definition plain (mn fn : string) (G : env) : Prop :=
  Forall (fun p => In (fst p) (lookup_name mn fn "Unique" :: local_names)) G.

Lemma plain_nil mn fn : plain mn fn [].
Proof. constructor. Qed.

Lemma plain_cons mn fn x l G : In x (lookup_name mn fn "Unique" :: local_names) ->
  plain mn fn G -> plain mn fn ((x, l) :: G).
Proof. constructor; auto. Qed.

Lemma plain_none mn fn G x : plain mn fn G ->
  ~ In x (lookup_name mn fn "Unique" :: local_names) -> assoc x G = None.
Proof.
  intros H Hx. apply assoc_None. intros Hi. apply in_map_iff in Hi. destruct Hi as (p & <- & Hp).
  apply Hx. apply (proj1 (Forall_forall _ _) H). auto.
Qed.

Lemma long_local x : (8 <= String.length x)%nat -> ~ In x local_names.
Proof.
  intros H Hi. cbn in Hi.
  repeat (destruct Hi as [<-|Hi]; [cbn in H; lia|]). exact Hi.
Qed.

Lemma lookup_long mn fn k : (6 <= String.length k)%nat -> (8 <= String.length (lookup_name mn fn k))%nat.
Proof. intros H. unfold lookup_name. rewrite !append_length. cbn. lia. Qed.

Definition table (k : string) : Prop := k = "InLookup" \/ k = "NotInLookup" \/ k = "Pattern".

Lemma plain_lookup mn fn G k : plain mn fn G -> table k -> assoc (lookup_name mn fn k) G = None.
Proof.
  intros H Hk. apply (plain_none _ _ _ _ H). intros [E|Hi].
  - apply lookup_inj in E; [|reflexivity|destruct Hk as [->|[->| ->]]; reflexivity].
    destruct E as [_ E]. subst k. destruct Hk as [Hk|[Hk|Hk]]; discriminate.
  - revert Hi. apply long_local, lookup_long. destruct Hk as [->|[->| ->]]; cbn; lia.
Qed.

Lemma plain_err mn fn G x : exported x -> plain mn fn G -> assoc (x ++ "ValidationError") G = None.
Proof.
  intros Hx H. apply (plain_none _ _ _ _ H). intros [E|Hi].
  - unfold lookup_name in E. destruct x as [|c x]; cbn in E; [discriminate|].
    injection E as <- _. apply Hx. reflexivity.
  - revert Hi. apply long_local. rewrite append_length. cbn. lia.
Qed.

(** A context in which errors can be reported, about a value of type [t]. *)
Record ctx_ok (G : env) (c : ctx) (t : gty) : Prop := mkCtxOk {
  cxo_plain : plain (cx_msg c) (cx_field c) G;
  cxo_exp : exported (cx_msg c);
  cxo_err : assoc (cx_msg c ++ "ValidationError") decls = Some DType;
  cxo_ix : forall x, cx_ix c = Some x -> (x = "idx" \/ x = "key") /\ var_ty G x <> None;
  cxo_acc : acc_ty G (cx_acc c) = Some t }.

Lemma err_here G c t r : ctx_ok G c t -> err_ok G (err c r).
Proof.
  intros [P E D I A]. split; [|split].
  - unfold pkg_ref. cbn [err es_msg]. now rewrite (plain_err _ _ _ _ E P).
  - intros x Hx. now apply I.
  - discriminate.
Qed.

Lemma chk_declares c f r : declares (chk c f r) = [].
Proof. reflexivity. Qed.

Lemma fail_block G e : block_ok G (SFail e) <-> err_ok G e.
Proof.
  unfold GoType.block_ok. cbn. split; [tauto|]. split; auto. repeat constructor. intros [].
Qed.

Lemma skip_block G : block_ok G SSkip.
Proof. split; [exact I|constructor]. Qed.

Lemma if_ok G a c s1 s2 : stmt_ok G (SIf a c s1 s2) <->
  (exists t, acc_ty G a = Some t /\ cond_ok G t c) /\ block_ok G s1 /\ block_ok G s2.
Proof. reflexivity. Qed.

Lemma chk_ok G c t f r : ctx_ok G c t -> (stmt_ok G (chk c f r) <-> cond_ok G t f).
Proof.
  intros C. unfold chk. rewrite if_ok, fail_block. split.
  - intros ((t' & A & H) & _). rewrite (cxo_acc _ _ _ C) in A. injection A as <-. exact H.
  - intros H. split; [exists t; split; auto; apply C|]. split; [exact (err_here _ _ _ _ C)|apply skip_block].
Qed.

Lemma opt_ok {A} G (o : option A) f : stmt_ok G (opt o f) <-> (forall a, o = Some a -> stmt_ok G (f a)).
Proof.
  destruct o; cbn [opt].
  - split; [intros H b [= <-]; exact H|auto].
  - split; [intros _ b [=]|intros; exact I].
Qed.

Lemma opt_chk {A} G c t (o : option A) f r : ctx_ok G c t ->
  (stmt_ok G (opt o (fun a => chk c (f a) (r a))) <-> (forall a, o = Some a -> cond_ok G t (f a))).
Proof.
  intros C. rewrite opt_ok. split; intros H a Ha; specialize (H a Ha).
  - now apply (chk_ok _ _ _ _ _ C) in H.
  - now apply (chk_ok _ _ _ _ _ C).
Qed.

(** ** Tables *)

(** What a reference to a table needs. *)
Definition tab_ok (t : gty) (conv : bool) (o : option pkgvar) : Prop :=
  match o with
  | Some (DSet k _) | Some (DDurSet k _) => if conv then t = GBytes /\ k = GString else t = k
  | Some DBadSet => True
  | _ => False
  end.
Definition tab (c : ctx) (k : string) : option pkgvar := assoc (lookup c k) decls.

Lemma member_tab G c t t' k conv : ctx_ok G c t -> table k ->
  (member_ok decls G t' (lookup c k) conv <-> tab_ok t' conv (tab c k)).
Proof.
  intros C Hk. unfold member_ok, pkg_ref, lookup. rewrite (plain_lookup _ _ _ _ (cxo_plain _ _ _ C) Hk).
  change (assoc (lookup_name (cx_msg c) (cx_field c) k) decls) with (tab c k). unfold tab_ok.
  destruct (tab c k) as [[]|]; split; intros H; try (destruct H as (d & [= <-] & H); exact H);
    try (eexists; split; [reflexivity|exact H]); try contradiction.
Qed.

Definition lists_ok (c : ctx) (t : gty) (conv : bool) (hi hn : bool) : Prop :=
  (hi = true -> tab_ok t conv (tab c "InLookup")) /\ (hn = true -> tab_ok t conv (tab c "NotInLookup")).

Lemma in_tpl_ok G c t conv hi hn p q : ctx_ok G c t -> hi && hn = false ->
  (stmt_ok G (in_tpl c conv hi hn p q) <-> lists_ok c t conv hi hn).
Proof.
  intros C X. unfold in_tpl, lists_ok.
  destruct hi, hn; try discriminate X; rewrite ?(chk_ok _ _ _ _ _ C); cbn [GoType.cond_ok];
    rewrite ?(member_tab _ _ _ _ _ _ C) by (unfold table; auto); split; intros H; try tauto; try exact I;
    try (split; intros; try discriminate; auto).
Qed.

(** ** Numbers *)

Lemma lit_fits_iff k n : num_of_kind k n = true ->
  (lit_fits (go_type (TNum k)) (lit_num n) <-> num_lit_ok n = true).
Proof.
  destruct n as [z|[]]; destruct k; cbn; intros H; try discriminate; split; intros X; auto; try discriminate;
    try contradiction; apply andb_true_iff in H; destruct H as [H1 H2];
    rewrite ?Z.leb_le, ?Z.ltb_lt in *; auto.
Qed.

Definition consts_ok (r : num_rules) : Prop :=
  forall n, (n_const r = Some n \/ n_lt r = Some n \/ n_lte r = Some n \/ n_gt r = Some n \/
             n_gte r = Some n) -> num_lit_ok n = true.

Lemma ltgt_ok G c k r : ctx_ok G c (go_type (TNum k)) -> wf_num k r ->
  (is_none (n_lt r) || is_none (n_lte r)) && (is_none (n_gt r) || is_none (n_gte r)) = true ->
  (stmt_ok G (ltgt_num c r) <->
   (forall n, (n_lt r = Some n \/ n_lte r = Some n \/ n_gt r = Some n \/ n_gte r = Some n) ->
     num_lit_ok n = true)).
Proof.
  intros C W X.
  assert (L : forall n, (n_const r = Some n \/ n_lt r = Some n \/ n_lte r = Some n \/ n_gt r = Some n \/
             n_gte r = Some n) -> (lit_fits (go_type (TNum k)) (lit_num n) <-> num_lit_ok n = true)).
  { intros n Hn. apply lit_fits_iff, W. tauto. }
  clear W. unfold ltgt_num.
  destruct (n_lt r) as [lt|], (n_lte r) as [lte|], (n_gt r) as [gt|], (n_gte r) as [gte|]; try discriminate X;
    try match goal with |- context [if ?b then _ else _] => destruct b end;
    rewrite ?(chk_ok _ _ _ _ _ C); cbn [GoType.cond_ok]; rewrite ?L by tauto.
  all: split; [intros H n Hn|intros H; try exact I; try (split; apply H; tauto); try (apply H; tauto)].
  all: try (exfalso; clear - Hn; intuition discriminate).
  all: clear - H Hn; intuition; repeat match goal with E : Some _ = Some _ |- _ => injection E as <- | E : None = Some _ |- _ => discriminate E end; auto.
Qed.

Lemma guarded_ok G b a t f s : acc_ty G a = Some t -> declares s = [] -> (b = true -> cond_ok G t f) ->
  (stmt_ok G (guarded b a f s) <-> stmt_ok G s).
Proof.
  intros A D F. destruct b; [|reflexivity]. cbn [guarded]. rewrite if_ok. split.
  - intros (_ & [H _] & _). exact H.
  - intros H. split; [exists t; split; auto|]. split; [|apply skip_block]. split; auto. rewrite D. constructor.
Qed.

Lemma opt_declares {A} (o : option A) f : (forall a, declares (f a) = []) -> declares (opt o f) = [].
Proof. destruct o; cbn; auto. Qed.
Lemma in_tpl_declares c conv a b p q : declares (in_tpl c conv a b p q) = [].
Proof. destruct a, b; reflexivity. Qed.
Lemma ltgt_declares c r : declares (ltgt_num c r) = [].
Proof.
  unfold ltgt_num.
  destruct (n_lt r), (n_lte r), (n_gt r), (n_gte r);
    try match goal with |- context [if ?b then _ else _] => destruct b end; reflexivity.
Qed.
Lemma len_declares c f u l a b : declares (len_tpl c f u l a b) = [].
Proof. unfold len_tpl. destruct l, a, b; try destruct (N.eqb _ _); reflexivity. Qed.
Lemma wk_declares c w : declares (str_wk_tpl c w) = [].
Proof. destruct w as [[[]|[]|[]|[]|[]|[]|[]|[]|[]|[]]|]; reflexivity. Qed.
Lemma guarded_declares b a f s : declares s = [] -> declares (guarded b a f s) = [].
Proof. destruct b; auto. Qed.

Lemma Forall_nil_iff' {A} (P : A -> Prop) : Forall P [] <-> True.
Proof. split; auto. Qed.

Lemma zero_fits k : lit_fits (go_type (TNum k)) (num_zero k).
Proof. destruct k; cbn; auto; lia. Qed.

Lemma check_num_parts r : check_num r = true ->
  negb (is_nil (n_in r)) && negb (is_nil (n_not_in r)) = false /\
  (is_none (n_lt r) || is_none (n_lte r)) && (is_none (n_gt r) || is_none (n_gte r)) = true.
Proof.
  unfold check_num, check_nums, check_ins. rewrite !andb_true_iff.
  intros (((((A & _) & _) & B) & C) & _). split; auto.
  destruct (n_in r), (n_not_in r); cbn in *; auto.
Qed.

Lemma num_tpl_declares c k r : declares (num_tpl c k r) = [].
Proof.
  apply guarded_declares. rewrite seq_declares. cbn [flat_map].
  rewrite ltgt_declares, in_tpl_declares. unfold const_num. rewrite opt_declares; auto.
Qed.

Lemma num_tpl_ok G c k r : ctx_ok G c (go_type (TNum k)) -> wf_num k r -> check_num r = true ->
  (stmt_ok G (num_tpl c k r) <->
   consts_ok r /\ lists_ok c (go_type (TNum k)) false (negb (is_nil (n_in r))) (negb (is_nil (n_not_in r)))).
Proof.
  intros C W K. destruct (check_num_parts r K) as [K1 K2].
  unfold num_tpl. rewrite (guarded_ok G _ _ (go_type (TNum k))).
  2: apply C.
  2: { generalize (num_tpl_declares c k (mkNumRules (n_const r) (n_lt r) (n_lte r) (n_gt r) (n_gte r) (n_in r) (n_not_in r) None)).
       auto. }
  2: { intros _. apply zero_fits. }
  rewrite seq_ok, !Forall_cons_iff, Forall_nil_iff'. rewrite (ltgt_ok G c k r C W K2).
  rewrite (in_tpl_ok G c _ _ _ _ _ _ C K1). unfold const_num. rewrite (opt_chk _ _ _ _ _ _ C). cbn [GoType.cond_ok].
  unfold consts_ok. split.
  - intros (A & B & L & _). split; auto. intros n [Hn|Hn]; [|now apply B].
    apply (lit_fits_iff k); [apply W; auto|apply A; auto].
  - intros (A & L). repeat split; auto; try apply L.
    + intros n Hn. apply (lit_fits_iff k); [apply W; auto|apply A; auto].
Qed.

(** ** Booleans, strings, bytes, enums *)

Lemma bool_tpl_ok G c o : ctx_ok G c GBool -> stmt_ok G (bool_tpl c o).
Proof. intros C. unfold bool_tpl. rewrite (opt_chk _ _ _ _ _ _ C). cbn. auto. Qed.

Lemma len_tpl_ok G c t f u l mn mx : ctx_ok G c t -> (forall op n, cond_ok G t (f op n) <-> int_fits n) ->
  (stmt_ok G (len_tpl c f u l mn mx) <-> lens_fit l mn mx).
Proof.
  intros C F. unfold len_tpl, lens_fit.
  destruct l as [n|]; [now rewrite (chk_ok _ _ _ _ _ C), F|].
  destruct mn as [a|], mx as [b|]; [destruct (N.eqb_spec a b) as [->|]|..]; rewrite ?(chk_ok _ _ _ _ _ C);
    cbn [GoType.cond_ok]; rewrite ?F.
  - split; [intros H; split; intros n [= <-]; exact H|intros [H _]; auto].
  - split; [intros [H1 H2]; split; intros n' [= <-]; auto|intros [H1 H2]; auto].
  - split; [intros H; split; intros n [=]; subst; exact H|intros [H _]; auto].
  - split; [intros H; split; intros n [=]; subst; exact H|intros [_ H]; auto].
  - split; [intros _; split; intros n [=]|intros; exact I].
Qed.

Lemma try_ok G f a t s1 s2 : acc_ty G a = Some t ->
  (stmt_ok G (STry f "" a s1 s2) <->
   (is_helper f -> In f helpers) /\ call_ty f t <> None /\
   block_ok (("err", LVar GError) :: G) s1 /\ block_ok (("err", LVar GError) :: G) s2).
Proof.
  intros A. cbn [GoType.stmt_ok]. fold (block_ok (("err", LVar GError) :: G)). rewrite String.eqb_refl. split.
  - intros (H & t' & r & A' & R & B). rewrite A in A'. injection A' as <-. split; auto. split; auto. congruence.
  - intros (H & R & B). split; auto. destruct (call_ty f t) as [r|] eqn:E; [|contradiction]. exists t, r. auto.
Qed.

Lemma try_var_ok G f x a t u s1 s2 : String.eqb x "" = false -> acc_ty G a = Some t -> call_ty f t = Some (Some u) ->
  (stmt_ok G (STry f x a s1 s2) <->
   (is_helper f -> In f helpers) /\ uses x s1 || uses x s2 = true /\
   block_ok (("err", LVar GError) :: (x, LVar u) :: G) s1 /\ block_ok (("err", LVar GError) :: (x, LVar u) :: G) s2).
Proof.
  intros X A R. cbn [GoType.stmt_ok]. fold (block_ok (("err", LVar GError) :: (x, LVar u) :: G)). rewrite X. split.
  - intros (H & t' & r & A' & R' & U & u' & -> & B). rewrite A in A'. injection A' as <-.
    rewrite R in R'. injection R' as <-. auto.
  - intros (H & U & B). split; auto. exists t, (Some u). repeat split; auto. exists u. repeat split; auto; apply B.
Qed.

(** A context with one more local. *)
Lemma ctx_more G c t x l a t' : ctx_ok G c t -> In x local_names -> x <> "idx" -> x <> "key" ->
  acc_ty ((x, l) :: G) a = Some t' -> ctx_ok ((x, l) :: G) (with_acc c a) t'.
Proof.
  intros [P E D I A] Hx N1 N2 A'. constructor; auto.
  - apply plain_cons; [right; exact Hx|exact P].
  - intros y Hy. destruct (I y Hy) as [Hy' V]. split; auto. unfold var_ty in *. cbn [assoc].
    destruct (String.eqb_spec y x) as [->|]; auto. destruct Hy'; contradiction.
Qed.

Lemma err_cause_ok G c t r : ctx_ok G c t -> var_ty G "err" = Some GError -> err_ok G (err_cause c r).
Proof.
  intros C V. destruct (err_here _ _ _ r C) as (A & B & _). repeat split; auto.
Qed.

Lemma acc_err G a t x : acc_uses "err" a = false -> acc_ty G a = Some t -> acc_ty (("err", x) :: G) a = Some t.
Proof.
  destruct a; cbn [acc_uses GoType.acc_ty]; auto; rewrite String.eqb_sym; intros H; unfold var_ty; cbn [assoc]; rewrite H; auto.
Qed.

Definition acc_plain (c : ctx) : Prop :=
  acc_uses "err" (cx_acc c) = false /\ acc_uses "uri" (cx_acc c) = false.

Lemma ctx_err G c t : ctx_ok G c t -> acc_uses "err" (cx_acc c) = false ->
  ctx_ok (("err", LVar GError) :: G) c t.
Proof.
  intros C A. destruct c as [mn fn ft a ix].
  apply (ctx_more G (mkCtx mn fn ft a ix) t "err" (LVar GError) a t C); [cbn; auto|discriminate|discriminate|].
  apply acc_err; auto. apply C.
Qed.

Lemma var_head G x t : var_ty ((x, LVar t) :: G) x = Some t.
Proof. unfold var_ty. cbn. now rewrite String.eqb_refl. Qed.

Definition wk_helpers (r : string_rules) : Prop :=
  forall h, str_needs (Some (FR None (Some (RString r)))) h = true -> In h helpers.

Lemma wk_tpl_ok G c r : ctx_ok G c GString -> acc_plain c -> wk_helpers r ->
  stmt_ok G (str_wk_tpl c (s_wk r)).
Proof.
  intros C [A1 A2] H.
  assert (CE : ctx_ok (("err", LVar GError) :: G) c GString) by (apply ctx_err; auto).
  assert (E : forall rs, block_ok (("err", LVar GError) :: G) (SFail (err_cause c rs))).
  { intros rs. apply fail_block, (err_cause_ok _ _ _ _ CE). apply var_head. }
  unfold wk_helpers in H. unfold str_wk_tpl.
  destruct (s_wk r) as [[[]|[]|[]|[]|[]|[]|[]|[]|[]|[]]|] eqn:W; try exact I;
    try (apply (chk_ok _ _ _ _ _ C); reflexivity);
    try (apply (try_ok _ _ _ GString); [apply C|]; split; [intros _; apply H; cbn; rewrite W; reflexivity|];
         split; [discriminate|]; split; [apply E|apply skip_block]).
  - (* uri *)
    assert (C' : ctx_ok (("err", LVar GError) :: ("uri", LVar GUrl) :: G) (with_acc c (AVar "uri")) GUrl).
    { change (with_acc c (AVar "uri")) with (with_acc (with_acc c (AVar "uri")) (AVar "uri")).
      assert (C1 : ctx_ok (("uri", LVar GUrl) :: G) (with_acc c (AVar "uri")) GUrl).
      { apply (ctx_more _ _ _ _ _ _ _ C); [cbn; tauto|discriminate|discriminate|reflexivity]. }
      apply (ctx_more _ _ _ _ _ _ _ C1); [cbn; tauto|discriminate|discriminate|reflexivity]. }
    apply (try_var_ok _ _ _ _ GString GUrl); [reflexivity|apply C|reflexivity|].
    split; [intros []|]. split; [apply orb_true_intro; right; reflexivity|]. split.
    + apply fail_block. destruct (err_here _ _ _ [PStr "value must be a valid URI"] C') as (P & Q & _).
      repeat split; auto.
    + split; [|constructor]. apply (chk_ok _ _ _ CNotAbs [PStr "value must be absolute"] C'). reflexivity.
  - (* uri_ref *)
    apply (try_ok _ _ _ GString); [apply C|]. split; [intros []|]. split; [discriminate|]. split; [apply E|apply skip_block].
  - (* address *)
    apply (try_ok _ _ _ GString); [apply C|]. split; [intros _; apply H; cbn; rewrite W; reflexivity|].
    split; [discriminate|]. split; [|apply skip_block]. split; [|constructor].
    apply (chk_ok _ _ _ _ _ CE). reflexivity.
Qed.

Lemma pattern_ok G c t (o : option bytes) rs : ctx_ok G c t -> is_text t ->
  (stmt_ok G (opt o (fun s => chk c (CNoMatch (lookup c "Pattern")) (rs s))) <->
   (o <> None -> exists p, tab c "Pattern" = Some (DRegex p))).
Proof.
  intros C T. rewrite (opt_chk _ _ _ _ _ _ C). cbn [GoType.cond_ok]. unfold pkg_ref, lookup.
  rewrite (plain_lookup _ _ _ _ (cxo_plain _ _ _ C)) by (unfold table; auto).
  change (assoc (lookup_name (cx_msg c) (cx_field c) "Pattern") decls) with (tab c "Pattern").
  split.
  - intros H N. destruct o as [s|]; [|contradiction]. apply (H s eq_refl).
  - intros H s ->. split; auto. apply H. discriminate.
Qed.

Lemma text_ok G c t (o : option bytes) (f : bytes -> cond) rs : ctx_ok G c t -> is_text t ->
  (forall s, cond_ok G t (f s) <-> is_text t) ->
  (stmt_ok G (opt o (fun s => chk c (f s) (rs s))) <-> True).
Proof. intros C T F. rewrite (opt_chk _ _ _ _ _ _ C). split; auto. intros _ s _. now apply F. Qed.

Lemma str_tpl_declares c r : declares (str_tpl c r) = [].
Proof.
  apply guarded_declares. rewrite seq_declares. cbn [flat_map].
  rewrite !len_declares, in_tpl_declares, wk_declares. rewrite !opt_declares; auto.
Qed.

Lemma str_tpl_ok G c r : ctx_ok G c GString -> acc_plain c -> wk_helpers r ->
  negb (is_nil (s_in r)) && negb (is_nil (s_not_in r)) = false ->
  (stmt_ok G (str_tpl c r) <->
   lens_fit (s_len r) (s_min_len r) (s_max_len r) /\
   lens_fit (s_len_bytes r) (s_min_bytes r) (s_max_bytes r) /\
   lists_ok c GString false (negb (is_nil (s_in r))) (negb (is_nil (s_not_in r))) /\
   (s_pattern r <> None -> exists p, tab c "Pattern" = Some (DRegex p))).
Proof.
  intros C A H K. unfold str_tpl. rewrite (guarded_ok G _ _ GString).
  2: apply C.
  2: { rewrite seq_declares. cbn [flat_map]. rewrite !len_declares, in_tpl_declares, wk_declares. rewrite !opt_declares; auto. }
  2: { intros _. reflexivity. }
  rewrite seq_ok, !Forall_cons_iff, Forall_nil_iff'.
  rewrite (in_tpl_ok G c _ _ _ _ _ _ C K).
  rewrite (len_tpl_ok G c GString CRunes), (len_tpl_ok G c GString CLen); auto.
  2,3: intros op n; cbn; intuition.
  rewrite (pattern_ok G c GString _ _ C I).
  rewrite (text_ok G c GString (s_prefix r)), (text_ok G c GString (s_suffix r)),
    (text_ok G c GString (s_contains r)), (text_ok G c GString (s_not_contains r)); auto; try exact I; try reflexivity.
  rewrite (opt_chk _ _ _ _ _ _ C). cbn [GoType.cond_ok].
  assert (W := wk_tpl_ok G c r C A H). tauto.
Qed.

Lemma byt_tpl_declares c r : declares (byt_tpl c r) = [].
Proof.
  apply guarded_declares. rewrite seq_declares. cbn [flat_map].
  rewrite !len_declares, in_tpl_declares. rewrite !opt_declares; auto.
  destruct (b_wk r) as [[[]|[]|[]]|]; reflexivity.
Qed.

Lemma byt_tpl_ok G c r : ctx_ok G c GBytes ->
  negb (is_nil (b_in r)) && negb (is_nil (b_not_in r)) = false ->
  (stmt_ok G (byt_tpl c r) <->
   lens_fit (b_len r) (b_min_len r) (b_max_len r) /\
   lists_ok c GBytes true (negb (is_nil (b_in r))) (negb (is_nil (b_not_in r))) /\
   (b_pattern r <> None -> exists p, tab c "Pattern" = Some (DRegex p))).
Proof.
  intros C K. unfold byt_tpl. rewrite (guarded_ok G _ _ GBytes).
  2: apply C.
  2: { rewrite seq_declares. cbn [flat_map]. rewrite !len_declares, in_tpl_declares. rewrite !opt_declares; auto.
       destruct (b_wk r) as [[[]|[]|[]]|]; reflexivity. }
  2: { intros _. cbn. split; auto. reflexivity. }
  rewrite seq_ok, !Forall_cons_iff, Forall_nil_iff'.
  rewrite (in_tpl_ok G c _ _ _ _ _ _ C K).
  rewrite (len_tpl_ok G c GBytes CLen); auto.
  2: intros op n; cbn; intuition.
  rewrite (pattern_ok G c GBytes _ _ C I).
  rewrite (text_ok G c GBytes (nonempty (b_prefix r))), (text_ok G c GBytes (nonempty (b_suffix r))),
    (text_ok G c GBytes (nonempty (b_contains r))); auto; try exact I; try reflexivity.
  rewrite (opt_chk _ _ _ _ _ _ C). cbn [GoType.cond_ok].
  match goal with |- context [stmt_ok G ?s /\ _ /\ True] => assert (W : stmt_ok G s) end.
  { destruct (b_wk r) as [[[]|[]|[]]|]; try exact I; apply (chk_ok _ _ _ _ _ C); reflexivity. }
  tauto.
Qed.

Lemma enum_tpl_declares c r : declares (enum_tpl c r) = [].
Proof.
  unfold enum_tpl. rewrite seq_declares. cbn [flat_map]. rewrite in_tpl_declares, opt_declares; auto.
  destruct (getb _); reflexivity.
Qed.

Lemma enum_tpl_ok G c e r : ctx_ok G c (GEnum e) -> (forall z, e_const r = Some z -> enum_fits z) ->
  (getb (e_defined_only r) = true -> In (enum_name (cx_ftype c)) enums) ->
  negb (is_nil (e_in r)) && negb (is_nil (e_not_in r)) = false ->
  (stmt_ok G (enum_tpl c r) <->
   lists_ok c (GEnum e) false (negb (is_nil (e_in r))) (negb (is_nil (e_not_in r)))).
Proof.
  intros C Z E K. unfold enum_tpl.
  rewrite seq_ok, !Forall_cons_iff, Forall_nil_iff'.
  rewrite (in_tpl_ok G c _ _ _ _ _ _ C K). rewrite (opt_chk _ _ _ _ _ _ C). cbn [GoType.cond_ok].
  match goal with |- context [stmt_ok G ?s /\ True] => assert (W : stmt_ok G s) end.
  { destruct (getb _); [|exact I]. apply (chk_ok _ _ _ _ _ C). cbn. eauto. }
  assert (Q : forall a, e_const r = Some a -> (exists e', GEnum e = GEnum e') /\ enum_fits a) by eauto.
  tauto.
Qed.

(** ** Any, durations, timestamps, messages *)

Lemma required_ok G c t o : ctx_ok G c t -> (stmt_ok G (required_tpl c o) <-> (getb o = true -> nilable t)).
Proof.
  intros C. unfold required_tpl. destruct (getb o).
  - rewrite (chk_ok _ _ _ _ _ C). cbn. tauto.
  - cbn. split; auto. discriminate.
Qed.
Lemma required_declares c o : declares (required_tpl c o) = [].
Proof. unfold required_tpl. destruct (getb o); reflexivity. Qed.

Lemma bind_ok G x a t s1 s2 : acc_ty G a = Some t ->
  (stmt_ok G (SBind x a s1 s2) <->
   nilable t /\ block_ok ((x, LVar t) :: G) s1 /\ block_ok ((x, LVar t) :: G) s2).
Proof.
  intros A. cbn [GoType.stmt_ok]. split.
  - intros (t' & A' & H). rewrite A in A'. injection A' as <-. exact H.
  - intros H. exists t. split; auto.
Qed.

Lemma url_ok G c t k (neg : bool) rs : ctx_ok G c t -> table k ->
  let f := if neg then CInSet (lookup c k) false else CNotInSet (lookup c k) false in
  (stmt_ok (("a", LVar t) :: G) (chk (mkCtx (cx_msg c) (cx_field c) (cx_ftype c) (AUrl "a") (cx_ix c)) f rs) <->
   t = GPtr TAny /\ tab_ok GString false (tab c k)).
Proof.
  intros C K f. change (mkCtx (cx_msg c) (cx_field c) (cx_ftype c) (AUrl "a") (cx_ix c)) with (with_acc c (AUrl "a")).
  assert (V : var_ty (("a", LVar t) :: G) "a" = Some t) by reflexivity.
  split.
  - intros H. assert (T : t = GPtr TAny).
    { unfold chk in H. rewrite if_ok in H. destruct H as ((t' & A & _) & _). cbn in A. unfold var_ty in A. cbn in A.
      destruct t as [| | | | | | | | | |[]| | | | | | | ]; try discriminate A. reflexivity. }
    split; auto. subst t.
    assert (C' : ctx_ok (("a", LVar (GPtr TAny)) :: G) (with_acc c (AUrl "a")) GString)
      by (apply (ctx_more _ _ _ _ _ _ _ C); [cbn; tauto|discriminate|discriminate|reflexivity]).
    apply (chk_ok _ _ _ _ _ C') in H.
    apply (member_tab _ _ _ GString _ false C' K). destruct neg; exact H.
  - intros (-> & H).
    assert (C' : ctx_ok (("a", LVar (GPtr TAny)) :: G) (with_acc c (AUrl "a")) GString)
      by (apply (ctx_more _ _ _ _ _ _ _ C); [cbn; tauto|discriminate|discriminate|reflexivity]).
    apply (chk_ok _ _ _ _ _ C').
    apply (member_tab _ _ _ GString _ false C' K) in H. destruct neg; exact H.
Qed.

Lemma any_tpl_ok G c t r : ctx_ok G c t ->
  negb (is_nil (a_in r)) && negb (is_nil (a_not_in r)) = false ->
  (stmt_ok G (any_tpl c r) <->
   nilable t /\ (a_in r <> [] -> t = GPtr TAny /\ tab_ok GString false (tab c "InLookup")) /\
   (a_not_in r <> [] -> t = GPtr TAny /\ tab_ok GString false (tab c "NotInLookup"))).
Proof.
  intros C K. unfold any_tpl.
  change (stmt_ok G (SSeq ?a ?b)) with (stmt_ok G a /\ stmt_ok G b).
  rewrite (required_ok _ _ _ _ C), (bind_ok _ _ _ _ _ _ (cxo_acc _ _ _ C)).
  assert (S := skip_block (("a", LVar t) :: G)).
  destruct (a_in r) as [|u l] eqn:Ei, (a_not_in r) as [|u' l'] eqn:En; try discriminate K.
  - intuition.
  - unfold GoType.block_ok at 1. rewrite (url_ok G c t "NotInLookup" true _ C) by (unfold table; auto).
    rewrite chk_declares. assert (NoDup (@nil string)) by constructor.
    split; [intros (_ & A & (B & _) & _); repeat split; auto; try tauto; contradiction|].
    intros (A & _ & B). split; auto. split; auto. split; auto. split; auto. apply B. discriminate.
  - unfold GoType.block_ok at 1. rewrite (url_ok G c t "InLookup" false _ C) by (unfold table; auto).
    rewrite chk_declares. assert (NoDup (@nil string)) by constructor.
    split; [intros (_ & A & (B & _) & _); repeat split; auto; try tauto; contradiction|].
    intros (A & B & _). split; auto. split; auto. split; auto. split; auto. apply B. discriminate.
Qed.

Lemma acc_push G a t x l : acc_uses x a = false -> acc_ty G a = Some t -> acc_ty ((x, l) :: G) a = Some t.
Proof.
  destruct a; cbn [acc_uses GoType.acc_ty]; auto; rewrite String.eqb_sym; intros H; unfold var_ty; cbn [assoc]; rewrite H; auto.
Qed.

Lemma ctx_push G c t x l : ctx_ok G c t -> In x local_names -> x <> "idx" -> x <> "key" ->
  acc_uses x (cx_acc c) = false -> ctx_ok ((x, l) :: G) c t.
Proof.
  intros C X N1 N2 A. destruct c as [mn fn ft a ix].
  apply (ctx_more G (mkCtx mn fn ft a ix) t x l a t C); auto. apply acc_push; auto. apply C.
Qed.

Lemma let_opt_ok {A} G (o : option A) x f s : stmt_ok G (let_opt o x f s) <->
  match o with
  | Some a => rhs_ok (f a) /\ uses x s = true /\ stmt_ok ((x, LVar (rhs_ty (f a))) :: G) s
  | None => stmt_ok G s
  end.
Proof. destruct o; reflexivity. Qed.

Lemma seq2_ok G a b : stmt_ok G (SSeq a b) <-> stmt_ok G a /\ stmt_ok G b.
Proof. reflexivity. Qed.

Lemma uses_chk x c f r : uses x (chk c f r) =
  acc_uses x (cx_acc c) || cond_uses x f || match cx_ix c with Some y => String.eqb x y | None => false end.
Proof. unfold chk, err. cbn [uses]. unfold err_uses. cbn. rewrite ?orb_false_r. reflexivity. Qed.

Definition dur_lits (r : duration_rules) : Prop :=
  forall d, (d_const r = Some d \/ d_lt r = Some d \/ d_lte r = Some d \/ d_gt r = Some d \/
             d_gte r = Some d) -> dur_lit d <> None.

Lemma is_none_map {A B} (f : A -> B) o : is_none (option_map f o) = is_none o.
Proof. now destruct o. Qed.

Lemma nums_parts {A} (eqA : A -> A -> bool) i ni c lt lte gt gte : check_nums eqA i ni c lt lte gt gte = true ->
  check_ins i ni = true /\
  (is_none c || ((i =? 0)%nat && (ni =? 0)%nat && is_none lt && is_none lte && is_none gt && is_none gte)) = true /\
  (is_none lt || is_none lte) = true /\ (is_none gt || is_none gte) = true.
Proof. unfold check_nums. rewrite !andb_true_iff. tauto. Qed.

Lemma ins_parts {A} (l m : list A) : check_ins (List.length l) (List.length m) = true ->
  negb (is_nil l) && negb (is_nil m) = false.
Proof. destruct l, m; cbn; auto. Qed.

Ltac ctx_tac := repeat (apply ctx_push; [|cbn; tauto|discriminate|discriminate|reflexivity]).

Lemma durationcmp_ok G c r : ctx_ok G (with_acc c (AVar "dur")) GDuration -> check_duration r = true ->
  (stmt_ok G (durationcmp_tpl c r) <->
   dur_lits r /\ lists_ok c GDuration false (negb (is_nil (d_in r))) (negb (is_nil (d_not_in r)))).
Proof.
  intros C K. unfold check_duration in K. rewrite !andb_true_iff in K.
  destruct K as [[[_ K] _] _]. apply nums_parts in K. rewrite !is_none_map in K.
  destruct K as (K1 & K2 & K3 & K4). apply ins_parts in K1.
  unfold durationcmp_tpl. rewrite seq2_ok, (opt_chk _ _ _ _ _ _ C).
  unfold dur_lits. cbn [GoType.cond_ok].
  rewrite !let_opt_ok.
  destruct (d_const r) as [kc|], (d_lt r) as [lt|], (d_lte r) as [lte|], (d_gt r) as [gt|], (d_gte r) as [gte|];
    cbn in K2, K3, K4; rewrite ?andb_false_r in K2; try discriminate K2; try discriminate K3; try discriminate K4;
    cbn [rhs_ty];
    rewrite ?let_opt_ok; cbn [rhs_ty rhs_ok];
    rewrite ?let_opt_ok; cbn [rhs_ty rhs_ok]; rewrite ?let_opt_ok; cbn [rhs_ty rhs_ok];
    cbn [let_opt];
    (match goal with |- context [stmt_ok ?E (SSeq _ (in_tpl ?c' ?cv ?a ?b ?p ?q))] =>
       assert (CT : ctx_ok E c' GDuration) by (ctx_tac; exact C) end);
    rewrite seq2_ok, (in_tpl_ok _ _ _ _ _ _ _ _ CT K1); unfold range_tpl;
    try (match goal with |- context [if dur_gt ?a ?b then _ else _] => destruct (dur_gt a b) end);
    rewrite ?(chk_ok _ _ _ _ _ CT); cbn [GoType.cond_ok uses]; rewrite ?uses_chk;
    cbn [cx_acc with_acc acc_uses cond_uses]; rewrite ?orb_true_r;
    change (lists_ok (with_acc c (AVar "dur"))) with (lists_ok c).
  all: split;
    [intros (HC & HH); repeat match goal with H : _ /\ _ |- _ => destruct H end;
     split; [|assumption];
     intros d Hd; repeat match goal with H : _ \/ _ |- _ => destruct H as [H|H] end;
     try discriminate; try exact (proj2 (HC _ Hd)); try (injection Hd as <-; assumption)
    |intros (HC & HL);
     repeat match goal with |- _ /\ _ => split end; try assumption; try exact I; try reflexivity;
     try (apply HC; tauto); try (intros z [= <-]; split; [reflexivity|apply HC; auto]);
     try (intros z [=])].
Qed.

Lemma durationcmp_uses c r : check_duration r = true -> ~ dur_idle r -> uses "dur" (durationcmp_tpl c r) = true.
Proof.
  intros K N. unfold check_duration in K. rewrite !andb_true_iff in K.
  destruct K as [[[_ K] _] _]. apply nums_parts in K. rewrite !is_none_map in K.
  destruct K as (K1 & K2 & K3 & K4). apply ins_parts in K1.
  unfold durationcmp_tpl, dur_idle, no_lists, range_tpl, in_tpl in *. cbn [uses].
  destruct (d_const r) as [kc|], (d_lt r) as [lt|], (d_lte r) as [lte|], (d_gt r) as [gt|], (d_gte r) as [gte|];
    cbn in K2, K3, K4; rewrite ?andb_false_r in K2; try discriminate K2; try discriminate K3; try discriminate K4;
    cbn [opt let_opt uses];
    try (match goal with |- context [if dur_gt ?a ?b then _ else _] => destruct (dur_gt a b) end);
    rewrite ?uses_chk; cbn [cx_acc with_acc acc_uses]; try reflexivity.
  destruct (d_in r), (d_not_in r); cbn [is_nil negb uses]; rewrite ?uses_chk; try reflexivity.
  exfalso. apply N. tauto.
Qed.

Lemma let_declares {A} (o : option A) x f s :
  declares (let_opt o x f s) = app (if is_some o then [x] else []) (declares s).
Proof. destruct o; reflexivity. Qed.

Lemma range_declares T g k pr c lt lte gt gte s : declares s = [] ->
  declares (range_tpl T g k pr c lt lte gt gte s) = [].
Proof.
  intros H. unfold range_tpl. destruct lt, lte, gt, gte; try exact H;
    try (match goal with |- context [if g ?a ?b then _ else _] => destruct (g a b) end); reflexivity.
Qed.

Lemma durationcmp_declares c r : NoDup (declares (durationcmp_tpl c r)).
Proof.
  unfold durationcmp_tpl. cbn [declares]. rewrite opt_declares by reflexivity. rewrite !let_declares.
  cbn [declares]. rewrite range_declares by reflexivity. rewrite in_tpl_declares.
  destruct (is_some _), (is_some _), (is_some _), (is_some _); cbn;
    repeat constructor; cbn; intuition discriminate.
Qed.

Lemma dur_active r :
  negb (is_nil (d_in r)) || negb (is_nil (d_not_in r)) || is_some (d_lt r)
    || is_some (d_lte r) || is_some (d_gt r) || is_some (d_gte r) || is_some (d_const r) = false <-> dur_idle r.
Proof.
  unfold dur_idle, no_lists.
  destruct (d_const r), (d_lt r), (d_lte r), (d_gt r), (d_gte r), (d_in r), (d_not_in r); cbn;
    split; intros; try discriminate; try (intuition discriminate); auto 20.
Qed.

Lemma duration_tpl_ok G c t r : ctx_ok G c t -> check_duration r = true ->
  (stmt_ok G (duration_tpl c r) <->
   (getb (d_required r) = true -> nilable t) /\
   (dur_idle r \/ t = GPtr TDur /\ dur_lits r /\
      lists_ok c GDuration false (negb (is_nil (d_in r))) (negb (is_nil (d_not_in r))))).
Proof.
  intros C K. unfold duration_tpl. rewrite seq2_ok, (required_ok _ _ _ _ C).
  match goal with |- context [if ?b then _ else _] => destruct b eqn:E end.
  2: { apply dur_active in E. split; [intros [H _]; auto|intros [H _]; split; auto; exact I]. }
  assert (N : ~ dur_idle r) by (rewrite <- dur_active, E; discriminate).
  rewrite (bind_ok _ _ _ _ _ _ (cxo_acc _ _ _ C)).
  set (G1 := ("d", LVar t) :: G).
  assert (T : block_ok G1 (STry FDuration "dur" (AVar "d") (SFail (err_cause c [PStr "value is not a valid duration"]))
                 (durationcmp_tpl c r)) -> t = GPtr TDur).
  { intros [(_ & t' & r' & A & R & _) _]. cbn in A. unfold var_ty in A. cbn in A. injection A as <-.
    destruct t as [| | | | | | | | | |[]| | | | | | |]; try discriminate R. reflexivity. }
  assert (Q : t = GPtr TDur ->
    (block_ok G1 (STry FDuration "dur" (AVar "d") (SFail (err_cause c [PStr "value is not a valid duration"]))
       (durationcmp_tpl c r)) <->
     dur_lits r /\ lists_ok c GDuration false (negb (is_nil (d_in r))) (negb (is_nil (d_not_in r))))).
  { intros ->. unfold GoType.block_ok. rewrite (try_var_ok _ _ _ _ (GPtr TDur) GDuration) by reflexivity.
    assert (C1 : ctx_ok G1 (with_acc c (AVar "d")) (GPtr TDur))
      by (apply (ctx_more _ _ _ _ _ _ _ C); [cbn; tauto|discriminate|discriminate|reflexivity]).
    assert (C2 : ctx_ok (("dur", LVar GDuration) :: G1) (with_acc c (AVar "dur")) GDuration)
      by (apply (ctx_more _ _ _ _ _ _ _ C1); [cbn; tauto|discriminate|discriminate|reflexivity]).
    assert (C3 : ctx_ok (("err", LVar GError) :: ("dur", LVar GDuration) :: G1) (with_acc c (AVar "dur")) GDuration)
      by (apply (ctx_more _ _ _ _ _ _ _ C2); [cbn; tauto|discriminate|discriminate|reflexivity]).
    rewrite fail_block. unfold GoType.block_ok. rewrite (durationcmp_ok _ _ _ C3 K).
    rewrite (durationcmp_uses c r K N), orb_true_r.
    assert (HE : err_ok (("err", LVar GError) :: ("dur", LVar GDuration) :: G1)
                   (err_cause c [PStr "value is not a valid duration"])).
    { exact (err_cause_ok _ _ _ [PStr "value is not a valid duration"] C3 eq_refl). }
    assert (HD := durationcmp_declares c r). cbn [declares is_helper].
    assert (NoDup (@nil string)) by constructor.
    clear - HE HD H. tauto. }
  assert (S := skip_block G1).
  split.
  - intros (H1 & H2 & H3 & _). split; auto. right. assert (X := T H3). split; auto. now apply Q.
  - intros (H1 & [H|(X & H)]); [contradiction|]. split; auto. split; [subst t; exact I|]. split; auto. now apply Q.
Qed.

(** Timestamps. *)
Definition ts_lits (r : timestamp_rules) : Prop := forall d, t_within r = Some d -> dur_lit d <> None.

Lemma ts_parts r : check_timestamp r = true ->
  (is_none (t_lt r) || is_none (t_lte r)) = true /\ (is_none (t_gt r) || is_none (t_gte r)) = true /\
  ((is_none (t_lt_now r) && is_none (t_gt_now r) && is_none (t_within r)) ||
   (is_none (t_lt r) && is_none (t_lte r) && is_none (t_gt r) && is_none (t_gte r))) = true /\
  (is_none (t_lt_now r) || is_none (t_gt_now r)) = true.
Proof.
  unfold check_timestamp. rewrite !andb_true_iff. intros ((((A & B) & D) & E) & _).
  destruct A as [_ A]. apply nums_parts in A. rewrite !is_none_map in A. destruct A as (_ & _ & A1 & A2).
  repeat split; auto.
  destruct (is_none (t_lt_now r)), (is_none (t_gt_now r)), (is_none (t_within r)); cbn in *; auto.
Qed.

Lemma now_ok G (b : bool) s : stmt_ok G (if b then SLet "now" RhsNow s else s) <->
  if b then uses "now" s = true /\ stmt_ok (("now", LVar GTime) :: G) s else stmt_ok G s.
Proof. destruct b; [|reflexivity]. cbn [GoType.stmt_ok rhs_ok rhs_ty]. tauto. Qed.

Ltac ts_cases r K :=
  let K1 := fresh "K1" in let K2 := fresh "K2" in let K3 := fresh "K3" in let K4 := fresh "K4" in
  destruct (ts_parts r K) as (K1 & K2 & K3 & K4); clear K;
  destruct (t_lt r) as [lt|], (t_lte r) as [lte|]; cbn [is_none orb andb] in K1, K3; try discriminate K1; clear K1;
  destruct (t_gt r) as [gt|], (t_gte r) as [gte|]; cbn [is_none orb andb] in K2, K3; try discriminate K2; clear K2;
  destruct (t_lt_now r) as [ln|], (t_gt_now r) as [gn|]; cbn [is_none orb andb] in K3, K4; try discriminate K4; clear K4;
  try discriminate K3;
  destruct (t_within r) as [w|]; cbn [is_none orb andb] in K3; try discriminate K3; clear K3.

Lemma timestampcmp_ok G c r : ctx_ok G (with_acc c (AVar "ts")) GTime -> check_timestamp r = true ->
  (stmt_ok G (timestampcmp_tpl c r) <-> ts_lits r).
Proof.
  intros C K. unfold timestampcmp_tpl. rewrite seq2_ok, (opt_chk _ _ _ _ _ _ C).
  unfold ts_lits. cbn [GoType.cond_ok]. rewrite now_ok.
  assert (TC : (forall a, t_const r = Some a -> GTime = GTime) <-> True) by (split; auto).
  rewrite TC. clear TC.
  ts_cases r K; cbn [is_some orb];
    do 6 (rewrite ?let_opt_ok; cbn [rhs_ty rhs_ok]); cbn [let_opt];
    unfold range_tpl;
    try (match goal with |- context [if ts_gt ?a ?b then _ else _] => destruct (ts_gt a b) end);
    try (match goal with |- context [stmt_ok ?E (chk ?c' _ _)] =>
       assert (CT : ctx_ok E c' GTime) by (ctx_tac; exact C) end; rewrite (chk_ok _ _ _ _ _ CT));
    cbn [GoType.cond_ok GoType.texp_ok uses]; rewrite ?uses_chk;
    cbn [cx_acc with_acc acc_uses cond_uses texp_uses].
  all: split;
    [intros H d Hd; repeat match goal with H : _ /\ _ |- _ => destruct H end;
     try discriminate Hd; injection Hd as <-; assumption
    |intros H; repeat match goal with |- _ /\ _ => split end; try assumption; try exact I; try reflexivity;
     try (apply H; reflexivity)].
Qed.

Lemma timestampcmp_uses c r : check_timestamp r = true -> ~ ts_idle r -> uses "ts" (timestampcmp_tpl c r) = true.
Proof.
  intros K N. unfold timestampcmp_tpl, ts_idle, range_tpl in *. cbn [uses].
  destruct (t_const r) as [kc|]; cbn [opt]; rewrite ?uses_chk; cbn [cx_acc with_acc acc_uses]; [reflexivity|].
  ts_cases r K; cbn [is_some orb let_opt uses];
    try (match goal with |- context [if ts_gt ?a ?b then _ else _] => destruct (ts_gt a b) end);
    rewrite ?uses_chk; cbn [cx_acc with_acc acc_uses]; try reflexivity.
  exfalso. apply N. tauto.
Qed.

Lemma timestampcmp_declares c r : NoDup (declares (timestampcmp_tpl c r)).
Proof.
  unfold timestampcmp_tpl. cbn [declares]. rewrite opt_declares by reflexivity.
  match goal with |- context [if ?b then SLet _ _ _ else _] => destruct b end; cbn [declares];
  rewrite !let_declares; cbn [declares];
  (rewrite range_declares by (destruct (t_lt_now r), (t_gt_now r), (t_within r); reflexivity));
  destruct (is_some _), (is_some _), (is_some _), (is_some _), (is_some _); cbn;
    repeat constructor; cbn; intuition discriminate.
Qed.

Lemma ts_active r :
  is_some (t_lt r) || is_some (t_lte r) || is_some (t_gt r) || is_some (t_gte r)
    || is_some (t_lt_now r) || is_some (t_gt_now r) || is_some (t_within r)
    || is_some (t_const r) = false <-> ts_idle r.
Proof.
  unfold ts_idle.
  destruct (t_const r), (t_lt r), (t_lte r), (t_gt r), (t_gte r), (t_lt_now r), (t_gt_now r), (t_within r); cbn;
    split; intros; try discriminate; try (intuition discriminate); auto 20.
Qed.

Lemma timestamp_tpl_ok G c t r : ctx_ok G c t -> check_timestamp r = true ->
  (stmt_ok G (timestamp_tpl c r) <->
   (getb (t_required r) = true -> nilable t) /\ (ts_idle r \/ t = GPtr TTs /\ ts_lits r)).
Proof.
  intros C K. unfold timestamp_tpl. rewrite seq2_ok, (required_ok _ _ _ _ C).
  match goal with |- context [if ?b then _ else _] => destruct b eqn:E end.
  2: { apply ts_active in E. split; [intros [H _]; auto|intros [H _]; split; auto; exact I]. }
  assert (N : ~ ts_idle r) by (rewrite <- ts_active, E; discriminate).
  rewrite (bind_ok _ _ _ _ _ _ (cxo_acc _ _ _ C)).
  set (G1 := ("t", LVar t) :: G).
  set (F := SFail (err_cause c [PStr "value is not a valid timestamp"])).
  assert (T : block_ok G1 (STry FTime "ts" (AVar "t") F (timestampcmp_tpl c r)) -> t = GPtr TTs).
  { intros [(_ & t' & r' & A & R & _) _]. cbn in A. unfold var_ty in A. cbn in A. injection A as <-.
    destruct t as [| | | | | | | | | |[]| | | | | | |]; try discriminate R. reflexivity. }
  assert (Q : t = GPtr TTs ->
    (block_ok G1 (STry FTime "ts" (AVar "t") F (timestampcmp_tpl c r)) <-> ts_lits r)).
  { intros ->. unfold GoType.block_ok. rewrite (try_var_ok _ _ _ _ (GPtr TTs) GTime) by reflexivity.
    assert (C1 : ctx_ok G1 (with_acc c (AVar "t")) (GPtr TTs))
      by (apply (ctx_more _ _ _ _ _ _ _ C); [cbn; tauto|discriminate|discriminate|reflexivity]).
    assert (C2 : ctx_ok (("ts", LVar GTime) :: G1) (with_acc c (AVar "ts")) GTime)
      by (apply (ctx_more _ _ _ _ _ _ _ C1); [cbn; tauto|discriminate|discriminate|reflexivity]).
    assert (C3 : ctx_ok (("err", LVar GError) :: ("ts", LVar GTime) :: G1) (with_acc c (AVar "ts")) GTime)
      by (apply (ctx_more _ _ _ _ _ _ _ C2); [cbn; tauto|discriminate|discriminate|reflexivity]).
    unfold F. rewrite fail_block. unfold GoType.block_ok. rewrite (timestampcmp_ok _ _ _ C3 K).
    rewrite (timestampcmp_uses c r K N), orb_true_r.
    assert (HE : err_ok (("err", LVar GError) :: ("ts", LVar GTime) :: G1)
                   (err_cause c [PStr "value is not a valid timestamp"])).
    { exact (err_cause_ok _ _ _ [PStr "value is not a valid timestamp"] C3 eq_refl). }
    assert (HD := timestampcmp_declares c r). cbn [declares is_helper].
    assert (NoDup (@nil string)) by constructor.
    clear - HE HD H. tauto. }
  assert (S := skip_block G1).
  split.
  - intros (H1 & H2 & H3 & _). split; auto. right. assert (X := T H3). split; auto. now apply Q.
  - intros (H1 & [H|(X & H)]); [contradiction|]. split; auto. split; [subst t; exact I|]. split; auto. now apply Q.
Qed.

Lemma message_tpl_ok G c e mr : ctx_ok G c (GPtr e) -> acc_uses "err" (cx_acc c) = false -> stmt_ok G (message_tpl c e mr).
Proof.
  intros C A. unfold message_tpl. rewrite seq2_ok. split.
  - apply (required_ok _ _ _ _ C). intros _. exact I.
  - match goal with |- context [if ?b then _ else _] => destruct b end; [exact I|].
    split; [rewrite (cxo_acc _ _ _ C); discriminate|].
    apply (err_cause_ok _ _ (GPtr e)); [|reflexivity]. apply ctx_err; auto.
Qed.

Lemma leaf_declares c r : declares (leaf_tpl c r) = [].
Proof.
  destruct r; cbn [leaf_tpl]; try reflexivity.
  - apply num_tpl_declares.
  - unfold bool_tpl. now rewrite opt_declares.
  - apply str_tpl_declares.
  - apply byt_tpl_declares.
  - apply enum_tpl_declares.
  - unfold any_tpl. cbn. now rewrite required_declares.
  - unfold duration_tpl. cbn [declares]. rewrite required_declares.
    match goal with |- context [if ?b then _ else _] => destruct b end; reflexivity.
  - unfold timestamp_tpl. cbn [declares]. rewrite required_declares.
    match goal with |- context [if ?b then _ else _] => destruct b end; reflexivity.
Qed.

Lemma message_declares c e mr : declares (message_tpl c e mr) = [].
Proof.
  unfold message_tpl. cbn [declares]. rewrite required_declares.
  match goal with |- context [if ?b then _ else _] => destruct b end; reflexivity.
Qed.

Lemma wrapper_declares c mr r : declares (wrapper_tpl c mr r) = [].
Proof. unfold wrapper_tpl. destruct (cx_ftype c); reflexivity. Qed.

Lemma elem_declares c b e fr : declares (elem_tpl c b e fr) = [].
Proof.
  destruct fr as [[mr [r|]]|]; cbn [elem_tpl].
  - destruct (_ && _ && _); [apply wrapper_declares|apply leaf_declares].
  - destruct (is_embed e); [apply message_declares|reflexivity].
  - destruct (is_embed e); [apply message_declares|reflexivity].
Qed.
End Facts.
