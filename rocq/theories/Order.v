(** The order in which maps are visited only permutes the errors of ValidateAll. *)
From Coq Require Import Lia Sorting.Permutation.
From Verif Require Import Base Num Rules Types Time Iface Checker GoIR GoGen Regex Known GoSem Spec SpecErr Sim.

(** * Heights *)
Lemma list_max_perm {A} (f : A -> nat) l l' : Permutation l l' -> list_max (map f l) = list_max (map f l').
Proof. unfold list_max. induction 1; cbn [map fold_right]; lia. Qed.

Lemma list_max_forall2 {A} (f : A -> nat) l l' : Forall2 (fun x y => f x = f y) l l' -> list_max (map f l) = list_max (map f l').
Proof. unfold list_max. induction 1; cbn [map fold_right]; lia. Qed.

Fixpoint same_height v v' (H : same v v') {struct H} : vheight v = vheight v'
with same_mheight m m' (H : same_msg m m') {struct H} : mheight m = mheight m'.
Proof.
  - destruct H as [v|m m' H|l l' H|l l1 l' P H]; cbn [vheight].
    + reflexivity.
    + f_equal. apply same_mheight, H.
    + apply list_max_forall2. induction H as [|x y t t' Hx _ IH]; constructor; auto.
    + rewrite (list_max_perm _ _ _ P). apply list_max_forall2. clear P. induction H as [|x y t t' Hx _ IH]; constructor; auto.
      destruct Hx as [k w w' Hw]. cbn. apply same_height, Hw.
  - destruct H as [fs fs' os os' H1 H2]. cbn [mheight]. f_equal.
    + apply list_max_forall2. induction H1 as [|x y t t' Hx _ IH]; constructor; auto. destruct Hx as [k w w' Hw]. cbn. apply same_height, Hw.
    + apply list_max_forall2. clear H1. induction H2 as [|x y t t' Hx _ IH]; constructor; auto. destruct Hx as [k|k f w w' Hw]; cbn; [reflexivity|]. apply same_height, Hw.
Qed.

Lemma Forall2_len {A B} (R : A -> B -> Prop) l l' : Forall2 R l l' -> List.length l = List.length l'.
Proof. induction 1; cbn; auto. Qed.

(** * Lists of errors *)
Definition same_errs (l l' : list gerr) : Prop := exists l1, Permutation l l1 /\ Forall2 same_err l1 l'.

Lemma same_errs_nil : same_errs [] [].
Proof. exists []. split; constructor. Qed.

Lemma same_errs_app a a' b b' : same_errs a a' -> same_errs b b' -> same_errs (a ++ b) (a' ++ b').
Proof. intros (x & X1 & X2) (y & Y1 & Y2). exists (x ++ y). split; [now apply Permutation_app|now apply Forall2_app]. Qed.

Lemma same_errs_one e e' : same_err e e' -> same_errs [e] [e'].
Proof. intros. exists [e]. split; auto. Qed.

Lemma same_errs_perm a b c : Permutation a b -> same_errs b c -> same_errs a c.
Proof. intros H (l & L1 & L2). exists l. split; auto. now transitivity b. Qed.

Lemma same_errs_is_nil a b : same_errs a b -> (a = [] <-> b = []).
Proof.
  intros (l & L1 & L2). split; intros ->.
  - apply Permutation_nil in L1. subst. now inversion L2.
  - inversion L2; subst. now apply Permutation_nil, Permutation_sym.
Qed.

Section Order.
Variable sc : schema.
Variable orc : oracles.
Variable decls : list (string * pkgvar).
Variable uuidd : bool.
Variable rec : bool -> string -> msgval -> vres.
Variable hs : list callee.

Definition vres_same (a b : vres) : Prop :=
  match a, b with
  | VNil, VNil => True
  | VErr e, VErr g => same_err e g
  | VStuck, VStuck => True
  | _, _ => False
  end.

(** * A body without sets adds the same errors in every state *)
Fixpoint set_free (s : stmt) : bool :=
  match s with
  | SSkip | SFail _ | SEmbed _ _ _ | SBad => true
  | SSeq a b => set_free a && set_free b
  | SIf _ _ a b | SBind _ _ a b | STry _ _ _ a b => set_free a && set_free b
  | SLet _ _ a | SForSlice _ _ _ a | SForMap _ _ _ a => set_free a
  | SMakeSet _ _ | SUnique _ _ _ _ => false
  end.

(** Map loops have bodies without sets. *)
Fixpoint order_free (s : stmt) : bool :=
  match s with
  | SSkip | SFail _ | SEmbed _ _ _ | SBad => true
  | SSeq a b => order_free a && order_free b
  | SIf _ _ a b | SBind _ _ a b | STry _ _ _ a b => order_free a && order_free b
  | SLet _ _ a | SForSlice _ _ _ a | SMakeSet _ a | SUnique _ _ _ a => order_free a
  | SForMap _ _ _ a => set_free a && order_free a
  end.

Definition adds (f : state -> out) : Prop :=
  (forall st, f st = OStuck) \/ exists es, forall st, f st = ONext (mkSt (st_errs st ++ es) (st_sets st)).

Lemma adds_seq f g : adds f -> adds g -> adds (fun st => match f st with ONext st' => g st' | r => r end).
Proof.
  intros [F|[a F]] G.
  - left. intros st. now rewrite F.
  - destruct G as [G|[b G]].
    + left. intros st. now rewrite F.
    + right. exists (a ++ b). intros st. rewrite F, G. cbn. now rewrite app_assoc.
Qed.

Lemma adds_skip : adds (fun st => ONext st).
Proof. right. exists []. intros []. cbn. now rewrite app_nil_r. Qed.

Lemma adds_stuck : adds (fun _ => OStuck).
Proof. left. auto. Qed.

Lemma adds_fail en e : adds (fail true en e).
Proof. unfold fail. destruct (mk_err en e); [right|left]; eauto. Qed.

Lemma adds_loop {A} (f : A -> state -> out) l : (forall x, adds (f x)) -> adds (loop f l).
Proof.
  intros H. induction l as [|x t IH]; cbn [loop]; [apply adds_skip|]. exact (adds_seq (f x) (loop f t) (H x) IH).
Qed.

Section OneMsg.
Variable m : msgval.
Notation exT := (exec sc orc decls uuidd rec hs true m).

Lemma set_free_adds s : set_free s = true -> forall en, adds (exT en s).
Proof.
  induction s; cbn [set_free]; intros H en; try discriminate; try (apply andb_true_iff in H; destruct H as [Ha Hb]); cbn [exec].
  - apply adds_skip.
  - exact (adds_seq _ _ (IHs1 Ha en) (IHs2 Hb en)).
  - apply adds_fail.
  - destruct (eval_access m en a); [|apply adds_stuck]. destruct (eval_cond _ _ _ _ _ _) as [[]|]; auto using adds_stuck.
  - destruct (eval_access m en a); [|apply adds_stuck]. destruct (is_nil_val r) as [[]|]; auto using adds_stuck.
  - destruct (eval_access m en a); [|apply adds_stuck]. destruct (call _ _ _ _ _) as [[|]|]; auto using adds_stuck.
  - destruct (eval_rhs orc r); auto using adds_stuck.
  - destruct (eval_access m en a) as [[[]| | | | |]|]; try apply adds_stuck. apply adds_loop. auto.
  - destruct (eval_access m en a) as [[[]| | | | |]|]; try apply adds_stuck. apply adds_loop. auto.
  - destruct (eval_access m en a); [|apply adds_stuck]. destruct (embed_call _ _ _ _ _) as [[]|]; auto using adds_stuck, adds_skip, adds_fail.
  - apply adds_stuck.
Qed.
End OneMsg.

Definition out_perm (a b : out) : Prop :=
  match a, b with
  | ONext s, ONext t => Permutation (st_errs s) (st_errs t) /\ st_sets s = st_sets t
  | OStuck, OStuck => True
  | _, _ => False
  end.

Lemma out_perm_trans a b c : out_perm a b -> out_perm b c -> out_perm a c.
Proof.
  destruct a, b, c; cbn; try tauto. intros [H1 H2] [H3 H4]. split; [now transitivity (st_errs s0)|congruence].
Qed.

Lemma loop_perm_st {A} (f : A -> state -> out) l : (forall x, adds (f x)) -> forall st st',
  Permutation (st_errs st) (st_errs st') -> st_sets st = st_sets st' -> out_perm (loop f l st) (loop f l st').
Proof.
  intros H. induction l as [|x t IH]; intros st st' P E; cbn [loop]; [split; auto|].
  destruct (H x) as [S|[es S]]; rewrite !S; [exact I|]. apply IH; cbn; auto. now apply Permutation_app_tail.
Qed.

Lemma loop_perm {A} (f : A -> state -> out) l l' : (forall x, adds (f x)) -> Permutation l l' ->
  forall st, out_perm (loop f l st) (loop f l' st).
Proof.
  intros H P. induction P as [|x l l' P IH|x y l|l l1 l2 P1 IH1 P2 IH2]; intros st; cbn [loop].
  - split; auto.
  - destruct (H x) as [S|[es S]]; rewrite S; [exact I|]. apply IH.
  - destruct (H x) as [S|[es S]], (H y) as [T|[et T]]; rewrite ?S, ?T, ?S, ?T; try exact I.
    apply loop_perm_st; auto; cbn. rewrite <- !app_assoc. apply Permutation_app_head, Permutation_app_comm.
  - eapply out_perm_trans; eauto.
Qed.

(** * Two visits of the same message *)
Hypothesis rec_same : forall n x x', same_msg x x' -> vres_same (rec true n x) (rec true n x').
Hypothesis no_legacy : forall n d, find_msg sc n = Some d -> md_methods d <> MLegacy.

Inductive rsame : rval -> rval -> Prop :=
| rs_eq r : (forall e, r <> RErr e) -> rsame r r
| rs_v v v' : same v v' -> rsame (RV v) (RV v')
| rs_err e e' : same_err e e' -> rsame (RErr e) (RErr e').

Definition esame (en en' : env) : Prop :=
  Forall2 (fun p q => fst p = fst q /\ rsame (snd p) (snd q)) en en'.

Lemma esame_push x r r' en en' : rsame r r' -> esame en en' -> esame ((x, r) :: en) ((x, r') :: en').
Proof. intros. constructor; auto. Qed.

Lemma esame_assoc x en en' : esame en en' ->
  match assoc x en, assoc x en' with
  | Some r, Some r' => rsame r r' | None, None => True | _, _ => False end.
Proof.
  induction 1 as [|[k r] [k' r'] l l' [E H] _ IH]; cbn; auto. cbn in E. subst k'. destruct (String.eqb x k); auto.
Qed.

Lemma same_err_refl_plain p : same_err (GPlain p) (GPlain p). Proof. constructor. Qed.

Definition out_same (a b : out) : Prop :=
  match a, b with
  | ONext s, ONext t => same_errs (st_errs s) (st_errs t) /\ st_sets s = st_sets t
  | OStuck, OStuck => True
  | _, _ => False
  end.

Lemma out_perm_same a b c : out_perm a b -> out_same b c -> out_same a c.
Proof.
  destruct a, b, c; cbn; try tauto. intros [H1 H2] [H3 H4]. split; [eapply same_errs_perm; eauto|congruence].
Qed.

Definition st_same (s t : state) : Prop := same_errs (st_errs s) (st_errs t) /\ st_sets s = st_sets t.

Lemma loop_same {A} (f g : A -> state -> out) (R : A -> A -> Prop) l l' : Forall2 R l l' ->
  (forall x y s t, R x y -> st_same s t -> out_same (f x s) (g y t)) ->
  forall s t, st_same s t -> out_same (loop f l s) (loop g l' t).
Proof.
  intros F H. induction F as [|x y l l' Hxy _ IH]; intros s t S; cbn [loop]; [exact S|].
  specialize (H x y s t Hxy S). destruct (f x s), (g y t); cbn in H; try contradiction; auto.
Qed.

Lemma fail_same en en' e s t : esame en en' -> st_same s t -> out_same (fail true en e s) (fail true en' e t).
Proof.
  intros He [S1 S2].
  assert (K : match mk_err en e, mk_err en' e with
    | Some g, Some g' => same_err g g' | None, None => True | _, _ => False end).
  { unfold mk_err.
    assert (IX : match (match es_ix e with None => Some None | Some x => match assoc x en with
                     | Some (RIdx n) => Some (Some (IxN n)) | Some (RV v) => Some (Some (IxV v)) | _ => None end end),
                   (match es_ix e with None => Some None | Some x => match assoc x en' with
                     | Some (RIdx n) => Some (Some (IxN n)) | Some (RV v) => Some (Some (IxV v)) | _ => None end end) with
       | Some i, Some j => same_index i j | None, None => True | _, _ => False end).
    { destruct (es_ix e) as [x|]; [|constructor]. assert (A := esame_assoc x _ _ He).
      destruct (assoc x en), (assoc x en'); try contradiction; auto. destruct A as [r Hr|v v' H|g g' H].
      - destruct r; auto; repeat constructor.
      - constructor; auto.
      - exact I. }
    destruct (match es_ix e with None => _ | Some x => match assoc x en with _ => _ end end) as [i|],
             (match es_ix e with None => _ | Some x => match assoc x en' with _ => _ end end) as [j|]; try contradiction; auto.
    destruct (es_cause e).
    - assert (A := esame_assoc "err"%string _ _ He). destruct (assoc _ en), (assoc _ en'); try contradiction; auto.
      destruct A as [r Hr|v v' H|g g' H]; auto.
      + destruct r; auto. elim (Hr e0). reflexivity.
      + now constructor.
    - now constructor. }
  unfold fail. destruct (mk_err en e), (mk_err en' e); try contradiction; auto. split; auto. cbn.
  apply same_errs_app; auto. now apply same_errs_one.
Qed.

Lemma is_nil_same r r' : rsame r r' -> is_nil_val r = is_nil_val r'.
Proof. intros [r0 _|v v' H|]; auto. destruct H; auto. Qed.

Lemma len_same r r' : rsame r r' -> len_val r = len_val r'.
Proof.
  intros [r0 _|v v' H|]; auto. destruct H as [|m m' H|l l' H|l l1 l' P H]; auto; cbn.
  - now rewrite (Forall2_len _ _ _ H).
  - now rewrite (Permutation_length P), (Forall2_len _ _ _ H).
Qed.

Lemma text_same r r' : rsame r r' -> text_val r = text_val r'.
Proof. intros [r0 _|v v' H|]; auto. destruct H; auto. Qed.

Lemma in_set_same x b r r' : rsame r r' -> in_set decls x b r = in_set decls x b r'.
Proof. intros [r0 _|v v' H|]; auto. unfold in_set. destruct H; auto. Qed.

Lemma texp_same en en' t : esame en en' -> eval_texp en t = eval_texp en' t.
Proof.
  intros He. destruct t; cbn.
  - assert (A := esame_assoc x _ _ He). destruct (assoc x en), (assoc x en'); try contradiction; auto. destruct A; auto.
  - assert (A := esame_assoc x _ _ He). assert (B := esame_assoc d _ _ He).
    destruct (assoc x en), (assoc x en'); try contradiction; auto. destruct A as [r _| |]; auto. destruct r; auto.
    destruct (assoc d en), (assoc d en'); try contradiction; auto. destruct B; auto.
Qed.

Lemma cond_same en en' r r' c : esame en en' -> rsame r r' ->
  eval_cond sc orc decls en r c = eval_cond sc orc decls en' r' c.
Proof.
  intros He H. induction c; cbn [eval_cond];
    rewrite ?(len_same _ _ H), ?(text_same _ _ H), ?(in_set_same _ _ _ _ H), ?(is_nil_same _ _ H), ?(texp_same _ _ _ He),
      ?IHc1, ?IHc2; auto.
  all: try (destruct H as [r0 _|v v' H|]; auto; destruct H; reflexivity).
  - assert (A := esame_assoc x _ _ He). destruct H as [r0 _|v v' H|]; auto. destruct r0; auto.
    destruct (assoc x en), (assoc x en'); try contradiction; auto. destruct A as [r0 _|v v' H|]; auto.
Qed.

Lemma call_same f r r' : rsame r r' -> call orc uuidd hs f r = call orc uuidd hs f r'.
Proof. intros [r0 _|v v' H|]; auto; destruct f; auto; destruct H; auto. Qed.

Lemma key_same conv r r' : rsame r r' -> unique_key conv r = unique_key conv r'.
Proof. intros [r0 _|v v' H|]; auto. destruct H; auto. Qed.

Lemma rsame_refl r : (forall e, r = RErr e -> exists p, e = GPlain p) -> rsame r r.
Proof.
  intros H. destruct r; try (apply rs_eq; discriminate). destruct (H e eq_refl) as [p ->]. apply rs_err. constructor.
Qed.

Variable m m' : msgval.
Hypothesis mm : same_msg m m'.
Notation exT := (exec sc orc decls uuidd rec hs true m).
Notation exT' := (exec sc orc decls uuidd rec hs true m').

Lemma field_same f : match get_field m f, get_field m' f with
  | Some v, Some v' => same v v' | None, None => True | _, _ => False end.
Proof.
  generalize mm. clear mm. intros [fs fs' os os' H1 H2]. unfold get_field. cbn [mv_fields mv_oneofs].
  assert (A : match assoc f fs, assoc f fs' with Some v, Some v' => same v v' | None, None => True | _, _ => False end).
  { clear H2. induction H1 as [|x y l l' H _ IH]; cbn; auto. destruct H as [g v v' H]. destruct (String.eqb f g); auto. }
  destruct (assoc f fs), (assoc f fs'); try contradiction; auto. clear A H1.
  induction H2 as [|x y l l' H _ IH]; cbn; auto. destruct H as [o|o g v v' H]; cbn; auto.
  destruct (String.eqb f g); auto.
Qed.

Lemma access_same en en' a : esame en en' ->
  match eval_access m en a, eval_access m' en' a with
  | Some r, Some r' => rsame r r' | None, None => True | _, _ => False end.
Proof.
  intros He. destruct a; cbn [eval_access].
  - assert (A := field_same f). destruct (get_field m f), (get_field m' f); try contradiction; cbn; auto. now constructor.
  - now apply esame_assoc.
  - assert (A := esame_assoc x _ _ He). destruct (assoc x en), (assoc x en'); try contradiction; auto.
    destruct A as [r _|v v' H|]; auto.
    + destruct r as [[| | | | | |[]| | | | |]| | | | |]; auto. apply rs_v. constructor.
    + destruct H as [v| | |]; auto. destruct v as [| | | | | |[]| | | | |]; auto. apply rs_v. constructor.
  - assert (A := esame_assoc x _ _ He). destruct (assoc x en), (assoc x en'); try contradiction; auto.
    destruct A as [r _|v v' H|]; auto.
    + destruct r as [[| | | | | | |[]| | | |]| | | | |]; auto. apply rs_v. constructor.
    + destruct H as [v| | |]; auto. destruct v as [| | | | | | |[]| | | |]; auto. apply rs_v. constructor.
Qed.

Lemma embed_same t r r' : rsame r r' ->
  match embed_call sc rec true t r, embed_call sc rec true t r' with
  | Some a, Some b => vres_same a b | None, None => True | _, _ => False end.
Proof.
  assert (REFL : forall x, same_msg x x).
  { intros [fs os]. constructor; [induction fs as [|[]]|induction os as [|[? [[]|]]]]; constructor; auto; constructor; constructor. }
  intros H. unfold embed_call.
  assert (NL : methods_of sc t <> Some MLegacy).
  { destruct t; try discriminate. cbn. destruct (find_msg sc m0) eqn:E; [|discriminate]. cbn. intros [= K]. eapply no_legacy; eauto. }
  destruct (methods_of sc t) as [ms|]; [|auto].
  destruct H as [r _|v v' H|]; [| |destruct ms; auto].
  - destruct ms, r as [[| | | | |[]| | | | | |]| | | | |], t; cbn; auto; congruence.
  - destruct H as [v|x x' H|l l' H|l l1 l' P H].
    + destruct ms, v as [| | | | |[]| | | | | |], t; cbn; auto; congruence.
    + destruct ms, t; cbn; auto; congruence.
    + destruct ms; auto.
    + destruct ms; auto.
Qed.

Lemma enum_same l l' : Forall2 same l l' -> forall i,
  Forall2 (fun p q : nat * value => fst p = fst q /\ same (snd p) (snd q)) (enum_from i l) (enum_from i l').
Proof. induction 1; intros i; cbn; constructor; auto. Qed.

Lemma forall2_same_refl l : Forall2 same l l.
Proof. induction l; constructor; auto; constructor. Qed.
Lemma forall2_entry_refl l : Forall2 same_entry l l.
Proof. induction l as [|[]]; constructor; auto; constructor; constructor. Qed.

Lemma exec_same s : order_free s = true -> forall en en' st st', esame en en' -> st_same st st' ->
  out_same (exT en s st) (exT' en' s st').
Proof.
  induction s; cbn [order_free]; intros OF en en' st st' He Hs; try discriminate;
    try (apply andb_true_iff in OF; destruct OF as [Ha Hb]); cbn [exec].
  - exact Hs.
  - specialize (IHs1 Ha en en' st st' He Hs).
    destruct (exT en s1 st), (exT' en' s1 st'); cbn in IHs1; try contradiction; auto.
  - now apply fail_same.
  - assert (A := access_same _ _ a He). destruct (eval_access m en a), (eval_access m' en' a); try contradiction; auto.
    rewrite (cond_same _ _ _ _ c He A). destruct (eval_cond _ _ _ _ _ _) as [[]|]; auto. exact I.
  - assert (A := access_same _ _ a He). destruct (eval_access m en a), (eval_access m' en' a); try contradiction; auto.
    rewrite (is_nil_same _ _ A). destruct (is_nil_val _) as [[]|]; auto using esame_push. exact I.
  - assert (A := access_same _ _ a He). destruct (eval_access m en a), (eval_access m' en' a); try contradiction; auto.
    rewrite (call_same f _ _ A). destruct (call _ _ _ _ _) as [[e|w]|] eqn:Ec; [| |exact I]; apply call_plain2 in Ec.
    + apply IHs1; auto. apply esame_push; auto. destruct Ec as [p ->]. apply rs_err. constructor.
    + apply IHs2; auto. apply esame_push; auto. apply rs_eq. exact Ec.
  - destruct (eval_rhs orc r) eqn:Er; [|exact I]. apply IHs; auto. apply esame_push; auto. apply rs_eq.
    intros e ->. destruct r as [[]| |]; discriminate.
  - destruct Hs as [H1 H2]. apply IHs; auto. split; auto. cbn. now rewrite H2.
  - assert (A := access_same _ _ a He). destruct (eval_access m en a), (eval_access m' en' a); try contradiction; auto.
    rewrite (key_same conv _ _ A). destruct (unique_key _ _); [|exact I]. destruct Hs as [H1 H2]. rewrite <- H2.
    destruct (assoc x (st_sets st)); [|exact I]. destruct (existsb _ _); [apply IHs; auto; split; auto|]. split; auto.
  - assert (A := access_same _ _ a He). destruct (eval_access m en a) as [r|], (eval_access m' en' a) as [r'|]; try contradiction; auto.
    assert (K : forall l l', Forall2 same l l' -> out_same
       (loop (fun p st0 => exT ((i, RIdx (fst p)) :: (x, RV (snd p)) :: en) s st0) (enum_from 0 l) st)
       (loop (fun p st0 => exT' ((i, RIdx (fst p)) :: (x, RV (snd p)) :: en') s st0) (enum_from 0 l') st')).
    { intros l l' F. eapply loop_same; [apply enum_same; exact F| |exact Hs].
      intros p q s0 t0 [E1 E2] S. apply IHs; auto. rewrite E1. apply esame_push; [apply rs_eq; discriminate|].
      apply esame_push; auto. now constructor. }
    destruct A as [r _|v v' H|]; [| |exact I].
    + destruct r as [[]| | | | |]; try exact I. apply K, forall2_same_refl.
    + destruct H as [v|x0 x0' H|l l' H|l l1 l' P H]; try exact I; [destruct v; try exact I; apply K, forall2_same_refl|].
      apply K, H.
  - assert (A := access_same _ _ a He). destruct (eval_access m en a) as [r|], (eval_access m' en' a) as [r'|]; try contradiction; auto.
    assert (K : forall l l1 l', Permutation l l1 -> Forall2 same_entry l1 l' -> out_same
       (loop (fun p st0 => exT ((k, RV (fst p)) :: (v, RV (snd p)) :: en) s st0) l st)
       (loop (fun p st0 => exT' ((k, RV (fst p)) :: (v, RV (snd p)) :: en') s st0) l' st')).
    { intros l l1 l' P F. eapply out_perm_same.
      - apply loop_perm; [|exact P]. intros p. apply set_free_adds, Ha.
      - eapply loop_same; [exact F| |exact Hs]. intros p q s0 t0 E S. destruct E as [kk w w' E]. cbn. apply IHs; auto.
        apply esame_push; [apply rs_v; constructor|]. apply esame_push; auto. now constructor. }
    destruct A as [r _|w w' H|]; [| |exact I].
    + destruct r as [[]| | | | |]; try exact I. eapply K; [apply Permutation_refl|apply forall2_entry_refl].
    + destruct H as [w|x0 x0' H|l l' H|l l1 l' P H]; try exact I; [destruct w; try exact I; eapply K; [apply Permutation_refl|apply forall2_entry_refl]|].
      eapply K; eauto.
  - assert (A := access_same _ _ a He). destruct (eval_access m en a) as [r|], (eval_access m' en' a) as [r'|]; try contradiction; auto.
    assert (E := embed_same t _ _ A). destruct (embed_call _ _ _ _ r) as [x|], (embed_call _ _ _ _ r') as [x'|]; try contradiction; auto.
    destruct x, x'; try contradiction; auto. apply fail_same; auto. apply esame_push; auto. now constructor.
  - exact I.
Qed.

Lemma oneof_same oc st st' : forallb order_free (map snd (oc_cases oc)) = true -> st_same st st' ->
  out_same (exec_oneof sc orc decls uuidd rec hs true m oc st) (exec_oneof sc orc decls uuidd rec hs true m' oc st').
Proof.
  intros OF Hs. unfold exec_oneof.
  assert (A : match assoc (oc_name oc) (mv_oneofs m), assoc (oc_name oc) (mv_oneofs m') with
     | Some (Some (f, _)), Some (Some (g, _)) => f = g | Some None, Some None => True | None, None => True | _, _ => False end).
  { generalize mm. clear. intros [fs fs' os os' _ H]. cbn [mv_oneofs]. induction H as [|x y l l' H _ IH]; cbn; auto.
    destruct H as [o|o f v v' H]; destruct (String.eqb _ o); auto. }
  destruct (assoc _ (mv_oneofs m)) as [[[f v]|]|], (assoc _ (mv_oneofs m')) as [[[g w]|]|]; try contradiction; try exact I.
  - subst g. destruct (assoc f (oc_cases oc)) eqn:E; [|exact I]. apply exec_same; auto; [|constructor].
    rewrite forallb_forall in OF. apply OF. clear - E. induction (oc_cases oc) as [|[k s'] t IH]; [discriminate|]. cbn in *.
    destruct (String.eqb f k); [injection E as ->|]; auto.
  - destruct (oc_default oc); [|exact Hs]. apply fail_same; auto. constructor.
Qed.

Lemma exec_msg_same mc : order_free (mc_body mc) = true ->
  Forall (fun oc => forallb order_free (map snd (oc_cases oc)) = true) (mc_oneofs mc) ->
  vres_same (exec_msg sc orc decls uuidd rec hs true m mc) (exec_msg sc orc decls uuidd rec hs true m' mc).
Proof.
  intros OF OO. unfold exec_msg. destruct (mc_disabled mc); [exact I|].
  assert (H := exec_same (mc_body mc) OF [] [] (mkSt [] []) (mkSt [] []) (Forall2_nil _) (conj same_errs_nil eq_refl)).
  destruct (exT [] (mc_body mc) _) as [s| |], (exT' [] (mc_body mc) _) as [t| |]; cbn in H; try contradiction; auto.
  assert (K : out_same (loop (exec_oneof sc orc decls uuidd rec hs true m) (mc_oneofs mc) s)
                       (loop (exec_oneof sc orc decls uuidd rec hs true m') (mc_oneofs mc) t)).
  { eapply (loop_same _ _ (fun a b => a = b /\ forallb order_free (map snd (oc_cases a)) = true)); [| |exact H].
    - clear - OO. induction OO; constructor; auto.
    - intros x y s0 t0 [<- E] S. now apply oneof_same. }
  destruct (loop _ _ s) as [s2| |], (loop _ _ t) as [t2| |]; cbn in K; try contradiction; auto.
  destruct K as [K _]. assert (N := same_errs_is_nil _ _ K). destruct (st_errs s2) as [|a l], (st_errs t2) as [|b l'].
  - exact I.
  - destruct N as [N _]. specialize (N eq_refl). discriminate N.
  - destruct N as [_ N]. specialize (N eq_refl). discriminate N.
  - destruct K as (l1 & P & F). now apply se_multi with (l1 := l1).
Qed.
End Order.

(** * The templates *)
Lemma set_free_order s : set_free s = true -> order_free s = true.
Proof.
  induction s; cbn; auto; rewrite ?andb_true_iff; intros; try discriminate; intuition.
Qed.

Lemma sf_chk c f r : set_free (chk c f r) = true. Proof. reflexivity. Qed.
Lemma sf_opt {A} (o : option A) f : (forall a, set_free (f a) = true) -> set_free (opt o f) = true.
Proof. destruct o; cbn; auto. Qed.
Lemma sf_let {A} (o : option A) x f s : set_free s = true -> set_free (let_opt o x f s) = true.
Proof. destruct o; cbn; auto. Qed.
Lemma sf_if (b : bool) s t : set_free s = true -> set_free t = true -> set_free (if b then s else t) = true.
Proof. destruct b; auto. Qed.
Lemma sf_guarded b a f s : set_free s = true -> set_free (guarded b a f s) = true.
Proof. destruct b; cbn; auto. intros ->. reflexivity. Qed.
Lemma sf_in c b x y p q : set_free (in_tpl c b x y p q) = true.
Proof. destruct x, y; reflexivity. Qed.
Lemma sf_len c k u a b d : set_free (len_tpl c k u a b d) = true.
Proof. destruct a, b, d; try reflexivity; cbn; apply sf_if; reflexivity. Qed.
Lemma sf_seq l : forallb set_free l = true -> set_free (seq l) = true.
Proof.
  induction l as [|s t IH]; auto. cbn [forallb]. rewrite andb_true_iff. intros [A B]. cbn. destruct t; auto.
  cbn [set_free]. rewrite A. now apply IH.
Qed.
Lemma sf_range T g k p c a b d e s : set_free s = true -> set_free (range_tpl T g k p c a b d e s) = true.
Proof. intros H. destruct a, b, d, e; cbn; auto; apply sf_if; reflexivity. Qed.
Lemma sf_req c r : set_free (required_tpl c r) = true.
Proof. unfold required_tpl. now apply sf_if. Qed.

Lemma sf_leaf c r : set_free (leaf_tpl c r) = true.
Proof.
  destruct r; cbn [leaf_tpl]; auto.
  - apply sf_guarded, sf_seq. cbn [forallb]. rewrite sf_in. unfold const_num. rewrite sf_opt by reflexivity.
    assert (H : set_free (ltgt_num c r) = true); [|now rewrite H].
    unfold ltgt_num. destruct (n_lt r), (n_lte r), (n_gt r), (n_gte r); try reflexivity; apply sf_if; reflexivity.
  - now apply sf_opt.
  - apply sf_guarded, sf_seq. cbn [forallb]. rewrite sf_in, !sf_len, !sf_opt by reflexivity. cbn [andb].
    destruct (s_wk r) as [[[]|[]|[]|[]|[]|[]|[]|[]|[]|]|]; reflexivity.
  - apply sf_guarded, sf_seq. cbn [forallb]. rewrite sf_in, !sf_len, !sf_opt by reflexivity. cbn [andb].
    destruct (b_wk r) as [[[]|[]|[]]|]; reflexivity.
  - apply sf_seq. cbn [forallb]. rewrite sf_in, !sf_opt by reflexivity. destruct (getb _); reflexivity.
  - unfold any_tpl. cbn [set_free]. rewrite sf_req. destruct (a_in r), (a_not_in r); reflexivity.
  - unfold duration_tpl. cbn [set_free]. rewrite sf_req. apply sf_if; auto. cbn [set_free]. rewrite andb_true_r.
    unfold durationcmp_tpl. cbn [set_free andb]. rewrite sf_opt by reflexivity. cbn [andb]. do 4 apply sf_let.
    cbn [set_free]. rewrite sf_in, sf_range; reflexivity.
  - unfold timestamp_tpl. cbn [set_free]. rewrite sf_req. apply sf_if; auto. cbn [set_free]. rewrite andb_true_r.
    unfold timestampcmp_tpl. cbn [set_free andb]. rewrite sf_opt by reflexivity. cbn [andb].
    assert (H : forall b s, set_free s = true -> set_free (if b : bool then SLet "now" RhsNow s else s) = true) by (intros []; auto).
    apply H. do 5 apply sf_let. apply sf_range. destruct (t_lt_now r), (t_gt_now r), (t_within r); reflexivity.
Qed.

Lemma sf_message c t mr : set_free (message_tpl c t mr) = true.
Proof. unfold message_tpl. cbn [set_free]. rewrite sf_req. now apply sf_if. Qed.

Lemma sf_wrapper c mr r : set_free (wrapper_tpl c mr r) = true.
Proof. unfold wrapper_tpl. destruct (cx_ftype c); auto. cbn [set_free]. rewrite sf_leaf. now apply sf_if. Qed.

Lemma sf_elem c k e fr : set_free (elem_tpl c k e fr) = true.
Proof.
  unfold elem_tpl. destruct fr as [[mr [r|]]|]; apply sf_if; auto using sf_wrapper, sf_leaf, sf_message.
Qed.

Lemma sf_count c a b o p : set_free (count_tpl c a b o p) = true.
Proof. unfold count_tpl. repeat apply sf_if; auto; destruct b; reflexivity. Qed.

Lemma of_field mn f : order_free (field_tpl mn f) = true.
Proof.
  assert (G : forall b a c s, order_free s = true -> order_free (guarded b a c s) = true) by (intros []; cbn; auto; intros ? ? ? ->; reflexivity).
  assert (R : forall c e r, order_free (rep_tpl c e r) = true).
  { intros c e r. unfold rep_tpl. apply G. cbn [order_free]. rewrite (set_free_order _ (sf_count _ _ _ _ _)). cbn [andb].
    assert (L : order_free (if getb (r_unique r) || negb (elem_none e (r_items r))
      then SForSlice "idx" "item" (cx_acc c) (SSeq (if getb (r_unique r) then
          SUnique (lookup c "Unique") (is_bytes_ty e) (AVar "item") (SFail (err_idx c "idx" [PStr "repeated value must contain unique items"])) else SSkip)
          (elem_tpl (mkCtx (cx_msg c) (cx_field c) (cx_ftype c) (AVar "item") (Some "idx"%string)) false e (r_items r))) else SSkip) = true).
    { destruct (_ || _); auto. cbn [order_free]. rewrite (set_free_order _ (sf_elem _ _ _ _)). destruct (getb _); reflexivity. }
    destruct (getb _); exact L. }
  assert (M : forall c k v r, order_free (map_tpl c k v r) = true).
  { intros c k v r. unfold map_tpl. apply G. cbn [order_free]. rewrite (set_free_order _ (sf_count _ _ _ _ _)). cbn [andb].
    destruct (_ || _); auto. cbn [order_free set_free]. rewrite !sf_elem, !(set_free_order _ (sf_elem _ _ _ _)). destruct (getb _); reflexivity. }
  assert (LF : forall c r, order_free (leaf_tpl c r) = true) by (intros; apply set_free_order, sf_leaf).
  unfold field_tpl. destruct (f_rules f) as [mr [r|]].
  - destruct r; try (destruct (f_type f); auto; try apply LF; destruct (_ && _); auto; apply set_free_order, sf_wrapper).
  - destruct (f_type f) as [e|e|k v]; auto.
    + destruct (is_embed e); auto. apply set_free_order, sf_message.
    + destruct (is_embed v); auto.
Qed.

Lemma of_seq l : forallb order_free l = true -> order_free (seq l) = true.
Proof.
  induction l as [|s t IH]; auto. cbn [forallb]. rewrite andb_true_iff. intros [A B]. cbn. destruct t; auto.
  cbn [order_free]. rewrite A. now apply IH.
Qed.

Lemma of_map {A} (f : A -> stmt) l : (forall x, order_free (f x) = true) -> forallb order_free (map f l) = true.
Proof. intros H. induction l; cbn; auto. now rewrite H. Qed.

Lemma of_msg d : order_free (mc_body (msg_tpl d)) = true /\
  Forall (fun oc => forallb order_free (map snd (oc_cases oc)) = true) (mc_oneofs (msg_tpl d)).
Proof.
  cbn [msg_tpl mc_body mc_oneofs]. destruct (md_disabled d); [split; [reflexivity|constructor]|]. split.
  - apply of_seq, of_map, of_field.
  - apply Forall_forall. intros oc H. apply in_map_iff in H. destruct H as (o & <- & _). cbn [oneof_tpl oc_cases].
    rewrite map_map. cbn. apply of_map. intros f. apply of_field.
Qed.

(** * Whole messages *)
Lemma validate_f_same sc orc k : (forall n d, find_msg sc n = Some d -> md_methods d <> MLegacy) ->
  forall n x x', same_msg x x' -> vres_same (validate_f sc orc k true n x) (validate_f sc orc k true n x').
Proof.
  intros NL. induction k as [|k IH]; intros n x x' S; cbn [validate_f]; [exact I|].
  unfold code_of. destruct (find_msg sc n); [|exact I]. destruct (has_methods m); [|exact I].
  destruct (of_msg m) as [A B]. apply exec_msg_same; auto.
Qed.

Lemma validate_same sc orc n x x' : (forall n d, find_msg sc n = Some d -> md_methods d <> MLegacy) ->
  same_msg x x' -> vres_same (validate sc orc true n x) (validate sc orc true n x').
Proof. intros NL S. unfold validate. rewrite (same_mheight _ _ S). now apply validate_f_same. Qed.
