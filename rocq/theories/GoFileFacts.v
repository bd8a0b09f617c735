(** What a generated file names and imports. *)
From Coq Require Import Lia.
From Verif Require Import Base Num Rules Types Time Iface Checker GoIR GoGen Spec Wt ExecField ExecMsg Main GoCompile GoFile GoFileSpec.

Section Walk.
Variable elem : option string.
Notation refs := (stmt_enums elem).

Lemma refs_seq env l : refs env (seq l) = flat_map (refs env) l.
Proof.
  induction l as [|s [|t l] IH]; [reflexivity|cbn; now rewrite app_nil_r|]. change (seq (s :: t :: l)) with (SSeq s (seq (t :: l))).
  cbn [stmt_enums]. rewrite IH. reflexivity.
Qed.
Lemma refs_chk env c k p : cond_enums k = [] -> refs env (chk c k p) = [].
Proof. intros H. cbn. now rewrite H. Qed.
Lemma refs_opt {A} env (o : option A) f : (forall a, refs env (f a) = []) -> refs env (opt o f) = [].
Proof. intros H. destruct o; cbn; auto. Qed.
Lemma refs_guarded env b a k s : cond_enums k = [] -> refs env (guarded b a k s) = refs env s.
Proof. intros H. destruct b; cbn; auto. rewrite H, app_nil_r. reflexivity. Qed.
Lemma refs_in env c v a b p q : refs env (in_tpl c v a b p q) = [].
Proof. unfold in_tpl. destruct a; [reflexivity|]. destruct b; reflexivity. Qed.
Lemma refs_let {A} env (o : option A) x f s : (forall env, refs env s = []) -> refs env (let_opt o x f s) = [].
Proof. intros H. destruct o; cbn; auto. Qed.

Ltac dig := repeat first [reflexivity | match goal with |- context[match ?o with _ => _ end] => destruct o end | progress cbn].

Lemma refs_len env c k u a b d : (forall o n, cond_enums (k o n) = []) -> refs env (len_tpl c k u a b d) = [].
Proof.
  intros H. unfold len_tpl. destruct a; [now apply refs_chk|]. destruct b, d; auto; try now apply refs_chk.
  destruct (N.eqb n n0); apply refs_chk; auto. cbn. now rewrite !H.
Qed.
Lemma refs_count env c a b x y : refs env (count_tpl c a b x y) = [].
Proof. unfold count_tpl. dig. Qed.
Lemma refs_range {T} env gt k pr c a b d e o : (forall o x, cond_enums (k o x) = []) -> refs env o = [] ->
  refs env (range_tpl T gt k pr c a b d e o) = [].
Proof.
  intros H Ho. unfold range_tpl.
  repeat match goal with |- context[match ?o with _ => _ end] => destruct o end; auto; apply refs_chk; cbn; now rewrite ?H.
Qed.

Lemma refs_leaf env c r : refs env (leaf_tpl c r) =
  match r with REnum r => if getb (e_defined_only r) then [(env, enum_name (cx_ftype c))] else [] | _ => [] end.
Proof.
  destruct r as [k r|b|r|r|r|r|r|r|r|r]; cbn [leaf_tpl]; try reflexivity.
  - unfold num_tpl. rewrite refs_guarded, refs_seq by reflexivity. cbn [flat_map]. rewrite refs_in. unfold const_num. rewrite refs_opt by reflexivity.
    unfold ltgt_num. cbn [app]. rewrite app_nil_r. dig.
  - unfold bool_tpl. now rewrite refs_opt.
  - unfold str_tpl. rewrite refs_guarded, refs_seq by reflexivity. cbn [flat_map]. rewrite refs_in, !refs_opt, !refs_len by reflexivity.
    cbn [app]. rewrite app_nil_r. unfold str_wk_tpl. dig.
  - unfold byt_tpl. rewrite refs_guarded, refs_seq by reflexivity. cbn [flat_map]. rewrite refs_in, !refs_opt, !refs_len by reflexivity.
    cbn [app]. rewrite app_nil_r. dig.
  - unfold enum_tpl. rewrite refs_seq. cbn [flat_map]. rewrite refs_in, refs_opt by reflexivity. cbn [app]. rewrite app_nil_r. dig.
  - unfold any_tpl. cbn [stmt_enums]. unfold required_tpl. dig.
  - unfold duration_tpl. cbn [stmt_enums]. replace (refs env (required_tpl c (d_required r))) with (@nil (list string * string)) by (unfold required_tpl; dig).
    cbn [app]. destruct (_ || _); [|reflexivity]. cbn [stmt_enums]. rewrite app_nil_r. cbn [app]. unfold durationcmp_tpl. cbn [stmt_enums].
    rewrite refs_opt by reflexivity. cbn [app]. apply refs_let. intros e1. apply refs_let. intros e2. apply refs_let. intros e3. apply refs_let. intros e4.
    cbn [stmt_enums]. rewrite refs_in, refs_range by reflexivity. reflexivity.
  - unfold timestamp_tpl. cbn [stmt_enums]. replace (refs env (required_tpl c (t_required r))) with (@nil (list string * string)) by (unfold required_tpl; dig).
    cbn [app]. destruct (_ || _); [|reflexivity]. cbn [stmt_enums]. rewrite app_nil_r. cbn [app]. unfold timestampcmp_tpl. cbn [stmt_enums].
    rewrite refs_opt by reflexivity. cbn [app]. cbv beta.
    assert (H : forall e', refs e' (let_opt (t_lt r) "lt" (fun t => RhsTs (instant t))
      (let_opt (t_lte r) "lte" (fun t => RhsTs (instant t)) (let_opt (t_gt r) "gt" (fun t => RhsTs (instant t)) (let_opt (t_gte r) "gte" (fun t => RhsTs (instant t))
      (let_opt (t_within r) "within" (fun d => RhsDur (dur_lit d))
      (range_tpl sn ts_gt (fun op x => CSub op (TLocal x)) PTs (with_acc c (AVar "ts")) (t_lt r) (t_lte r) (t_gt r) (t_gte r)
     (match t_lt_now r, t_gt_now r, t_within r with
      | Some _, _, Some w => chk (with_acc c (AVar "ts")) (COr (CSub OGe (TLocal "now")) (CSub OLt (TAdd "now" true "within"))) [PStr "value must be less than now within "; PDur w]
      | Some _, _, None => chk (with_acc c (AVar "ts")) (CSub OGe (TLocal "now")) [PStr "value must be less than now"]
      | None, Some _, Some w => chk (with_acc c (AVar "ts")) (COr (CSub OLe (TLocal "now")) (CSub OGt (TAdd "now" false "within"))) [PStr "value must be greater than now within "; PDur w]
      | None, Some _, None => chk (with_acc c (AVar "ts")) (CSub OLe (TLocal "now")) [PStr "value must be greater than now"]
      | None, None, Some w => chk (with_acc c (AVar "ts")) (COr (CSub OGe (TAdd "now" false "within")) (CSub OLe (TAdd "now" true "within"))) [PStr "value must be within "; PDur w; PStr " of now"]
      | None, None, None => SSkip
      end))))))) = []).
    { intros e'. do 5 (apply refs_let; intros ?). apply refs_range; [reflexivity|]. destruct (t_lt_now r), (t_gt_now r), (t_within r); reflexivity. }
    destruct (_ || _); [cbn [stmt_enums]|]; apply H.
Qed.

Lemma refs_wrapper env c mr r : is_wrappable r = true -> refs env (wrapper_tpl c mr r) = [].
Proof.
  intros W. unfold wrapper_tpl. destruct (cx_ftype c); auto. cbn [stmt_enums]. rewrite refs_leaf.
  destruct r; try discriminate; cbn [app]; destruct (match mr with Some m => getb (m_required m) | None => false end); reflexivity.
Qed.
Lemma refs_message env c t mr : refs env (message_tpl c t mr) = [].
Proof. unfold message_tpl, required_tpl. dig. Qed.
Lemma refs_elem env c b e fr : refs env (elem_tpl c b e fr) =
  match fr with Some (FR _ (Some (REnum r))) => if getb (e_defined_only r) then [(env, enum_name (cx_ftype c))] else [] | _ => [] end.
Proof.
  unfold elem_tpl. destruct fr as [[mr [r|]]|].
  - destruct (is_wrappable r && is_embed e && negb b) eqn:W; [|apply refs_leaf].
    apply andb_true_iff in W. destruct W as [W _]. apply andb_true_iff in W. destruct W as [W _]. rewrite refs_wrapper by exact W. destruct r; try reflexivity. discriminate.
  - destruct (is_embed e); [apply refs_message|reflexivity].
  - destruct (is_embed e); [apply refs_message|reflexivity].
Qed.
Definition defined (fr : option field_rules) : bool :=
  match fr with Some (FR _ (Some (REnum r))) => getb (e_defined_only r) | _ => false end.
Lemma refs_rep env c e r : refs env (rep_tpl c e r) =
  (if getb (r_unique r) then match elem with Some x => [(env, x)] | None => [] end else []) ++
  (if defined (r_items r) then [("idx" :: "item" :: if getb (r_unique r) then lookup c "Unique" :: env else env, enum_name (cx_ftype c))] else [])%string.
Proof.
  unfold rep_tpl. rewrite refs_guarded by reflexivity. cbn [stmt_enums]. rewrite refs_count. cbn [app]. unfold defined.
  destruct (getb (r_unique r)); cbn [orb stmt_enums].
  - rewrite refs_elem. destruct (r_items r) as [[mr [[]|]]|]; cbn [app cx_ftype]; try reflexivity.
  - destruct (elem_none e (r_items r)) eqn:N; cbn [negb].
    + unfold elem_none in N. destruct (r_items r) as [[mr [[]|]]|]; try discriminate; reflexivity.
    + cbn [stmt_enums app]. rewrite refs_elem. destruct (r_items r) as [[mr [[]|]]|]; reflexivity.
Qed.
Lemma refs_map env c k v r : refs env (map_tpl c k v r) =
  (if defined (p_keys r) then [("key" :: "val" :: env, enum_name (cx_ftype c))%string] else []) ++
  (if defined (p_values r) then [("key" :: "val" :: env, enum_name (cx_ftype c))%string] else []).
Proof.
  unfold map_tpl. rewrite refs_guarded by reflexivity. cbn [stmt_enums]. rewrite refs_count. cbn [app]. unfold defined.
  destruct (getb (p_no_sparse r)); cbn [orb].
  - cbn [stmt_enums app cond_enums map]. rewrite !refs_elem. cbn [cx_ftype]. destruct (p_keys r) as [[mr [[]|]]|], (p_values r) as [[mr' [[]|]]|]; reflexivity.
  - destruct (negb (elem_none v (p_values r)) || negb (elem_none k (p_keys r))) eqn:N; cbn [stmt_enums app].
    + rewrite !refs_elem. cbn [cx_ftype]. destruct (p_keys r) as [[mr [[]|]]|], (p_values r) as [[mr' [[]|]]|]; reflexivity.
    + apply orb_false_iff in N. destruct N as [N1 N2]. apply negb_false_iff in N1, N2. unfold elem_none in N1, N2.
      destruct (p_keys r) as [[mr [[]|]]|], (p_values r) as [[mr' [[]|]]|]; try discriminate; reflexivity.
Qed.
End Walk.

(** * Fields *)

(** Rules for enums are at enums. *)
Lemma elem_at re_ok sc e fr fr' : check_fr re_ok sc (CElem e) fr = Some fr' -> enum_at (FOne e) (Some fr').
Proof.
  intros C mr r [= ->]. destruct fr as [m [t|]]; cbn [check_fr] in C; [|discriminate].
  destruct t; unfold guard in C;
    repeat match type of C with
    | (if ?b then _ else _) = _ => destruct b eqn:?; try discriminate C
    | match ?o with _ => _ end = _ => destruct o eqn:?; try discriminate C
    end; try discriminate C.
  destruct e; cbn in Heqb; try discriminate; eauto.
Qed.
Lemma opt_at re_ok sc e o0 o : opt_checked re_ok sc e o0 o -> enum_at (FOne e) o.
Proof. unfold opt_checked. intros C mr r ->. apply elem_at in C. eapply C. reflexivity. Qed.
Lemma field_placed re_ok sc f0 f : check_field re_ok sc f0 = Some f -> ftype_ok sc (f_type f0) -> placed f.
Proof.
  unfold check_field, guard. destruct (check_message _ _); [|discriminate]. destruct (check_fr _ _ _ _) as [fr'|] eqn:C; [|discriminate].
  intros [= <-] W. destruct (f_rules f0) as [m [t|]].
  2:{ injection C as <-. constructor; cbn; try discriminate. }
  constructor; cbn [f_type f_rules].
  - intros mr r [= ->]. cbn [check_fr] in C. destruct t; unfold guard in C;
    repeat match type of C with
    | (if ?b then _ else _) = _ => destruct b eqn:?; try discriminate C
    | match ?o with _ => _ end = _ => destruct o eqn:?; try discriminate C
    end; try discriminate C. destruct (f_type f0) as [[]| |]; cbn in Heqb; try discriminate; eauto.
  - intros q E. assert (T : exists r0, t = RRepeated r0).
    { destruct t; cbn [check_fr] in C; unfold guard in C; eauto; repeat match type of C with
      | (if ?b then _ else _) = _ => destruct b eqn:?; try discriminate C
      | match ?o with _ => _ end = _ => destruct o eqn:?; try discriminate C
      end; injection C as <-; discriminate E. }
    destruct T as [r0 ->]. destruct (f_type f0) as [e|e|k v]; try discriminate C. apply check_rep in C.
    destruct C as (r & -> & _ & _ & _ & _ & C). cbn in E. injection E as <-. exists e. split; auto. eapply opt_at; eauto.
  - intros q E. assert (T : exists r0, t = RMap r0).
    { destruct t; cbn [check_fr] in C; unfold guard in C; eauto; repeat match type of C with
      | (if ?b then _ else _) = _ => destruct b eqn:?; try discriminate C
      | match ?o with _ => _ end = _ => destruct o eqn:?; try discriminate C
      end; injection C as <-; discriminate E. }
    destruct T as [r0 ->]. destruct (f_type f0) as [e|e|k v]; try discriminate C. apply check_map in C.
    destruct C as (r & -> & _ & _ & _ & _ & C1 & C2). cbn in E. injection E as <-. exists k, v. split; auto. split; [apply W|]. split; eapply opt_at; eauto.
Qed.

Lemma getb_true o : getb o = true <-> o = Some true.
Proof. destruct o as [[]|]; cbn; split; congruence. Qed.
Lemma defined_is fr : defined fr = true -> exists mr r, fr = Some (FR mr (Some (REnum r))) /\ e_defined_only r = Some true.
Proof. unfold defined. destruct fr as [[mr [[]|]]|]; try discriminate. intros H. apply getb_true in H. eauto. Qed.

(** The local names. *)
Definition local (x : string) : Prop := In x ["m"; "all"; "errors"; "idx"; "item"; "key"; "val"]%string \/ String.prefix "_" x = true.
Lemma usable_local q : usable q -> ~ local q.
Proof. intros (A & B & C & D) [L|L]; [|congruence]. cbn in L, A, C. intuition. Qed.
Lemma under_local x : local (String.append "_" x).
Proof. right. destruct x; reflexivity. Qed.
Ltac locals := repeat (apply Forall_cons; [first [apply under_local|left; cbn; tauto]|]); apply Forall_nil.

Lemma field_refs mn d f env e : placed f -> md_disabled d = false -> In (env, e) (field_enums mn f) -> needs_type d f e /\ Forall local env.
Proof.
  intros [P1 P2 P3] D H. unfold field_enums, field_tpl in H. destruct f as [fn t [mr [r|]]]; cbn [f_name f_type f_rules] in *.
  2:{ destruct t as [x|x|k v].
    - destruct (is_embed x); [rewrite refs_message in H|]; contradiction.
    - rewrite refs_rep in H. contradiction.
    - destruct (is_embed v); [rewrite refs_map in H|]; contradiction. }
  assert (Leaf : forall env0 c, cx_ftype c = t -> Forall local env0 -> (forall q, r <> RRepeated q) -> (forall q, r <> RMap q) ->
    In (env, e) (stmt_enums (item_enum t) env0 (leaf_tpl c r)) -> needs_type d (mkField fn t (FR mr (Some r))) e /\ Forall local env).
  { intros env0 c Ec L N1 N2 I. rewrite refs_leaf in I. destruct r; try contradiction. destruct (getb (e_defined_only r)) eqn:G; [|contradiction].
    destruct I as [[= <- E]|[]]. split; [|exact L]. destruct (P1 _ _ eq_refl) as (x & ->). rewrite Ec in E. cbn in E. subst x.
    apply getb_true in G. eapply by_defined_only; eauto. left. cbn. auto. }
  destruct r as [k r|b|r|r|r|r|r|r|r|r];
    try (destruct t as [x|x|k0 v0]; [destruct (is_wrappable _ && is_embed x) eqn:W;
           [apply andb_true_iff in W; destruct W as [W _]; rewrite refs_wrapper in H by exact W; contradiction|]|..];
         (eapply Leaf in H; [exact H|reflexivity|locals|intros ?; discriminate|intros ?; discriminate])).
  - destruct (P2 _ eq_refl) as (x & -> & A). rewrite refs_rep in H. cbn [cx_ftype] in H. apply in_app_or in H. destruct H as [H|H].
    + destruct (getb (r_unique r)) eqn:U; [|contradiction]. destruct x; try contradiction. destruct H as [[= <- <-]|[]].
      split; [|locals]. apply getb_true in U. eapply by_unique; cbn; eauto.
    + destruct (defined (r_items r)) eqn:G; [|contradiction]. apply defined_is in G. destruct G as (m' & er & E & G).
      destruct (A _ _ E) as (y & [= ->]). destruct H as [[= <- <-]|[]]. split.
      * eapply by_defined_only; eauto. right. left. cbn. eauto 6.
      * unfold lookup, lookup_name. destruct (getb (r_unique r)); locals.
  - destruct (P3 _ eq_refl) as (k0 & v0 & -> & K & A & B). rewrite refs_map in H. cbn [cx_ftype] in H. apply in_app_or in H. destruct H as [H|H].
    + destruct (defined (p_keys r)) eqn:G; [|contradiction]. apply defined_is in G. destruct G as (m' & er & E & G). destruct (A _ _ E) as (y & [= ->]). discriminate.
    + destruct (defined (p_values r)) eqn:G; [|contradiction]. apply defined_is in G. destruct G as (m' & er & E & G).
      destruct (B _ _ E) as (y & [= ->]). destruct H as [[= <- <-]|[]]. split; [|locals]. eapply by_defined_only; eauto. right. right. cbn. eauto 8.
Qed.

Lemma set_refs f e : placed f -> (In e (set_enums f) <->
  exists r, enum_rules_in f e r /\ (forall k v, f_type f <> FMap k v) /\ (e_in r <> [] \/ e_not_in r <> [])).
Proof.
  intros [P1 P2 P3]. unfold set_enums, enum_rules_in. destruct f as [fn t [mr [r|]]]; cbn [f_name f_type f_rules fr_typ] in *.
  2:{ split; [intros []|]. intros (r & [[_ H]|[(q & m & _ & H & _)|(k & q & m & _ & H & _)]] & _); discriminate. }
  destruct r as [k r|b|r|r|r|r|r|r|r|r]; try (split; [intros []|intros (r' & [[_ H]|[(q & m & _ & H & _)|(k' & q & m & _ & H & _)]] & _); discriminate]).
  - destruct (P1 _ _ eq_refl) as (x & ->). cbn [in_type]. split.
    + intros H. exists r. destruct (e_in r) eqn:E1, (e_not_in r) eqn:E2; cbn in H; try contradiction; destruct H as [<-|[]]; (split; [left; auto|]); (split; [discriminate|]); auto; try (left; discriminate); right; discriminate.
    + intros (r' & [[[= ->] [= ->]]|[(q & m & H & _)|(k' & q & m & H & _)]] & _ & L); try discriminate.
      destruct (e_in r'), (e_not_in r'); cbn; auto. destruct L; congruence.
  - destruct (P2 _ eq_refl) as (x & -> & A). split.
    + intros H. destruct (r_items r) as [[m' [[]|]]|] eqn:E; try contradiction. cbn [enum_rules_of] in H. destruct (A _ _ eq_refl) as (y & [= ->]). cbn [in_type] in H.
      exists r0. destruct (e_in r0) eqn:E1, (e_not_in r0) eqn:E2; cbn in H; try contradiction; destruct H as [<-|[]];
      (split; [right; left; eauto 6|]); (split; [discriminate|]); auto; try (left; discriminate); right; discriminate.
    + intros (r' & [[H _]|[(q & m & [= ->] & [= ->] & E)|(k' & q & m & H & _)]] & _ & L); try discriminate. rewrite E. cbn [enum_rules_of in_type].
      destruct (e_in r'), (e_not_in r'); cbn; auto. destruct L; congruence.
  - split; [intros []|]. intros (r' & [[_ H]|[(q & m & _ & H & _)|(k' & q & m & H & _)]] & N & _); try discriminate. now apply N in H.
Qed.

Lemma needs_refs mn d f e : placed f -> needs_type d f e -> (md_disabled d = false /\ exists env, In (env, e) (field_enums mn f)) \/ In e (set_enums f).
Proof.
  intros P H. destruct H as [r D E G|r E N L|q D T E U].
  - left. split; auto. unfold field_enums, field_tpl. destruct E as [[T E]|[(q & m & T & E & I)|(k & q & m & T & E & I)]];
      destruct f as [fn t [mr tr]]; cbn [f_name f_type f_rules fr_typ] in *; subst.
    + eexists. cbn [is_wrappable andb]. rewrite refs_leaf, G. left. reflexivity.
    + eexists. rewrite refs_rep, I. apply in_or_app. right. cbn [defined]. rewrite G. left. reflexivity.
    + eexists. rewrite refs_map, I. apply in_or_app. right. cbn [defined]. rewrite G. left. reflexivity.
  - right. apply set_refs; auto. eauto.
  - left. split; auto. unfold field_enums, field_tpl. destruct f as [fn t [mr tr]]; cbn [f_name f_type f_rules fr_typ] in *; subst.
    eexists. rewrite refs_rep, U. apply in_or_app. left. left. reflexivity.
Qed.

(** * The imports *)

Lemma in_put p n q m l : In (q, m) (put p n l) -> (q, m) = (p, n) \/ In (q, m) l.
Proof. induction l as [|[a b] l IH]; cbn; [intuition congruence|]. destruct (String.eqb_spec a p); cbn; [subst|]; intuition congruence. Qed.
Lemma put_keys p n l : map fst (put p n l) = if existsb (fun a => String.eqb (fst a) p) l then map fst l else map fst l ++ [p].
Proof. induction l as [|[a b] l IH]; cbn; auto. destruct (String.eqb a p) eqn:E; cbn; auto. rewrite IH. destruct (existsb _ l); reflexivity. Qed.
Lemma put_nodup p n l : NoDup (map fst l) -> NoDup (map fst (put p n l)).
Proof.
  intros N. rewrite put_keys. destruct (existsb _ l) eqn:E; auto.
  assert (A : ~ In p (map fst l)).
  { intros H. apply in_map_iff in H. destruct H as (x & <- & H). apply not_true_iff_false in E. apply E. apply existsb_exists. exists x. split; auto. apply String.eqb_refl. }
  clear E. induction (map fst l) as [|a t IH]; cbn; [constructor; auto; constructor|]. inversion N; subst. constructor.
  - rewrite in_app_iff. cbn in *. intuition.
  - apply IH; auto. intros H. apply A. now right.
Qed.
Lemma put_here p n l : In (p, n) (put p n l).
Proof. induction l as [|[a b] l IH]; cbn; auto. destruct (String.eqb_spec a p); cbn; subst; auto. Qed.
Lemma put_other p n q m l : In (q, m) l -> q <> p -> In (q, m) (put p n l).
Proof. induction l as [|[a b] l IH]; cbn; auto. intros H N. destruct (String.eqb_spec a p); subst; cbn in *; destruct H as [H|H]; auto; congruence. Qed.

Lemma denotes_in env imps q p : denotes env imps q = Some p -> In (q, p) imps.
Proof. induction imps as [|[n x] t IH]; cbn; destruct (existsb _ env); try discriminate. destruct (String.eqb_spec n q); [intros [= ->]; subst; auto|auto]. Qed.
Lemma in_denotes env imps q p : NoDup (map fst imps) -> ~ In q env -> In (q, p) imps -> denotes env imps q = Some p.
Proof.
  intros N E. assert (X : existsb (String.eqb q) env = false).
  { apply not_true_iff_false. intros H. apply existsb_exists in H. destruct H as (y & Hy & H). apply String.eqb_eq in H. congruence. }
  induction imps as [|[n x] t IH]; cbn; [contradiction|]. rewrite X. inversion N; subst. destruct (String.eqb_spec n q); intros [H|H]; try congruence.
  - subst. exfalso. apply H1. apply (in_map fst) in H. exact H.
  - auto.
Qed.

Section Imports.
Variable loc : string -> place.
Variable here : place.
Variable msgs : list msgdesc.

Lemma external_is e : In e (external_enums loc here msgs) <-> foreign loc here msgs e.
Proof.
  unfold external_enums, foreign. rewrite in_flat_map. split.
  - intros (f & Hf & H). apply in_flat_map in Hf. destruct Hf as (d & Hd & Hf). unfold external_enum in H.
    destruct (f_type f) as [[]| |] eqn:T; try contradiction. destruct (negb _ && negb _) eqn:E; [|contradiction]. destruct H as [<-|[]].
    apply andb_true_iff in E. destruct E as [E1 E2]. apply negb_true_iff in E1, E2. apply String.eqb_neq in E1, E2. split; auto. exists d, f. auto.
  - intros ((d & f & Hd & Hf & T) & P1 & P2). exists f. split; [apply in_flat_map; eauto|]. unfold external_enum. rewrite T.
    apply String.eqb_neq in P1, P2. rewrite P1, P2. cbn. auto.
Qed.

Lemma fold_from l es i : In i (fold_left (fun l e => put (pl_path (loc e)) (pl_pkg (loc e)) l) es l) ->
  In i l \/ exists e, In e es /\ i = (pl_path (loc e), pl_pkg (loc e)).
Proof.
  revert l. induction es as [|e es IH]; cbn; auto. intros l H. apply IH in H. destruct H as [H|(x & Hx & ->)]; [|eauto].
  destruct i as [q m]. apply in_put in H. destruct H as [->|H]; eauto.
Qed.
Lemma fold_nodup l es : NoDup (map fst l) -> NoDup (map fst (fold_left (fun l e => put (pl_path (loc e)) (pl_pkg (loc e)) l) es l)).
Proof. revert l. induction es; cbn; auto using put_nodup. Qed.
Lemma fold_has l es q m : (forall e, pl_path (loc e) = q -> pl_pkg (loc e) = m) ->
  (In (q, m) l \/ exists e, In e es /\ pl_path (loc e) = q) -> In (q, m) (fold_left (fun l e => put (pl_path (loc e)) (pl_pkg (loc e)) l) es l).
Proof.
  intros C. revert l. induction es as [|e es IH]; cbn; intros l H; [destruct H as [H|(e & [] & _)]; exact H|].
  apply IH. destruct (String.eqb_spec (pl_path (loc e)) q) as [E|E].
  - left. rewrite <- (C _ E), <- E. apply put_here.
  - destruct H as [H|(x & [->|Hx] & P)]; [left; apply put_other; auto|contradiction|eauto].
Qed.

Lemma import_from i : In i (imports loc here msgs) -> In i fixed_imports \/ exists e, foreign loc here msgs e /\ i = (pl_pkg (loc e), pl_path (loc e)).
Proof.
  unfold imports. intros H. apply in_app_or in H. destruct H as [H|H]; auto. right. apply in_map_iff in H. destruct H as ([p n] & <- & H).
  apply fold_from in H. destruct H as [[]|(e & He & [= -> ->])]. exists e. now rewrite <- external_is.
Qed.
Lemma used : all_used loc here msgs.
Proof. intros i H. apply import_from in H. destruct H as [H|(e & H & ->)]; auto. right. exists e. now rewrite external_is. Qed.
Lemma import_has e : coherent loc here -> foreign loc here msgs e -> In (pl_pkg (loc e), pl_path (loc e)) (imports loc here msgs).
Proof.
  intros [C _] F. apply in_or_app. right. apply in_map_iff. exists (pl_path (loc e), pl_pkg (loc e)). split; auto.
  apply fold_has; [intros x E; now apply C|]. right. exists e. now rewrite external_is.
Qed.

Hypothesis ok : forall d f, In d msgs -> In f (all_fields d) -> placed f.

Lemma refs_needed env e : In (env, e) (flat_map msg_enums msgs) -> needed msgs e /\ Forall local env.
Proof using ok.
  intros H. apply in_flat_map in H. destruct H as (d & Hd & H). unfold msg_enums in H. destruct (md_methods d) eqn:M; try contradiction.
  all: apply in_app_or in H; destruct H as [H|H].
  1,3: destruct (md_disabled d) eqn:D; [contradiction|]; apply in_flat_map in H; destruct H as (f & Hf & H);
    destruct (field_refs _ d _ _ _ (ok d f Hd Hf) D H) as [N L]; split; auto; exists d, f; repeat split; auto; congruence.
  all: apply in_map_iff in H; destruct H as (x & [= <- <-] & H); apply in_flat_map in H; destruct H as (f & Hf & H);
    apply (set_refs f x (ok d f Hd Hf)) in H; destruct H as (r & A & B & C); split; [|constructor];
    exists d, f; repeat split; auto; try congruence; eapply by_list; eauto.
Qed.
Lemma needed_refs e : needed msgs e -> exists env, In (env, e) (flat_map msg_enums msgs).
Proof using ok.
  intros (d & f & Hd & M & Hf & N). destruct (needs_refs (md_name d) d f e (ok d f Hd Hf) N) as [(D & env & H)|H].
  - exists env. apply in_flat_map. exists d. split; auto. unfold msg_enums. destruct (md_methods d); try congruence; rewrite D; apply in_or_app; left; apply in_flat_map; eauto.
  - exists []. apply in_flat_map. exists d. split; auto. unfold msg_enums. destruct (md_methods d); try congruence; apply in_or_app; right; apply in_map; apply in_flat_map; eauto.
Qed.

Lemma fixed_names : NoDup (map fst fixed_imports).
Proof. cbn. repeat (constructor; [cbn; intuition discriminate|]). constructor. Qed.
Lemma nodup_names (l : list (string * string)) : NoDup (map fst l) -> (forall p p' n, In (p, n) l -> In (p', n) l -> p = p') -> NoDup (map snd l).
Proof.
  induction l as [|[p n] l IH]; cbn; intros N U; [constructor|]. inversion N; subst. constructor.
  - intros H. apply in_map_iff in H. destruct H as ([q m] & E & H). cbn in E. subst m. assert (p = q) by eauto. subst. apply H1. apply (in_map fst) in H. exact H.
  - apply IH; eauto.
Qed.

Lemma sufficient : coherent loc here -> outside loc here ->
  (forall e, needed msgs e -> reachable loc here msgs e) ->
  (forall e, foreign loc here msgs e -> usable (pl_pkg (loc e))) ->
  (forall e e', foreign loc here msgs e -> foreign loc here msgs e' -> pl_pkg (loc e) = pl_pkg (loc e') -> pl_path (loc e) = pl_path (loc e')) ->
  names_ok loc here msgs.
Proof using ok.
  intros C [O _] R U D.
  assert (ND : NoDup (map fst (imports loc here msgs))).
  { unfold imports. rewrite map_app, map_map. cbn [fst]. 
    assert (X : map (fun p : string * string => snd p) (enum_packages loc (external_enums loc here msgs)) = map snd (enum_packages loc (external_enums loc here msgs))) by reflexivity.
    rewrite X. clear X. assert (N2 : NoDup (map snd (enum_packages loc (external_enums loc here msgs)))).
    { apply nodup_names; [apply fold_nodup; constructor|]. intros p p' n H H'. apply fold_from in H, H'.
      destruct H as [[]|(e & He & [= -> ->])], H' as [[]|(e' & He' & [= -> E])]. apply external_is in He, He'. apply D; auto. }
    apply NoDup_app_iff. split; [apply fixed_names|]. split; [exact N2|]. intros x H1 H2.
    apply in_map_iff in H2. destruct H2 as ([p n] & E & H2). cbn in E. subst n. apply fold_from in H2. destruct H2 as [[]|(e & He & [= _ E])].
    apply external_is in He. destruct (U e He) as [V _]. rewrite <- E in V. contradiction. }
  assert (DEN : forall env e, foreign loc here msgs e -> Forall local env -> denotes env (imports loc here msgs) (pl_pkg (loc e)) = Some (pl_path (loc e))).
  { intros env e F L. apply in_denotes; auto using import_has. intros H. rewrite Forall_forall in L. apply L in H. revert H. apply usable_local. auto. }
  constructor; auto.
  - apply Forall_forall. intros i H. apply import_from in H. destruct H as [H|(e & F & ->)].
    + cbn in H. intuition (subst; cbn in *; intuition discriminate).
    + cbn [fst]. destruct (U e F) as (_ & V & _). intros H. apply V. cbn in H |- *. tauto.
  - intros H. apply in_map_iff in H. destruct H as (i & E & H). apply import_from in H. destruct H as [H|(e & F & ->)].
    + apply O. rewrite <- E. now apply in_map.
    + cbn in E. apply (proj2 C) in E. destruct F as (_ & _ & F). contradiction.
  - apply Forall_forall. intros e He. apply external_is in He. apply DEN; auto.
  - apply Forall_forall. intros [env e] He. apply refs_needed in He. destruct He as [N L]. unfold ref_ok, qualifier. cbn [fst snd].
    destruct (String.eqb_spec (pl_path (loc e)) (pl_path here)) as [E|E]; auto. destruct (R e N) as [H|(e' & F & H)]; [contradiction|].
    rewrite <- (proj1 C _ _ H), <- H. apply DEN; auto.
Qed.

Lemma necessary e : outside loc here -> names_ok loc here msgs -> needed msgs e -> reachable loc here msgs e.
Proof using ok.
  intros [_ O] K N. apply needed_refs in N. destruct N as [env N]. assert (T := types_found _ _ _ K). rewrite Forall_forall in T. apply T in N.
  unfold ref_ok, qualifier in N. cbn [fst snd] in N. unfold reachable. destruct (String.eqb_spec (pl_path (loc e)) (pl_path here)) as [E|E]; auto.
  right. apply denotes_in, import_from in N. destruct N as [N|(e' & F & [= _ P])]; [|eauto]. exfalso. apply (O e). apply (in_map snd) in N. exact N.
Qed.

Lemma names_needed e : names_ok loc here msgs -> foreign loc here msgs e ->
  ~ In (pl_pkg (loc e)) predeclared /\
  (forall e', foreign loc here msgs e' -> pl_pkg (loc e) = pl_pkg (loc e') -> pl_path (loc e) = pl_path (loc e')).
Proof using.
  intros K F. assert (M := mentioned _ _ _ K). rewrite Forall_forall in M. assert (H := M e (proj2 (external_is e) F)). split.
  - apply denotes_in in H. assert (X := no_hidden _ _ _ K). rewrite Forall_forall in X. apply X in H. exact H.
  - intros e' F' E. assert (H' := M e' (proj2 (external_is e') F')). congruence.
Qed.
Lemma not_fixed e : outside loc here -> names_ok loc here msgs -> foreign loc here msgs e -> ~ In (pl_pkg (loc e)) (map fst fixed_imports).
Proof using.
  intros [_ O] K F H. assert (M := mentioned _ _ _ K). rewrite Forall_forall in M. assert (X := M e (proj2 (external_is e) F)). apply denotes_in in X.
  apply in_map_iff in H. destruct H as ([n p] & E & H). cbn in E. subst n.
  assert (Y : In (pl_pkg (loc e), p) (imports loc here msgs)) by (apply in_or_app; auto).
  assert (P : denotes [] (imports loc here msgs) (pl_pkg (loc e)) = Some p) by (apply in_denotes; auto; apply (no_redeclared _ _ _ K)).
  assert (Q := M e (proj2 (external_is e) F)). apply (O e). replace (pl_path (loc e)) with p by congruence. apply (in_map snd) in H. exact H.
Qed.
End Imports.

Lemma checked_placed re_ok sc0 sc : check_schema re_ok sc0 = Some sc -> wf_schema sc0 -> forall d f, In d (sc_msgs sc) -> md_disabled d = false -> In f (all_fields d) -> placed f.
Proof.
  intros K W d f Hd D Hf. unfold check_schema in K. destruct (map_opt _ _) eqn:M in K; [|discriminate]. injection K as <-. cbn [sc_msgs] in Hd.
  apply map_opt_forall2 in M. apply (forall2_in_r _ _ _ _ M) in Hd. destruct Hd as (d0 & Hd0 & C).
  destruct (check_msg_name _ _ _ _ C) as (_ & _ & E). rewrite D in E. symmetry in E.
  destruct (W d0 Hd0) as [_ T].
  destruct (forall2_in_r _ _ _ _ (fields_checked _ _ _ _ E C) Hf) as (f0 & Hf0 & H). eapply field_placed; eauto.
Qed.
