(** The code and the declarations of a field, a message and a package compile exactly when the
    rules fit. *)
From Coq Require Import Lia Permutation.
From Verif Require Import Base Num Rules Types Time GoIR GoGen GoSem Spec Wt GoType GoFit GoTypeFacts
  GoFieldFacts GoDeclFacts BaseFacts Checker ExecMsg Main LangFacts.
Local Open Scope string_scope.

Section Field.
Variable fields : list (string * gty).
Variable decls : list (string * pkgvar).
Variable enums : list string.
Variable helpers : list callee.
Variable re_ok : bytes -> bool.
Variable sc0 : schema.
Variable mn : string.
Variable f : field.
Variable fr0 : field_rules.
Hypothesis checked : check_fr re_ok sc0 (CField (f_type f)) fr0 = Some (f_rules f).
Hypothesis mn_exp : exported mn.
Hypothesis mn_err : assoc (mn ++ "ValidationError") decls = Some DType.
Hypothesis getter : assoc (f_name f) fields = Some (go_ftype (f_type f)).
Hypothesis tabs : forall k, table k ->
  assoc (lookup_name mn (f_name f) k) decls = assoc (lookup_name mn (f_name f) k) (field_decls mn f).
Hypothesis enum_in : forall e, (f_type f = FOne (TEnum e) \/ f_type f = FRep (TEnum e) \/
  exists k, f_type f = FMap k (TEnum e)) -> In e enums.
Hypothesis typed : rules_typed (f_rules f).
Hypothesis keys : forall k v, f_type f = FMap k v -> map_key k = true.
Hypothesis helped : forall h, field_needs h f = true -> In h helpers.
Notation stmt_ok := (stmt_ok fields decls enums helpers).
Notation block_ok := (block_ok fields decls enums helpers).
Notation ctx_ok := (ctx_ok fields decls).
Notation nm := (lookup_name mn (f_name f)).
Notation decls_fit := (decls_fit mn f).
Notation leaf_stmt := (leaf_stmt decls).

Definition here (a : access) (ix : option string) : ctx := mkCtx mn (f_name f) (f_type f) a ix.
Notation top := (here (AField (f_name f)) None).

Lemma top_ctx : ctx_ok [] top (go_ftype (f_type f)).
Proof using mn_exp mn_err getter.
  constructor; auto.
  - apply plain_nil.
  - cbn. discriminate.
Qed.
Lemma top_plain : acc_plain top.
Proof using. split; reflexivity. Qed.

Lemma guarded_nodup G b a t c s : acc_ty fields G a = Some t -> NoDup (declares s) ->
  (b = true -> cond_ok decls enums G t c) ->
  (stmt_ok G (guarded b a c s) <-> stmt_ok G s).
Proof using.
  clear. intros A D F. destruct b; [|reflexivity]. cbn [guarded]. rewrite if_ok. split.
  - intros (_ & [H _] & _). exact H.
  - intros H. split; [exists t; split; auto|]. split; [split; auto|apply skip_block].
Qed.

Lemma count_ok G c t mn' mx one many : ctx_ok G c t -> has_len t ->
  (stmt_ok G (count_tpl c mn' mx one many) <-> counts_fit mn' mx).
Proof using.
  clear. intros C H. unfold count_tpl, counts_fit.
  destruct mn' as [a|], mx as [b|]; cbn [getN].
  - destruct (N.eqb_spec a 0) as [->|N]; cbn [negb].
    + rewrite (chk_ok _ _ _ _ _ _ _ _ _ C). cbn [cond_ok]. split.
      * intros [_ X]. split; intros n [= <-]; auto. unfold int_fits. lia.
      * intros [_ X]. auto.
    + destruct (N.eqb_spec a b) as [->|M]; rewrite (chk_ok _ _ _ _ _ _ _ _ _ C); cbn [cond_ok].
      * split; [intros [_ X]; split; intros n [= <-]; auto|intros [_ X]; auto].
      * split; [intros [[_ X] [_ Y]]; split; intros n [= <-]; auto|intros [X Y]; auto].
  - destruct (N.eqb_spec a 0) as [->|N]; cbn [negb].
    + split; [|intros; exact I]. intros _. split; intros n [= <-]. unfold int_fits. lia.
    + destruct (N.eqb_spec a 0) as [|M]; [contradiction|]. rewrite (chk_ok _ _ _ _ _ _ _ _ _ C). cbn [cond_ok].
      split; [intros [_ X]; split; intros n [= <-]; auto|intros [X _]; auto].
  - change (stmt_ok G (chk c (CLen OGt b) [PStr "value must contain no more than "; PNat b; PStr one]) <-> counts_fit None (Some b)).
    rewrite (chk_ok _ _ _ _ _ _ _ _ _ C). cbn [cond_ok]. unfold counts_fit.
    split; [intros [_ X]; split; intros n [= <-]; auto|intros [_ X]; auto].
  - cbn. split; [intros _; split; discriminate|auto].
Qed.

Lemma count_declares c mn' mx one many : declares (count_tpl c mn' mx one many) = [].
Proof using. clear. unfold count_tpl. destruct mn' as [a|], mx as [b|]; repeat destruct (N.eqb _ _); reflexivity. Qed.

Lemma idx_err G ix rs : plain mn (f_name f) G -> var_ty G ix <> None ->
  err_ok decls G (err_idx top ix rs).
Proof using mn_exp mn_err.
  intros P V. split; [|split].
  - unfold pkg_ref. cbn. now rewrite (plain_err _ _ _ _ mn_exp P).
  - cbn. intros x [= <-]. exact V.
  - discriminate.
Qed.

(** A value inside the field. *)
Definition inner (G : list (string * local)) (x : string) (ix : string) (e : etype) : Prop :=
  ctx_ok G (here (AVar x) (Some ix)) (go_type e) /\ (x = "item" \/ x = "key" \/ x = "val").

Lemma inner_plain x ix : x = "item" \/ x = "key" \/ x = "val" -> acc_plain (here (AVar x) ix).
Proof using. clear. intros [->|[->| ->]]; split; reflexivity. Qed.

Lemma elem_none_ok G x ix e fr b : inner G x ix e -> match fr with Some (FR _ (Some _)) => False | _ => True end ->
  stmt_ok G (elem_tpl (here (AVar x) (Some ix)) b e fr).
Proof using.
  clear. intros [C X] N.
  assert (M : forall mr, stmt_ok G (if is_embed e then message_tpl (here (AVar x) (Some ix)) e mr else SSkip)).
  { intros mr. destruct (is_embed e) eqn:E; [|exact I]. apply message_tpl_ok.
    - replace (GPtr e) with (go_type e); auto. destruct e; try discriminate E; reflexivity.
    - apply (inner_plain x (Some ix) X). }
  destruct fr as [[mr [r|]]|]; cbn [elem_tpl]; [contradiction|apply M|apply M].
Qed.

Lemma elem_rule_ok G x ix e b m r : inner G x ix e -> rule_checked r -> rule_at e r -> rule_typed r ->
  (forall s, r = RString s -> wk_helpers helpers s) ->
  (forall s, r = REnum s -> In (enum_name (f_type f)) enums) -> (exists t, f_type f = FRep t) \/ (exists k v, f_type f = FMap k v) ->
  (b = true -> on_wrapped e r = false) ->
  (stmt_ok G (elem_tpl (here (AVar x) (Some ix)) b e (Some (FR m (Some r)))) <->
   on_wrapped e r = false /\ leaf_stmt (here (AVar x) (Some ix)) (go_type e) r).
Proof using.
  clear. intros [C X] K A W H E T B. cbn [elem_tpl]. rewrite (wrappable_on e r A).
  destruct (on_wrapped e r) eqn:O; cbn [andb].
  - destruct b; [discriminate B; reflexivity|]. cbn [negb]. unfold wrapper_tpl. cbn [here cx_ftype].
    destruct T as [[t ->]|(k & v & ->)]; split; intros X'; try contradiction; destruct X'; discriminate.
  - rewrite (leaf_iff fields decls enums helpers G _ _ r C); auto; [|apply (inner_plain x (Some ix) X)|apply at_typed; auto].
    tauto.
Qed.

(** ** Lists *)

Lemma rep_fit uuid e q : f_type f = FRep e -> fr_typ (f_rules f) = Some (RRepeated q) ->
  (decls_fit /\ stmt_ok [] (rep_tpl top e q) /\ (field_needs FUuid f = true -> uuid = true) <->
   counts_fit (r_min q) (r_max q) /\ elem_fit uuid PItem e (r_items q) /\ bytes_pattern (r_items q) = false).
Proof using checked mn_exp mn_err getter tabs enum_in typed helped.
  intros T R.
  destruct (f_rules f) as [fm [fr|]] eqn:FR0; [|discriminate R]. cbn in R. injection R as ->.
  assert (TC := top_ctx). rewrite T in TC. cbn [go_ftype] in TC.
  assert (OC := other_checked re_ok sc0 (f_type f) fr0 fm (RRepeated q) (or_introl (ex_intro _ e T)) checked).
  cbn in OC. destruct OC as (e' & T' & UQ & IC). rewrite T in T'. injection T' as <-.
  set (set := lookup_name mn (f_name f) "Unique") in *.
  set (ci := here (AVar "item") (Some "idx")).
  set (G0 := if getb (r_unique q) then [(set, LSet)] else @nil (string * local)).
  set (G := ("item", LVar (go_type e)) :: ("idx", LVar GInt) :: G0).
  assert (P0 : plain mn (f_name f) G0).
  { unfold G0. destruct (getb _); [|apply plain_nil]. apply plain_cons; [now left|apply plain_nil]. }
  assert (PG : plain mn (f_name f) G).
  { apply plain_cons; [right; cbn; tauto|]. apply plain_cons; [right; cbn; tauto|]. exact P0. }
  assert (IN : inner G "item" "idx" e).
  { split; [|auto]. constructor; auto.
    cbn. intros x [= <-]. split; auto. cbn. discriminate. }
  assert (ST : stmt_ok [] (rep_tpl top e q) <-> counts_fit (r_min q) (r_max q) /\
    (getb (r_unique q) || negb (elem_none e (r_items q)) = true -> stmt_ok G (elem_tpl ci false e (r_items q)))).
  { unfold rep_tpl. cbv zeta. cbn [cx_acc here cx_msg cx_field cx_ftype].
    fold ci. change (lookup (here (AField (f_name f)) None) "Unique") with set.
    set (B := SSeq (if getb (r_unique q) then SUnique set (is_bytes_ty e) (AVar "item") (SFail (err_idx (here (AField (f_name f)) None) "idx" [PStr "repeated value must contain unique items"])) else SSkip) (elem_tpl ci false e (r_items q))).
    assert (BD : declares B = []) by (unfold B; cbn [declares]; rewrite elem_declares, app_nil_r; destruct (getb _); reflexivity).
    assert (BS : stmt_ok G B <-> stmt_ok G (elem_tpl ci false e (r_items q))).
    { unfold B. rewrite seq2_ok. split; [tauto|]. intros H. split; auto.
      destruct (getb (r_unique q)) eqn:U; [|exact I].
      split; [unfold G, G0; rewrite ?U; cbn; now rewrite String.eqb_refl|].
      split.
      - exists (go_type e). split; [reflexivity|]. specialize (UQ eq_refl). destruct e; try discriminate UQ; cbn; try exact I; try reflexivity.
        destruct k; exact I.
      - apply fail_block, idx_err; auto. cbn. discriminate. }
    assert (LS : forall b : bool, (b = getb (r_unique q) || negb (elem_none e (r_items q))) -> stmt_ok G0 (if b then SForSlice "idx" "item" (AField (f_name f)) B else SSkip) <->
      (b = true -> stmt_ok G (elem_tpl ci false e (r_items q)))).
    { intros b _. destruct b; [|split; [discriminate|intros; exact I]]. cbn [GoType.stmt_ok GoType.acc_ty]. rewrite getter, T. cbn [go_ftype].
      rewrite BD. split.
      - intros (e' & [= <-] & H & _) _. exact (proj1 BS H).
      - intros H. exists e. split; auto. split; [apply (proj2 BS); auto|constructor]. }
    rewrite (guarded_nodup [] _ _ (GSlice e)).
    - rewrite seq2_ok, (count_ok _ _ _ _ _ _ _ TC) by exact I. rewrite <- (LS _ eq_refl).
      unfold G0. destruct (getb (r_unique q)) eqn:U; [|reflexivity]. cbn [orb].
      assert (US : uses set (SForSlice "idx" "item" (AField (f_name f)) B) = true).
      { unfold B. cbn [uses]. rewrite String.eqb_refl. reflexivity. }
      split; [intros (X & _ & Y); auto|intros (X & Y); split; auto; split; auto].
    - cbn [GoType.acc_ty]. rewrite getter, T. reflexivity.
    - cbn [declares]. rewrite count_declares. cbn [app].
      destruct (getb (r_unique q)); destruct (_ || _); cbn; repeat constructor; intros [].
    - intros _. cbn. split; [exact I|reflexivity]. }
  rewrite ST. clear ST.
  assert (TR : forall r, fr_typ (rules_or_none (r_items q)) = Some r -> rule_typed r).
  { unfold rules_typed in typed. cbn in typed. exact typed. }
  destruct (r_items q) as [[m [r|]]|] eqn:Q.
  2,3: cbn [elem_fit bytes_pattern];
    assert (D : field_decls mn f = []) by (unfold field_decls; rewrite FR0; cbn; rewrite Q; reflexivity);
    assert (N : field_needs FUuid f = false) by (unfold field_needs; rewrite T; destruct e; auto; rewrite FR0; cbn; rewrite Q; reflexivity);
    unfold GoDeclFacts.decls_fit; rewrite D, N;
    (split; [tauto|]; intros (X & _); split; [constructor|]; split; [|discriminate]; split; auto;
     intros _; apply elem_none_ok; auto).
  destruct (IC _ eq_refl) as [fr1 CK].
  destruct (elem_checked re_ok sc0 (CElem e) e fr1 m r (or_introl eq_refl) CK) as [K A].
  assert (W : rule_typed r) by (apply TR; reflexivity).
  cbn [elem_none negb]. rewrite orb_true_r.
  assert (HS : forall s, r = RString s -> on_wrapped e r = false -> wk_helpers helpers s).
  { intros s -> O h Hh. apply helped. unfold field_needs. rewrite T. destruct A as [-> | ->]; [|discriminate O].
    rewrite FR0. cbn [fr_typ]. rewrite Q. exact Hh. }
  assert (HE : forall s, r = REnum s -> In (enum_name (f_type f)) enums).
  { intros s ->. destruct A as [n ->]. rewrite T. cbn. apply enum_in. auto. }
  assert (RT : fr_typ (f_rules f) = Some (RRepeated q)) by (rewrite FR0; reflexivity).
  destruct (on_wrapped e r) eqn:O.
  - cbn [elem_fit]. rewrite O. split.
    + intros (_ & (_ & S) & _). exfalso. specialize (S eq_refl). cbn [elem_tpl] in S. rewrite (wrappable_on e r A), O in S.
      cbn [andb negb] in S. unfold wrapper_tpl in S. unfold ci in S. cbn [here cx_ftype] in S. rewrite T in S. exact S.
    + intros (_ & (X & _) & _). discriminate X.
  - assert (EO := elem_rule_ok G "item" "idx" e false m r IN K A W (fun s E => HS s E eq_refl) HE (or_introl (ex_intro _ e T)) (fun _ => O)).
    fold ci in EO. rewrite EO. cbn [elem_fit]. rewrite O.
    assert (IL := item_leaf decls mn f tabs uuid e q m r ci T RT Q K A O W eq_refl eq_refl). rewrite Q in IL.
    split.
    + intros (D & (C & S) & U). split; auto. apply IL. destruct (S eq_refl). auto.
    + intros (C & E). apply IL in E. destruct E as (D & S & U). auto 10.
Qed.

(** ** Maps *)

Lemma map_fit uuid k v q : f_type f = FMap k v -> fr_typ (f_rules f) = Some (RMap q) ->
  (decls_fit /\ stmt_ok [] (map_tpl top k v q) /\ NoDup (map fst (field_decls mn f)) /\
     (field_needs FUuid f = true -> uuid = true) <->
   counts_fit (p_min q) (p_max q) /\
   elem_fit uuid PKey k (p_keys q) /\ elem_fit uuid PVal v (p_values q) /\
   has_pattern (p_keys q) && has_pattern (p_values q) = false /\
   (bytes_pattern (p_values q) = true -> has_pattern (p_keys q) = true) /\
   (map_loops v q = true -> key_named k v q = true)).
Proof using checked mn_exp mn_err getter tabs enum_in typed keys helped.
  intros T R.
  destruct (f_rules f) as [fm [fr|]] eqn:FR0; [|discriminate R]. cbn in R. injection R as ->.
  assert (TC := top_ctx). rewrite T in TC. cbn [go_ftype] in TC.
  assert (OC := other_checked re_ok sc0 (f_type f) fr0 fm (RMap q) (or_intror (ex_intro _ k (ex_intro _ v T))) checked).
  cbn in OC. destruct OC as (k' & v' & T' & NS & KC & VC). rewrite T in T'. injection T' as <- <-.
  assert (MK := keys k v T). assert (KN : is_embed k = false) by (destruct k; try discriminate MK; reflexivity).
  assert (RT : fr_typ (f_rules f) = Some (RMap q)) by (rewrite FR0; reflexivity).
  destruct (map_decls mn f k v q T RT) as (DF & _ & _ & _ & ND).
  set (ck := here (AVar "key") (Some "key")). set (cv := here (AVar "val") (Some "key")).
  set (G := [("val", LVar (go_type v)); ("key", LVar (go_type k))]).
  assert (PG : plain mn (f_name f) G).
  { apply plain_cons; [right; cbn; tauto|]. apply plain_cons; [right; cbn; tauto|]. apply plain_nil. }
  assert (IK : inner G "key" "key" k).
  { split; [|auto]. constructor; auto. cbn. intros x [= <-]. split; auto. cbn. discriminate. }
  assert (IV : inner G "val" "key" v).
  { split; [|auto]. constructor; auto. cbn. intros x [= <-]. split; auto. cbn. discriminate. }
  set (B := SSeq (if getb (p_no_sparse q)
                     then SIf (AVar "val") CNil
                            (SFail (err_idx (here (AField (f_name f)) None) "key" [PStr "value cannot be sparse, all pairs must be non-nil"]))
                            SSkip
                     else SSkip)
              (SSeq (elem_tpl ck true k (p_keys q))
                    (elem_tpl cv false v (p_values q)))).
  assert (BD : declares B = []) by (unfold B; cbn [declares]; rewrite !elem_declares; destruct (getb _); reflexivity).
  assert (BS : stmt_ok G B <-> stmt_ok G (elem_tpl ck true k (p_keys q)) /\ stmt_ok G (elem_tpl cv false v (p_values q))).
  { unfold B. rewrite !seq2_ok. split; [tauto|]. intros H. split; auto.
    destruct (getb (p_no_sparse q)) eqn:U; [|exact I]. rewrite if_ok. split; [|split; [|apply skip_block]].
    - exists (go_type v). split; [reflexivity|]. specialize (NS eq_refl). destruct v; try discriminate NS; exact I.
    - apply fail_block, idx_err; auto. cbn. discriminate. }
  assert (LE : getb (p_no_sparse q) || negb (elem_none v (p_values q)) || negb (elem_none k (p_keys q)) = map_loops v q).
  { unfold map_loops, elem_none. destruct (p_keys q) as [[? [|]]|], (p_values q) as [[? [|]]|]; rewrite ?KN;
      destruct (getb (p_no_sparse q)), (is_embed v); reflexivity. }
  assert (ST : stmt_ok [] (map_tpl top k v q) <-> counts_fit (p_min q) (p_max q) /\
    (map_loops v q = true -> uses "key" B = true /\ stmt_ok G B)).
  { unfold map_tpl. cbv zeta. cbn [cx_acc here cx_msg cx_field cx_ftype]. rewrite LE.
    change (mkCtx mn (f_name f) (f_type f) (AVar "key") (Some "key")) with ck.
    change (mkCtx mn (f_name f) (f_type f) (AVar "val") (Some "key")) with cv. fold B.
    rewrite (guarded_nodup [] _ _ (GMap k v)).
    - rewrite seq2_ok, (count_ok _ _ _ _ _ _ _ TC) by exact I.
      destruct (map_loops v q); [|split; [intros (X & _); split; [auto|discriminate]|intros (X & _); split; [auto|exact I]]].
      cbn [GoType.stmt_ok GoType.acc_ty]. rewrite getter, T, BD. cbn [go_ftype]. split.
      + intros (X & kt & vt & [= <- <-] & U & H & _). auto.
      + intros (X & Y). split; auto. destruct (Y eq_refl) as [U S]. exists k, v. split; auto. split; auto. split; [exact S|constructor].
    - cbn [GoType.acc_ty]. rewrite getter, T. reflexivity.
    - cbn [declares]. rewrite count_declares. destruct (map_loops v q); constructor.
    - intros _. cbn. split; [exact I|reflexivity]. }
  assert (TRK : forall r, fr_typ (rules_or_none (p_keys q)) = Some r -> rule_typed r).
  { unfold rules_typed in typed. cbn in typed. intros r Hr. apply typed. auto. }
  assert (TRV : forall r, fr_typ (rules_or_none (p_values q)) = Some r -> rule_typed r).
  { unfold rules_typed in typed. cbn in typed. intros r Hr. apply typed. auto. }
  set (plainv := match p_values q with Some (FR _ (Some r)) => on_wrapped v r = false | _ => True end).
  assert (KE : stmt_ok G (elem_tpl ck true k (p_keys q)) /\ wk_uuid uuid (p_keys q) <-> elem_fit uuid PKey k (p_keys q)).
  { destruct (p_keys q) as [[m [r|]]|] eqn:Q.
    2,3: split; [intros; exact I|]; intros _; split; [apply elem_none_ok; [exact IK|exact I]|unfold wk_uuid; discriminate].
    destruct (KC _ eq_refl) as [fr1 CK].
    destruct (elem_checked re_ok sc0 (CElem k) k fr1 m r (or_introl eq_refl) CK) as [K A].
    assert (W : rule_typed r) by (apply TRK; reflexivity).
    assert (O : on_wrapped k r = false) by (destruct k; try discriminate MK; reflexivity).
    assert (HS : forall s, r = RString s -> wk_helpers helpers s).
    { intros s -> h Hh. apply helped. unfold field_needs. rewrite T. destruct A as [-> | ->]; [|discriminate O].
      rewrite FR0. cbn [fr_typ]. rewrite Q. apply orb_true_iff. left. exact Hh. }
    assert (HE : forall s, r = REnum s -> In (enum_name (f_type f)) enums).
    { intros s ->. destruct A as [n ->]. discriminate MK. }
    assert (EO := elem_rule_ok G "key" "key" k true m r IK K A W HS HE (or_intror (ex_intro _ k (ex_intro _ v T))) (fun _ => O)).
    fold ck in EO. rewrite EO.
    cbn [elem_fit]. rewrite O.
    assert (ML := map_leaf decls mn f tabs uuid PKey k v q k (p_keys q) m r ck T RT (or_introl (conj eq_refl eq_refl)) Q K A O W eq_refl eq_refl).
    rewrite Q in ML. assert (BP : bytes_pattern (Some (FR m (Some r))) = false).
    { destruct r; auto. destruct A as [-> | ->]; discriminate MK. }
    rewrite BP in ML. split.
    - intros ((_ & S) & U). apply ML. auto.
    - intros H. destruct (proj2 ML) as [S U]; [split; [auto|discriminate]|]. auto. }
  assert (VE : stmt_ok G (elem_tpl cv false v (p_values q)) /\ wk_uuid uuid (p_values q) <->
    elem_fit uuid PVal v (p_values q) /\ (bytes_pattern (p_values q) = true -> has_pattern (p_keys q) = true)).
  { destruct (p_values q) as [[m [r|]]|] eqn:Q.
    2,3: split; [intros; split; [exact I|discriminate]|]; intros _; split; [apply elem_none_ok; [exact IV|exact I]|unfold wk_uuid; discriminate].
    destruct (VC _ eq_refl) as [fr1 CK].
    destruct (elem_checked re_ok sc0 (CElem v) v fr1 m r (or_introl eq_refl) CK) as [K A].
    assert (W : rule_typed r) by (apply TRV; reflexivity).
    cbn [elem_fit]. destruct (on_wrapped v r) eqn:O.
    { cbn [elem_tpl]. rewrite (wrappable_on v r A), O. cbn [andb negb]. unfold wrapper_tpl, cv. cbn [here cx_ftype]. rewrite T. cbn.
      split; [intros [[] _]|intros ((X & _) & _); discriminate X]. }
    assert (HS : forall s, r = RString s -> wk_helpers helpers s).
    { intros s -> h Hh. apply helped. unfold field_needs. rewrite T. destruct A as [-> | ->]; [|discriminate O].
      rewrite FR0. cbn [fr_typ]. rewrite Q. apply orb_true_iff. right. exact Hh. }
    assert (HE : forall s, r = REnum s -> In (enum_name (f_type f)) enums).
    { intros s ->. destruct A as [n ->]. rewrite T. cbn. apply enum_in. right. right. eauto. }
    assert (EO := elem_rule_ok G "val" "key" v false m r IV K A W HS HE (or_intror (ex_intro _ k (ex_intro _ v T))) (fun _ => O)).
    fold cv in EO. rewrite EO.
    assert (ML := map_leaf decls mn f tabs uuid PVal k v q v (p_values q) m r cv T RT (or_intror (conj eq_refl eq_refl)) Q K A O W eq_refl eq_refl).
    rewrite Q in ML.
    assert (HP : bytes_pattern (Some (FR m (Some r))) = true -> has_pattern (Some (FR m (Some r))) = false).
    { destruct r; try discriminate. reflexivity. }
    split.
    - intros ((_ & S) & U). destruct (proj1 ML (conj S U)) as [X Y]. split; auto. intros BP. specialize (Y BP).
      rewrite (HP BP), orb_false_r in Y. exact Y.
    - intros (X & Y). destruct (proj2 ML) as [S U]; [split; auto; intros BP; rewrite (Y BP); reflexivity|]. auto. }
  assert (PV1 : stmt_ok G (elem_tpl cv false v (p_values q)) -> plainv).
  { unfold plainv. destruct (p_values q) as [[m [r|]]|] eqn:Q; auto.
    destruct (VC _ eq_refl) as [fr1 CK].
    destruct (elem_checked re_ok sc0 (CElem v) v fr1 m r (or_introl eq_refl) CK) as [K A].
    cbn [elem_tpl]. rewrite (wrappable_on v r A). destruct (on_wrapped v r); auto. cbn [andb negb]. unfold wrapper_tpl, cv. cbn [here cx_ftype]. rewrite T.
    intros []. }
  assert (PV2 : elem_fit uuid PVal v (p_values q) -> plainv).
  { unfold plainv, elem_fit. destruct (p_values q) as [[m [r|]]|]; auto.
    destruct (on_wrapped v r); auto. intros [X _]. discriminate X. }
  assert (UK : plainv -> ((field_needs FUuid f = true -> uuid = true) <-> wk_uuid uuid (p_keys q) /\ wk_uuid uuid (p_values q))).
  { intros PV. unfold field_needs. rewrite T, FR0. cbn [fr_typ].
    assert (E1 : match k with TString => str_needs (p_keys q) FUuid | _ => false end = str_needs (p_keys q) FUuid).
    { destruct (p_keys q) as [[m [r|]]|] eqn:Q; [|destruct k; reflexivity|destruct k; reflexivity].
      destruct (KC _ eq_refl) as [fr1 CK].
      destruct (elem_checked re_ok sc0 (CElem k) k fr1 m r (or_introl eq_refl) CK) as [K A].
      destruct r; try (destruct k; reflexivity). destruct A as [-> | ->]; [reflexivity|discriminate MK]. }
    assert (E2 : match v with TString => str_needs (p_values q) FUuid | _ => false end = str_needs (p_values q) FUuid).
    { unfold plainv in PV. destruct (p_values q) as [[m [r|]]|] eqn:Q; [|destruct v; reflexivity|destruct v; reflexivity].
      destruct (VC _ eq_refl) as [fr1 CK].
      destruct (elem_checked re_ok sc0 (CElem v) v fr1 m r (or_introl eq_refl) CK) as [K A].
      destruct r; try (destruct v; reflexivity). destruct A as [-> | ->]; [reflexivity|discriminate PV]. }
    rewrite E1, E2, <- !str_needs_uuid, orb_true_iff. tauto. }
  assert (UB : plainv -> uses "key" B = key_named k v q).
  { intros PV. unfold B, key_named. cbn [uses]. rewrite <- orb_assoc. f_equal.
    { destruct (getb (p_no_sparse q)); reflexivity. }
    f_equal.
    - destruct (p_keys q) as [[m [r|]]|]; cbn [elem_tpl]; rewrite ?KN; cbn [andb negb]; rewrite ?andb_false_r; try reflexivity.
      rewrite key_leaf by reflexivity. reflexivity.
    - unfold plainv in PV. destruct (p_values q) as [[m [r|]]|] eqn:Q; cbn [elem_tpl].
      + destruct (VC _ eq_refl) as [fr1 CK].
        destruct (elem_checked re_ok sc0 (CElem v) v fr1 m r (or_introl eq_refl) CK) as [K A].
        rewrite (wrappable_on v r A), PV. cbn [andb]. rewrite key_leaf by reflexivity. cbn. now rewrite orb_false_r.
      + destruct (is_embed v); [|reflexivity]. rewrite key_message by reflexivity. reflexivity.
      + destruct (is_embed v); [|reflexivity]. rewrite key_message by reflexivity. reflexivity. }
  assert (NL : map_loops v q = false -> stmt_ok G (elem_tpl ck true k (p_keys q)) /\ stmt_ok G (elem_tpl cv false v (p_values q))).
  { unfold map_loops. destruct (p_keys q) as [[? [|]]|], (p_values q) as [[? [|]]|]; rewrite ?orb_true_r; intros H; try discriminate H;
      split; apply elem_none_ok; auto; exact I. }
  rewrite ST, BS, ND. clear ST BS ND.
  split.
  - intros (_ & (C & L) & P & U).
    assert (S : stmt_ok G (elem_tpl ck true k (p_keys q)) /\ stmt_ok G (elem_tpl cv false v (p_values q))).
    { destruct (map_loops v q) eqn:M; [apply (L eq_refl)|apply NL; reflexivity]. }
    destruct S as [S1 S2]. assert (PV := PV1 S2). apply (UK PV) in U. destruct U as [U1 U2].
    rewrite (UB PV) in L. split; auto. split; [apply KE; auto|]. destruct (proj1 VE (conj S2 U2)) as [V1 V2].
    repeat split; auto. intros M. apply (L M).
  - intros (C & FK & FV & P & BP & L). assert (PV := PV2 FV).
    destruct (proj2 KE FK) as [S1 U1]. destruct (proj2 VE (conj FV BP)) as [S2 U2].
    split; auto. split; [|split; [auto|]]. 2: { apply (UK PV). auto. }
    split; auto. rewrite (UB PV). intros M. auto.
Qed.

(** ** Any field *)

Lemma wrapper_fit e m r : f_type f = FOne e -> rule_checked r -> rule_at e r -> rule_typed r -> on_wrapped e r = true ->
  (forall s, r = RString s -> wk_helpers helpers s) ->
  (stmt_ok [] (wrapper_tpl top m r) <->
   leaf_stmt (mkCtx mn (f_name f) (f_type f) (AUnwrap "wrapper") None) (go_type (unwrapped e)) r).
Proof using mn_exp mn_err getter.
  intros T K A W O H. destruct (at_wrapped e r A O) as (w & -> & LT).
  unfold wrapper_tpl. cbn [here cx_ftype cx_acc cx_msg cx_field unwrapped]. rewrite T.
  assert (TC := top_ctx). rewrite T in TC. cbn [go_ftype go_type] in TC.
  rewrite (bind_ok _ _ _ _ _ _ _ (GPtr (TWrap w))) by (cbn; rewrite getter, T; reflexivity).
  set (G := [("wrapper", LVar (GPtr (TWrap w)))]).
  assert (C : ctx_ok G (mkCtx mn (f_name f) (f_type f) (AUnwrap "wrapper") None) (go_type (wrapped_type w))).
  { constructor; auto.
    - apply plain_cons; [right; cbn; tauto|apply plain_nil].
    - cbn. discriminate. }
  unfold GoType.block_ok. rewrite leaf_declares. rewrite T in C.
  rewrite (leaf_iff fields decls enums helpers G _ _ r C); auto.
  - split; [intros (_ & (X & _) & _); exact X|]. intros X. split; [exact I|]. split; [split; [exact X|constructor]|].
    assert (P : plain mn (f_name f) G) by (apply plain_cons; [right; cbn; tauto|apply plain_nil]).
    destruct (match m with Some m => getb (m_required m) | None => false end); [|split; [exact I|constructor]].
    apply fail_block. split; [|split; [cbn; discriminate|discriminate]].
    unfold pkg_ref. cbn [err es_msg here cx_msg]. now rewrite (plain_err _ _ _ _ mn_exp P).
  - split; reflexivity.
  - intros s ->. discriminate O.
Qed.

Lemma small_nodup : (forall q, fr_typ (f_rules f) <> Some (RMap q)) -> NoDup (map fst (field_decls mn f)).
Proof using.
  clear. intros N.
  assert (E1 : nm "InLookup" <> nm "NotInLookup") by (intros E; apply lookup_inj in E; [destruct E; discriminate|reflexivity|reflexivity]).
  assert (E2 : nm "InLookup" <> nm "Pattern") by (intros E; apply lookup_inj in E; [destruct E; discriminate|reflexivity|reflexivity]).
  assert (E3 : nm "NotInLookup" <> nm "Pattern") by (intros E; apply lookup_inj in E; [destruct E; discriminate|reflexivity|reflexivity]).
  assert (D : forall A B (l : list A) (l' : list B) d d', NoDup (map fst (app (decl_if l (nm "InLookup") d) (decl_if l' (nm "NotInLookup") d')))).
  { intros A B l l' d d'. destruct l, l'; cbn [decl_if app map fst]; repeat (apply NoDup_nil || apply NoDup_cons); cbn [In]; intuition congruence. }
  unfold field_decls. destruct (fr_typ (f_rules f)) as [[]|]; try apply D; try apply NoDup_nil.
  - destruct (s_in r), (s_not_in r), (s_pattern r); cbn [decl_if decl_opt app map fst]; repeat (apply NoDup_nil || apply NoDup_cons); cbn [In]; intuition congruence.
  - destruct (b_in r), (b_not_in r), (b_pattern r); cbn [decl_if decl_opt app map fst]; repeat (apply NoDup_nil || apply NoDup_cons); cbn [In]; intuition congruence.
  - destruct (r_items r) as [[m [[]|]]|]; cbn [str_rules_of enum_rules_of app]; try apply D; try apply NoDup_nil.
    rewrite app_nil_r.
    destruct (s_in r0), (s_not_in r0), (s_pattern r0); cbn [decl_if decl_opt app map fst]; repeat (apply NoDup_nil || apply NoDup_cons); cbn [In]; intuition congruence.
  - now contradiction (N r).
Qed.

Lemma bare_fit m : f_rules f = FR m None -> stmt_ok [] (field_tpl mn f).
Proof using mn_exp mn_err getter keys.
  intros FR0. pose proof top_ctx as TC.
  unfold field_tpl. cbv zeta. change (mkCtx mn (f_name f) (f_type f) (AField (f_name f)) None) with top.
  rewrite FR0. destruct (f_type f) as [e|e|k v] eqn:T in |- *; rewrite T in TC; cbn [go_ftype] in TC.
  - destruct (is_embed e) eqn:E; [|exact I]. apply message_tpl_ok; [|reflexivity].
    replace (GPtr e) with (go_type e); [exact TC|destruct e; try discriminate E; reflexivity].
  - unfold rep_tpl. cbn [r_unique r_items r_min r_max r_ignore_empty getb guarded orb negb elem_none].
    split; [exact I|]. rewrite negb_involutive.
    destruct (is_embed e) eqn:E; [|exact I].
    change (mkCtx (cx_msg top) (cx_field top) (cx_ftype top) (AVar "item") (Some "idx")) with (here (AVar "item") (Some "idx")).
    cbn [GoType.stmt_ok GoType.acc_ty declares cx_acc here app]. rewrite elem_declares. exists e. split; [rewrite getter, T; reflexivity|].
    split; [|constructor]. split; [exact I|]. apply elem_none_ok; [|exact I]. split; [|auto]. constructor; auto.
    + apply plain_cons; [right; cbn; tauto|]. apply plain_cons; [right; cbn; tauto|]. apply plain_nil.
    + cbn. intros x [= <-]. split; auto. cbn. discriminate.
  - destruct (is_embed v) eqn:E; [|exact I].
    assert (KN : is_embed k = false) by (pose proof (keys k v T) as MK; destruct k; try discriminate MK; reflexivity).
    unfold map_tpl. cbn [p_no_sparse p_keys p_values p_min p_max p_ignore_empty getb guarded orb negb elem_none].
    rewrite E, KN. cbn [negb orb]. split; [exact I|].
    change (mkCtx (cx_msg top) (cx_field top) (cx_ftype top) (AVar "key") (Some "key")) with (here (AVar "key") (Some "key")).
    change (mkCtx (cx_msg top) (cx_field top) (cx_ftype top) (AVar "val") (Some "key")) with (here (AVar "val") (Some "key")).
    cbn [GoType.stmt_ok GoType.acc_ty declares cx_acc here app]. rewrite !elem_declares. exists k, v. split; [rewrite getter, T; reflexivity|].
    split; [cbn [uses elem_tpl]; rewrite E, KN, key_message by reflexivity; reflexivity|].
    split; [|constructor]. split; [exact I|].
    assert (P : plain mn (f_name f) [("val", LVar (go_type v)); ("key", LVar (go_type k))]).
    { apply plain_cons; [right; cbn; tauto|]. apply plain_cons; [right; cbn; tauto|]. apply plain_nil. }
    split; (apply elem_none_ok; [|exact I]; split; [|auto]; constructor; auto); cbn; intros x [= <-]; split; auto; cbn; discriminate.
Qed.

Lemma other_fit uuid r : fr_typ (f_rules f) = Some r -> rule_checked r ->
  match r with RAny _ | RDuration _ | RTimestamp _ => True | _ => False end ->
  (exists e, f_type f = FRep e) \/ (exists k v, f_type f = FMap k v) ->
  (decls_fit /\ stmt_ok [] (leaf_tpl top r) /\ NoDup (map fst (field_decls mn f)) /\
     (field_needs FUuid f = true -> uuid = true) <-> leaf_fit uuid PTop false (go_ftype (f_type f)) r).
Proof using mn_exp mn_err getter tabs.
  intros RT K R T. pose proof top_ctx as TC.
  assert (SN : NoDup (map fst (field_decls mn f))) by (apply small_nodup; rewrite RT; intros q [= ->]; contradiction).
  assert (N : field_needs FUuid f = false).
  { unfold field_needs. destruct T as [[e ->]|(k & v & ->)]; rewrite RT; destruct r; try contradiction; try reflexivity; destruct e; reflexivity. }
  rewrite N, (leaf_iff fields decls enums helpers [] top _ r TC); auto; try (intros s ->; contradiction); try (split; reflexivity);
    try (destruct r; try contradiction; exact I).
  assert (X : false = true -> uuid = true) by discriminate.
  destruct r; try contradiction; cbn [leaf_fit].
  - rewrite <- (any_at decls mn f tabs top r eq_refl eq_refl RT). tauto.
  - rewrite <- (dur_at decls mn f tabs top r eq_refl eq_refl RT). tauto.
  - rewrite <- (ts_at decls mn f top r RT). tauto.
Qed.

Theorem field_iff uuid :
  (decls_fit /\ stmt_ok [] (field_tpl mn f) /\ NoDup (map fst (field_decls mn f)) /\
     (field_needs FUuid f = true -> uuid = true) <-> field_fit uuid f).
Proof using checked mn_exp mn_err getter tabs enum_in typed keys helped.
  pose proof (rep_fit uuid) as RF. pose proof (map_fit uuid) as MF.
  pose proof small_nodup as SN. pose proof top_ctx as TC. pose proof bare_fit as BF.
  unfold field_fit.
  destruct (f_rules f) as [m [r|]] eqn:FR0 in |- *; cbn [fr_typ].
  2: { split; [intros; exact I|]. intros _.
    assert (D : field_decls mn f = []) by (unfold field_decls; rewrite FR0; reflexivity).
    assert (N : field_needs FUuid f = false).
    { unfold field_needs. rewrite FR0. cbn. destruct (f_type f) as [[| | | |?|?|[]| | |]|[]|[]]; try reflexivity; destruct v; reflexivity. }
    rewrite D, N. unfold GoDeclFacts.decls_fit. rewrite D. split; [constructor|].
    split; [exact (BF m FR0)|split; [constructor|discriminate]]. }
  assert (RT : fr_typ (f_rules f) = Some r) by (rewrite FR0; reflexivity).
  assert (FT : field_tpl mn f =
    match r with
    | RRepeated q => match f_type f with FRep e => rep_tpl top e q | _ => SBad end
    | RMap q => match f_type f with FMap k v => map_tpl top k v q | _ => SBad end
    | _ => match f_type f with
           | FOne e => if is_wrappable r && is_embed e then wrapper_tpl top m r else leaf_tpl top r
           | _ => leaf_tpl top r
           end
    end) by (unfold field_tpl; rewrite FR0; destruct r; reflexivity).
  assert (CK := checked). rewrite FR0 in CK. assert (TY := typed). rewrite FR0 in TY. unfold rules_typed in TY. cbn in TY.
  destruct (f_type f) as [e|e|k v] eqn:T in |- *; rewrite T in TC, CK, FT.
  - destruct (elem_checked re_ok sc0 (CField (FOne e)) e fr0 m r (or_intror eq_refl) CK) as [K A].
    assert (W : rule_typed r) by (destruct r; auto; contradiction).
    assert (HS : forall s, r = RString s -> wk_helpers helpers s).
    { intros s -> h Hh. apply helped. unfold field_needs. rewrite T, FR0. destruct A as [-> | ->]; exact Hh. }
    assert (HE : forall s, r = REnum s -> In (enum_name (f_type f)) enums).
    { intros s ->. destruct A as [n ->]. rewrite T. cbn. apply enum_in. auto. }
    assert (FT' : field_tpl mn f = if on_wrapped e r then wrapper_tpl top m r else leaf_tpl top r).
    { rewrite FT, <- (wrappable_on e r A). destruct r; auto; contradiction. }
    rewrite FT'. clear FT FT' RF MF BF.
    assert (SN' : NoDup (map fst (field_decls mn f))).
    { apply SN. intros q Hq. rewrite RT in Hq. injection Hq as ->. contradiction. }
    assert (FF : match r with RRepeated _ | RMap _ => elem_fit uuid PTop e (Some (FR m (Some r))) | _ => elem_fit uuid PTop e (Some (FR m (Some r))) end <->
       leaf_fit uuid PTop (on_wrapped e r) (go_type e) r).
    { cbn [elem_fit]. destruct r; destruct (on_wrapped _ _); tauto. }
    assert (TO := fun c => top_one decls mn f tabs uuid e r c T RT K A W).
    assert (ST : exists c, cx_msg c = mn /\ cx_field c = f_name f /\
      (stmt_ok [] (if on_wrapped e r then wrapper_tpl top m r else leaf_tpl top r) <->
       leaf_stmt c (if on_wrapped e r then go_type (unwrapped e) else go_type e) r)).
    { destruct (on_wrapped e r) eqn:O.
      - eexists. split; [|split]; [..|apply (wrapper_fit e m r T K A W O HS)]; reflexivity.
      - exists top. split; [reflexivity|split; [reflexivity|]]. cbn [go_ftype] in TC.
        apply (leaf_iff fields decls enums helpers [] top _ r TC); auto; [apply top_plain|apply at_typed; auto]. }
    destruct ST as (c & C1 & C2 & ST). rewrite ST. specialize (TO c C1 C2).
    cbn [elem_fit] in *.
    transitivity (leaf_fit uuid PTop (on_wrapped e r) (go_type e) r); [rewrite <- TO; tauto|].
    symmetry. destruct r; exact FF || contradiction.
  - assert (OC := other_checked re_ok sc0 (FRep e) fr0 m r (or_introl (ex_intro _ e eq_refl)) CK).
    destruct r; try contradiction.
    + rewrite FT. rewrite <- (RF e r T RT). assert (SN' : NoDup (map fst (field_decls mn f))) by (apply SN; rewrite RT; discriminate). tauto.
    + destruct OC as (k & v & X & _). discriminate X.
    + rewrite FT, <- T. apply other_fit; auto. left. eauto.
    + rewrite FT, <- T. apply other_fit; auto. left. eauto.
    + rewrite FT, <- T. apply other_fit; auto. left. eauto.
  - assert (OC := other_checked re_ok sc0 (FMap k v) fr0 m r (or_intror (ex_intro _ k (ex_intro _ v eq_refl))) CK).
    destruct r; try contradiction.
    + destruct OC as (e & X & _). discriminate X.
    + rewrite FT. apply (MF k v r T RT).
    + rewrite FT, <- T. apply other_fit; auto. right. eauto.
    + rewrite FT, <- T. apply other_fit; auto. right. eauto.
    + rewrite FT, <- T. apply other_fit; auto. right. eauto.
Qed.
End Field.

(** * Names of a package *)

Lemma chunk_names mn f x v : In (x, v) (field_decls mn f) -> exists k, table k /\ x = lookup_name mn (f_name f) k.
Proof.
  assert (DI : forall A (l : list A) k d, table k -> In (x, v) (decl_if l (lookup_name mn (f_name f) k) d) ->
    exists k, table k /\ x = lookup_name mn (f_name f) k).
  { intros A [|] k d K; cbn; [intros []|]. intros [[= <- _]|[]]. eauto. }
  assert (DO : forall o, In (x, v) (decl_opt o (lookup_name mn (f_name f) "Pattern")) ->
    exists k, table k /\ x = lookup_name mn (f_name f) k).
  { intros [|]; cbn; [|intros []]. intros [[= <- _]|[]]. exists "Pattern". split; auto. unfold table. auto. }
  unfold field_decls. intros H.
  assert (T1 : table "InLookup") by (unfold table; auto). assert (T2 : table "NotInLookup") by (unfold table; auto).
  destruct (fr_typ (f_rules f)) as [[]|]; rewrite ?in_app_iff in H; try contradiction;
    try (repeat (destruct H as [H|H]); eauto; fail).
  - destruct (str_rules_of (r_items r)), (enum_rules_of (r_items r)); rewrite ?in_app_iff in H;
      repeat (destruct H as [H|H]); eauto; contradiction.
  - destruct (str_rules_of (p_keys r)), (str_rules_of (p_values r)); rewrite ?in_app_iff in H;
      repeat (destruct H as [H|H]); eauto; contradiction.
Qed.

Lemma field_declares mn f :
  declares (field_tpl mn f) = [] \/ declares (field_tpl mn f) = [lookup_name mn (f_name f) "Unique"].
Proof.
  assert (R : forall c e q, declares (rep_tpl c e q) = [] \/ declares (rep_tpl c e q) = [lookup c "Unique"]).
  { intros c e q. unfold rep_tpl. destruct (getb (r_ignore_empty q)); [left; reflexivity|]. cbn [guarded declares].
    rewrite count_declares. cbn [app]. destruct (getb (r_unique q)); [right|left]; destruct (_ || _); reflexivity. }
  assert (M : forall c k v q, declares (map_tpl c k v q) = []).
  { intros c k v q. unfold map_tpl. destruct (getb (p_ignore_empty q)); [reflexivity|]. cbn [guarded declares].
    rewrite count_declares. destruct (_ || _); reflexivity. }
  unfold field_tpl. destruct (f_rules f) as [m [r|]].
  - destruct r; try (left; destruct (f_type f) as [e| |]; try destruct (_ && _); rewrite ?wrapper_declares, ?leaf_declares; reflexivity).
    + destruct (f_type f); try (left; reflexivity). apply R.
    + left. destruct (f_type f); try reflexivity. apply M.
  - destruct (f_type f) as [e|e|k v].
    + left. destruct (is_embed e); rewrite ?message_declares; reflexivity.
    + apply R.
    + left. destruct (is_embed v); auto.
Qed.

(** Lists of lists whose members tell where they come from. *)
Lemma NoDup_app_iff {A} (l m : list A) : NoDup (app l m) <-> NoDup l /\ NoDup m /\ (forall x, In x l -> ~ In x m).
Proof.
  induction l as [|a l IH]; cbn.
  - split; [intros H; split; [constructor|split; auto]|tauto].
  - rewrite !NoDup_cons_iff, IH, in_app_iff. split.
    + intros (N & A1 & A2 & A3). split; [split; auto|]. split; auto. intros x [->|Hx]; auto.
    + intros ((N & A1) & A2 & A3). split; [intros [H|H]; auto; apply (A3 a); auto|]. split; auto.
Qed.

Lemma NoDup_tagged {A B K} (key : A -> K) (g : A -> list B) (tag : B -> K -> Prop) (l : list A) :
  NoDup (map key l) -> (forall x y, In x l -> In y (g x) -> tag y (key x)) -> (forall y k k', tag y k -> tag y k' -> k = k') ->
  (NoDup (flat_map g l) <-> (forall x, In x l -> NoDup (g x))).
Proof.
  intros N T U. induction l as [|x l IH]; [cbn; split; [intros _ x []|constructor]|].
  cbn [map] in N. apply NoDup_cons_iff in N. destruct N as [N1 N2]. cbn [flat_map]. rewrite NoDup_app_iff, IH; auto.
  2: { intros x' y Hx. apply T. now right. }
  split.
  - intros (A1 & A2 & _) x' [<-|Hx]; auto.
  - intros H. split; [apply H; now left|]. split; [intros x' Hx; apply H; now right|].
    intros y Hy Hy'. apply in_flat_map in Hy'. destruct Hy' as (x' & Hx' & Hy').
    apply N1. assert (E : key x = key x') by (apply (U y); apply T; auto; [now left|now right]).
    rewrite E. now apply in_map.
Qed.

Section Package.
Variable re_ok : bytes -> bool.
Variable sc0 sc : schema.
Hypothesis pk : package re_ok sc0 sc.

Definition pairs : list (msgdesc * field) :=
  flat_map (fun d => map (fun f => (d, f)) (all_fields d)) (filter has_methods (sc_msgs sc)).
Definition path (p : msgdesc * field) : string := md_name (fst p) ++ "_" ++ f_name (snd p).
Definition chunk (p : msgdesc * field) : list (string * pkgvar) := field_decls (md_name (fst p)) (snd p).

Lemma in_pairs d f : In (d, f) pairs <-> In d (sc_msgs sc) /\ has_methods d = true /\ In f (all_fields d).
Proof using.
  clear. unfold pairs. rewrite in_flat_map. split.
  - intros (d' & Hd & H). apply in_map_iff in H. destruct H as (f' & [= -> ->] & Hf). apply filter_In in Hd. tauto.
  - intros (H1 & H2 & H3). exists d. split; [apply filter_In; auto|]. apply in_map. auto.
Qed.

Lemma paths_pairs : paths sc = map path pairs.
Proof using.
  clear. unfold paths, pairs. induction (filter has_methods (sc_msgs sc)) as [|d l IH]; auto.
  cbn [flat_map]. rewrite map_app, <- IH. f_equal. rewrite map_map. reflexivity.
Qed.

Lemma path_nodup : NoDup (map path pairs).
Proof using pk. rewrite <- paths_pairs. apply (pk_paths _ _ _ pk). Qed.

Lemma path_inj p q : In p pairs -> In q pairs -> path p = path q -> p = q.
Proof using pk.
  pose proof path_nodup as N. revert N. clear. generalize pairs. intros l. induction l as [|a l IH]; cbn; [intros _ []|].
  rewrite NoDup_cons_iff. intros [N1 N2] [->|H1] [->|H2] E; auto.
  - elim N1. rewrite E. now apply in_map.
  - elim N1. rewrite <- E. now apply in_map.
Qed.

Definition types_of (d : msgdesc) : list (string * pkgvar) :=
  [(multi_err_name (md_name d), DType); (err_name (md_name d), DType)].

Lemma in_decls x v : In (x, v) (pkg_decls sc) <->
  (exists d, In d (sc_msgs sc) /\ has_methods d = true /\ In (x, v) (types_of d)) \/
  (exists p, In p pairs /\ In (x, v) (chunk p)).
Proof using.
  clear. unfold pkg_decls. rewrite in_flat_map. split.
  - intros (d & Hd & H). apply filter_In in Hd. destruct Hd as [Hd Hm].
    change (mc_decls (msg_tpl d)) with (app (types_of d) (flat_map (field_decls (md_name d)) (all_fields d))) in H.
    apply in_app_iff in H. destruct H as [H|H]; [left; eauto|right].
    apply in_flat_map in H. destruct H as (f & Hf & H). exists (d, f). split; [apply in_pairs; auto|exact H].
  - intros [(d & Hd & Hm & H)|([d f] & Hp & H)].
    + exists d. split; [apply filter_In; auto|].
      change (mc_decls (msg_tpl d)) with (app (types_of d) (flat_map (field_decls (md_name d)) (all_fields d))).
      apply in_app_iff. auto.
    + apply in_pairs in Hp. destruct Hp as (Hd & Hm & Hf). exists d. split; [apply filter_In; auto|].
      change (mc_decls (msg_tpl d)) with (app (types_of d) (flat_map (field_decls (md_name d)) (all_fields d))).
      apply in_app_iff. right. apply in_flat_map. exists f. auto.
Qed.

Lemma lookup_under mn fn k : ~ exported (lookup_name mn fn k).
Proof using. clear. unfold lookup_name. cbn. auto. Qed.

Lemma types_exported d x v : In d (sc_msgs sc) -> has_methods d = true -> In (x, v) (types_of d) -> exported x /\ v = DType.
Proof using pk.
  intros Hd Hm H. assert (E := pk_exported _ _ _ pk). unfold type_names in E. rewrite !Forall_app in E. destruct E as (_ & _ & E).
  rewrite Forall_forall in E.
  assert (X : forall y, In y [md_name d ++ "MultiError"; md_name d ++ "ValidationError"] -> exported y).
  { intros y Hy. apply E. apply in_flat_map. exists d. split; [apply filter_In; auto|exact Hy]. }
  destruct H as [[= <- <-]|[[= <- <-]|[]]]; (split; [apply X; cbn; auto|reflexivity]).
Qed.

Lemma msg_exported d : In d (sc_msgs sc) -> exported (md_name d).
Proof using pk.
  intros Hd. assert (E := pk_exported _ _ _ pk). unfold type_names in E. rewrite !Forall_app in E. destruct E as (E & _ & _).
  rewrite Forall_forall in E. apply E, in_map, Hd.
Qed.

Lemma assoc_some_in {A} x (l : list (string * A)) : In x (map fst l) -> exists v, assoc x l = Some v /\ In (x, v) l.
Proof using.
  clear. induction l as [|[y w] l IH]; cbn; [intros []|]. destruct (String.eqb_spec x y) as [->|N].
  - intros _. exists w. auto.
  - intros [E|H]; [now contradiction N|]. destruct (IH H) as (v & A1 & A2). exists v. auto.
Qed.

Lemma err_declared d : In d (sc_msgs sc) -> has_methods d = true ->
  assoc (md_name d ++ "ValidationError") (pkg_decls sc) = Some DType.
Proof using pk.
  intros Hd Hm.
  assert (I : In (md_name d ++ "ValidationError", DType) (pkg_decls sc)).
  { apply in_decls. left. exists d. split; auto. split; auto. right. left. reflexivity. }
  assert (EX : exported (md_name d ++ "ValidationError")) by (apply (types_exported d _ DType Hd Hm); right; left; reflexivity).
  destruct (assoc_some_in (md_name d ++ "ValidationError") (pkg_decls sc)) as (v & A1 & A2).
  { apply in_map_iff. exists (md_name d ++ "ValidationError", DType). auto. }
  rewrite A1. apply in_decls in A2. destruct A2 as [(d' & Hd' & Hm' & H)|(p & Hp & H)].
  - apply types_exported in H; auto. destruct H as [_ ->]. reflexivity.
  - apply chunk_names in H. destruct H as (k & _ & H). rewrite H in EX. now apply lookup_under in EX.
Qed.

Lemma assoc_flat {A B} x (g : A -> list (string * B)) l a : In a l ->
  (forall b, In b l -> In x (map fst (g b)) -> b = a) -> assoc x (flat_map g l) = assoc x (g a).
Proof using.
  clear. intros Ha U. destruct (in_dec string_dec x (map fst (g a))) as [I|N].
  - induction l as [|b l IH]; [contradiction|]. cbn [flat_map]. rewrite assoc_app.
    destruct (in_dec string_dec x (map fst (g b))) as [I'|N'].
    + rewrite (U b (or_introl eq_refl) I'). destruct (assoc_some_in x (g a) I) as (v & -> & _). reflexivity.
    + rewrite (proj2 (assoc_None x (g b)) N'). apply IH; [|intros b' Hb'; apply U; now right].
      destruct Ha as [->|Ha]; auto. contradiction.
  - rewrite (proj2 (assoc_None x (g a)) N). apply assoc_None. intros H. apply in_map_iff in H. destruct H as ((y & v) & <- & H).
    apply in_flat_map in H. destruct H as (b & Hb & H). cbn [fst] in *.
    assert (X : In y (map fst (g b))) by (apply in_map_iff; exists (y, v); auto).
    apply N. rewrite <- (U b Hb X). exact X.
Qed.

(** Tables of a field are declared by that field. *)
Lemma tab_here d f k : In d (sc_msgs sc) -> has_methods d = true -> In f (all_fields d) -> table k ->
  assoc (lookup_name (md_name d) (f_name f) k) (pkg_decls sc) =
  assoc (lookup_name (md_name d) (f_name f) k) (field_decls (md_name d) f).
Proof using pk.
  intros Hd Hm Hf K. set (x := lookup_name (md_name d) (f_name f) k).
  assert (KU : forall k, table k -> no_us k = true) by (intros k' [->|[->| ->]]; reflexivity).
  assert (P : forall d' f' v, In d' (sc_msgs sc) -> has_methods d' = true -> In f' (all_fields d') ->
    In (x, v) (field_decls (md_name d') f') -> d' = d /\ f' = f).
  { intros d' f' v Hd' Hm' Hf' H. apply chunk_names in H. destruct H as (k' & K' & E). unfold x in E.
    apply lookup_inj in E; auto. destruct E as [E _].
    assert (P : (d, f) = (d', f')) by (apply path_inj; [apply in_pairs; auto|apply in_pairs; auto|exact E]).
    injection P as <- <-. auto. }
  assert (TN : forall d', In d' (sc_msgs sc) -> has_methods d' = true -> ~ In x (map fst (types_of d'))).
  { intros d' Hd' Hm' H. apply in_map_iff in H. destruct H as ((y & v) & E & H). cbn [fst] in E. subst y.
    apply types_exported in H; auto. destruct H as [H _]. now apply lookup_under in H. }
  unfold pkg_decls. rewrite (assoc_flat x _ _ d).
  - change (mc_decls (msg_tpl d)) with (app (types_of d) (flat_map (field_decls (md_name d)) (all_fields d))).
    rewrite assoc_app, (proj2 (assoc_None x (types_of d)) (TN d Hd Hm)).
    apply assoc_flat; auto. intros f' Hf' H. apply in_map_iff in H. destruct H as ((y & v) & E & H). cbn [fst] in E. subst y.
    now apply P in H.
  - apply filter_In. auto.
  - intros d' Hd' H. apply filter_In in Hd'. destruct Hd' as [Hd' Hm'].
    change (mc_decls (msg_tpl d')) with (app (types_of d') (flat_map (field_decls (md_name d')) (all_fields d'))) in H.
    rewrite map_app, in_app_iff in H. destruct H as [H|H]; [now apply TN in H|].
    apply in_map_iff in H. destruct H as ((y & v) & E & H). cbn [fst] in E. subst y.
    apply in_flat_map in H. destruct H as (f' & Hf' & H). now apply P in H.
Qed.

Lemma chunk_tag p y : In y (map fst (chunk p)) -> exists k, table k /\ y = "_" ++ path p ++ "_" ++ k.
Proof using.
  clear. intros H. apply in_map_iff in H. destruct H as ((x & v) & <- & H). apply chunk_names in H.
  destruct H as (k & K & ->). exists k. split; auto. unfold path. cbn [fst snd]. rewrite lookup_name_eq. cbn. f_equal.
Qed.

Lemma decls_perm : Permutation (map fst (pkg_decls sc))
  (app (flat_map (fun d => [md_name d ++ "MultiError"; md_name d ++ "ValidationError"]) (filter has_methods (sc_msgs sc)))
       (flat_map (fun p => map fst (chunk p)) pairs)).
Proof using.
  clear. unfold pkg_decls, pairs. induction (filter has_methods (sc_msgs sc)) as [|d l IH]; [constructor|].
  cbn [flat_map]. rewrite map_app, flat_map_app, IH.
  change (mc_decls (msg_tpl d)) with (app (types_of d) (flat_map (field_decls (md_name d)) (all_fields d))).
  rewrite map_app. change (map fst (types_of d)) with [md_name d ++ "MultiError"; md_name d ++ "ValidationError"].
  assert (E : map fst (flat_map (field_decls (md_name d)) (all_fields d)) =
    flat_map (fun p => map fst (chunk p)) (map (fun f => (d, f)) (all_fields d))).
  { generalize (all_fields d). intros fs. induction fs as [|f fs IHf]; auto. cbn [flat_map map]. now rewrite map_app, IHf. }
  rewrite E. rewrite <- !app_assoc. apply Permutation_app_head. rewrite !app_assoc. apply Permutation_app_tail, Permutation_app_comm.
Qed.

Lemma names_iff : NoDup (package_names sc) <->
  (forall d f, In d (sc_msgs sc) -> has_methods d = true -> In f (all_fields d) -> NoDup (map fst (field_decls (md_name d) f))).
Proof using pk.
  assert (P : Permutation (package_names sc) (app (type_names sc) (flat_map (fun p => map fst (chunk p)) pairs))).
  { unfold package_names, type_names. rewrite decls_perm, <- !app_assoc. apply Permutation_refl. }
  transitivity (NoDup (app (type_names sc) (flat_map (fun p => map fst (chunk p)) pairs))).
  { split; apply Permutation_NoDup; [exact P|apply Permutation_sym, P]. }
  rewrite NoDup_app_iff.
  assert (D : forall x, In x (type_names sc) -> ~ In x (flat_map (fun p => map fst (chunk p)) pairs)).
  { intros x Hx H. apply in_flat_map in H. destruct H as (p & _ & H). apply chunk_tag in H. destruct H as (k & _ & ->).
    assert (E := pk_exported _ _ _ pk). rewrite Forall_forall in E. apply E in Hx. cbn in Hx. auto. }
  assert (T := pk_types _ _ _ pk).
  rewrite (NoDup_tagged path (fun p => map fst (chunk p)) (fun y q => exists k, table k /\ y = "_" ++ q ++ "_" ++ k) pairs).
  - split.
    + intros (_ & H & _) d f Hd Hm Hf. apply (H (d, f)). apply in_pairs. auto.
    + intros H. split; auto. split; auto. intros [d f] Hp. apply in_pairs in Hp. apply H; tauto.
  - apply path_nodup.
  - intros p y _ Hy. now apply chunk_tag.
  - intros y q q' (k & K & ->) (k' & K' & E). cbn in E. injection E as E.
    apply last_us in E; [destruct E; congruence| |]; [destruct K as [->|[->| ->]]|destruct K' as [->|[->| ->]]]; reflexivity.
Qed.

Lemma decls_iff : Forall (fun p => decl_ok (snd p)) (pkg_decls sc) <->
  (forall d f, In d (sc_msgs sc) -> has_methods d = true -> In f (all_fields d) -> decls_fit (md_name d) f).
Proof using.
  clear. unfold decls_fit. rewrite Forall_forall. split.
  - intros H d f Hd Hm Hf. apply Forall_forall. intros [x v] Hx. apply H, in_decls. right. exists (d, f).
    split; [apply in_pairs; auto|exact Hx].
  - intros H [x v] Hx. apply in_decls in Hx. destruct Hx as [(d & Hd & Hm & Hx)|([d f] & Hp & Hx)].
    + destruct Hx as [[= <- <-]|[[= <- <-]|[]]]; exact I.
    + apply in_pairs in Hp. destruct Hp as (Hd & Hm & Hf). specialize (H d f Hd Hm Hf). rewrite Forall_forall in H.
      exact (H (x, v) Hx).
Qed.

(** * Messages *)

Lemma fields_checked d0 d : md_disabled d0 = false -> check_msg re_ok sc0 d0 = Some d ->
  Forall2 (fun f0 f => check_field re_ok sc0 f0 = Some f) (all_fields d0) (all_fields d).
Proof using.
  clear. intros Hd C. destruct (check_msg_parts _ _ _ _ Hd C) as [F O]. unfold all_fields. apply Forall2_app; auto.
  induction O as [|o0 o l0 l H _ IH]; [constructor|]. cbn [flat_map]. apply Forall2_app; auto.
  unfold check_oneof in H. destruct (map_opt (check_field re_ok sc0) (o_fields o0)) eqn:E; [|discriminate]. injection H as <-.
  now apply map_opt_forall2.
Qed.

Lemma forall2_in_r {A B} (R : A -> B -> Prop) l m y : Forall2 R l m -> In y m -> exists x, In x l /\ R x y.
Proof using.
  clear. intros H. induction H as [|a b l m H _ IH]; [intros []|]. intros [->|Hy]; [exists a; cbn; auto|].
  destruct (IH Hy) as (x & A1 & A2). exists x. cbn. auto.
Qed.

Lemma msg_from d : In d (sc_msgs sc) -> exists d0, In d0 (sc_msgs sc0) /\ check_msg re_ok sc0 d0 = Some d.
Proof using pk. intros Hd. apply (forall2_in_r _ _ _ _ (proj1 (ck_msgs _ _ _ (pk_checked _ _ _ pk))) Hd). Qed.

Lemma field_names d : In d (sc_msgs sc) -> NoDup (map f_name (all_fields d)).
Proof using pk.
  intros Hd. destruct (msg_from d Hd) as (d0 & Hd0 & C). destruct (pk_wf _ _ _ pk d0 Hd0) as [[N _] _].
  destruct (md_disabled d0) eqn:E.
  - unfold check_msg in C. rewrite E in C. injection C as <-. exact N.
  - assert (F := fields_checked d0 d E C).
    replace (map f_name (all_fields d)) with (map f_name (all_fields d0)); auto.
    clear - F. induction F as [|f0 f l0 l H _ IH]; auto. cbn. rewrite IH. f_equal. destruct (check_field_name _ _ _ _ H). auto.
Qed.

Lemma field_from d f : In d (sc_msgs sc) -> md_disabled d = false -> In f (all_fields d) ->
  (exists fr0, check_fr re_ok sc0 (CField (f_type f)) fr0 = Some (f_rules f)) /\
  (forall k v, f_type f = FMap k v -> map_key k = true).
Proof using pk.
  intros Hd E Hf. destruct (msg_from d Hd) as (d0 & Hd0 & C). destruct (pk_wf _ _ _ pk d0 Hd0) as [_ W].
  destruct (check_msg_name _ _ _ _ C) as (_ & _ & E'). rewrite E in E'.
  destruct (forall2_in_r _ _ _ _ (fields_checked d0 d (eq_sym E') C) Hf) as (f0 & Hf0 & H).
  destruct (check_field_name _ _ _ _ H) as [N T]. split.
  - unfold check_field in H. apply guard_some in H. destruct H as [_ H].
    destruct (check_fr re_ok sc0 (CField (f_type f0)) (f_rules f0)) as [fr|] eqn:F; [|discriminate]. injection H as <-.
    exists (f_rules f0). exact F.
  - intros k v E2. specialize (W f0 Hf0). rewrite <- T, E2 in W. apply W.
Qed.

Lemma needs_known h f : field_needs h f = true -> In h [FHostname; FEmail; FUuid].
Proof using.
  clear. intros Hh.
  assert (S : forall fr, str_needs fr h = true -> In h [FHostname; FEmail; FUuid]).
  { intros fr. unfold str_needs. destruct fr as [[mr [[]|]]|]; try discriminate.
    destruct h; cbn; auto; try discriminate; destruct (s_wk r) as [[]|]; discriminate. }
  unfold field_needs in Hh. destruct (f_type f) as [[]|[]|k v]; try discriminate; eauto.
  - destruct w; try discriminate; eauto.
  - destruct (fr_typ _) as [[]|]; try discriminate; eauto.
  - destruct (fr_typ _) as [[]|]; try discriminate. apply orb_true_iff in Hh.
    destruct Hh as [Hh|Hh]; [destruct k|destruct v]; try discriminate; eauto.
Qed.

Lemma in_helpers d h : In h (mc_helpers (msg_tpl d)) <-> exists f, In f (all_fields d) /\ field_needs h f = true.
Proof using.
  clear. cbn [msg_tpl mc_helpers]. rewrite filter_In. unfold needs. rewrite existsb_exists. split; [tauto|].
  intros H. split; auto. destruct H as (f & _ & H). now apply needs_known in H.
Qed.

Lemma email_hostname f : field_needs FEmail f = true -> field_needs FHostname f = true.
Proof using.
  clear. assert (S : forall fr, str_needs fr FEmail = true -> str_needs fr FHostname = true).
  { intros fr. unfold str_needs. destruct fr as [[mr [[]|]]|]; try discriminate. destruct (s_wk r) as [[]|]; auto; discriminate. }
  unfold field_needs. destruct (f_type f) as [[]|[]|k v]; try discriminate; auto.
  - destruct w; try discriminate; auto.
  - destruct (fr_typ _) as [[]|]; try discriminate; auto.
  - destruct (fr_typ _) as [[]|]; try discriminate. rewrite !orb_true_iff.
    intros [H|H]; [left; destruct k|right; destruct v]; try discriminate; auto.
Qed.

Lemma append_cancel a b c : a ++ b = a ++ c -> b = c.
Proof using. clear. induction a as [|x a IH]; cbn; auto. intros [= H]. auto. Qed.

Lemma getter_of d f : In d (sc_msgs sc) -> In f (all_fields d) ->
  assoc (f_name f) (getters d) = Some (go_ftype (f_type f)).
Proof using pk.
  intros Hd Hf. apply assoc_in_nodup.
  - unfold getters. rewrite map_map. cbn. apply field_names, Hd.
  - unfold getters. apply in_map_iff. exists f. auto.
Qed.

Notation msg_ok d := (code_ok (getters d) (pkg_decls sc) (map en_name (sc_enums sc)) (mc_helpers (msg_tpl d))
      (file_uuid sc) (msg_tpl d)).
Notation tpl_ok d f := (stmt_ok (getters d) (pkg_decls sc) (map en_name (sc_enums sc)) (mc_helpers (msg_tpl d)) [] (field_tpl (md_name d) f)).

Lemma code_iff d : In d (sc_msgs sc) -> has_methods d = true ->
  (msg_ok d <->
   (forall f, In f (all_fields d) -> field_needs FUuid f = true -> file_uuid sc = true) /\
   (md_disabled d = false -> forall f, In f (all_fields d) -> tpl_ok d f)).
Proof using pk.
  intros Hd Hm. unfold code_ok. rewrite !in_helpers.
  assert (E : (exists f, In f (all_fields d) /\ field_needs FEmail f = true) -> (exists f, In f (all_fields d) /\ field_needs FHostname f = true)).
  { intros (f & Hf & H). exists f. split; auto. now apply email_hostname. }
  assert (B : md_disabled d = false -> (
     block_ok (getters d) (pkg_decls sc) (map en_name (sc_enums sc)) (mc_helpers (msg_tpl d)) [] (mc_body (msg_tpl d)) /\
     Forall (fun oc =>
       Forall (fun p => assoc (fst p) (getters d) <> None /\ block_ok (getters d) (pkg_decls sc) (map en_name (sc_enums sc)) (mc_helpers (msg_tpl d)) [] (snd p)) (oc_cases oc) /\
       (forall e, oc_default oc = Some e -> err_ok (pkg_decls sc) [] e)) (mc_oneofs (msg_tpl d)) <->
     (forall f, In f (all_fields d) -> tpl_ok d f))).
  { intros Hdis. cbn [msg_tpl mc_body mc_oneofs]. rewrite Hdis. unfold block_ok at 1. rewrite seq_ok, seq_declares.
    assert (ND : NoDup (flat_map declares (map (field_tpl (md_name d)) (md_fields d)))).
    { rewrite flat_map_concat_map, map_map, <- flat_map_concat_map.
      apply (NoDup_tagged f_name (fun f => declares (field_tpl (md_name d) f)) (fun y n => y = lookup_name (md_name d) n "Unique")).
      - assert (N := field_names d Hd). unfold all_fields in N. rewrite map_app in N. now apply NoDup_app_iff in N.
      - intros f y _ Hy. destruct (field_declares (md_name d) f) as [->| ->] in Hy; [destruct Hy|]. destruct Hy as [<-|[]]. reflexivity.
      - intros y n n' -> H. apply lookup_inj in H; [|reflexivity|reflexivity]. destruct H as [H _]. now apply append_cancel, append_cancel in H.
      - intros f _. destruct (field_declares (md_name d) f) as [->| ->]; repeat constructor. intros []. }
    rewrite Forall_map, !Forall_forall. split.
    - intros ((A & _) & O) f Hf. unfold all_fields in Hf. apply in_app_iff in Hf. destruct Hf as [Hf|Hf]; [auto|].
      apply in_flat_map in Hf. destruct Hf as (o & Ho & Hf).
      destruct (O (oneof_tpl (md_name d) o)) as [X _]; [now apply in_map|]. cbn [oneof_tpl oc_cases] in X.
      rewrite Forall_map, Forall_forall in X. apply (X f Hf).
    - intros A. split.
      + split; auto. intros f Hf. apply A. unfold all_fields. apply in_app_iff. auto.
      + intros oc Hoc. apply in_map_iff in Hoc. destruct Hoc as (o & <- & Ho). cbn [oneof_tpl oc_cases oc_default].
        split.
        * rewrite Forall_map, Forall_forall. intros f Hf. cbn [fst snd].
          assert (Hf' : In f (all_fields d)) by (unfold all_fields; apply in_app_iff; right; apply in_flat_map; eauto).
          rewrite (getter_of d f Hd Hf'). split; [discriminate|]. split; auto.
          destruct (field_declares (md_name d) f) as [->| ->]; repeat constructor. intros [].
        * intros e He. destruct (getb (o_required o)); [|discriminate]. injection He as <-. split; [|split; [discriminate|discriminate]].
          unfold pkg_ref. cbn [assoc es_msg]. apply err_declared; auto. }
  cbn [msg_tpl mc_disabled]. split.
  - intros (_ & U & S). split; [|intros Hdis; apply (B Hdis); auto]. intros f Hf Hn. apply U. eauto.
  - intros (U & S). split; auto. split; [intros (f & Hf & Hn); eauto|]. intros Hdis. apply (B Hdis). auto.
Qed.

Theorem compiles_iff : compiles sc <-> go_fits sc.
Proof using pk.
  assert (F : forall d f, In d (sc_msgs sc) -> has_methods d = true -> md_disabled d = false -> In f (all_fields d) ->
    (decls_fit (md_name d) f /\ tpl_ok d f /\ NoDup (map fst (field_decls (md_name d) f)) /\
     (field_needs FUuid f = true -> file_uuid sc = true) <-> field_fit (file_uuid sc) f)).
  { intros d f Hd Hm Hdis Hf. destruct (field_from d f Hd Hdis Hf) as [[fr0 C] MK].
    destruct (pk_typed _ _ _ pk d f Hd Hf) as [TY EK].
    apply (field_iff (getters d) (pkg_decls sc) (map en_name (sc_enums sc)) (mc_helpers (msg_tpl d)) re_ok sc0 (md_name d) f fr0); auto.
    - now apply msg_exported.
    - now apply err_declared.
    - now apply getter_of.
    - intros k K. now apply tab_here.
    - intros h H. apply in_helpers. eauto. }
  assert (B : forall d f, In d (sc_msgs sc) -> md_disabled d = true -> In f (all_fields d) ->
    field_decls (md_name d) f = [] /\ field_needs FUuid f = false).
  { intros d f Hd Hdis Hf. assert (N := pk_disabled _ _ _ pk d f Hd Hdis Hf). split.
    - unfold field_decls. now rewrite N.
    - unfold field_needs. destruct (f_rules f) as [m r]. cbn in N. subst r. cbn.
      destruct (f_type f) as [[| | | |?|?|[]| | |]|[]|[]]; try reflexivity; destruct v; reflexivity. }
  unfold compiles, go_fits. rewrite names_iff, decls_iff. split.
  - intros (N & D & C) d Hd Hm Hdis. apply Forall_forall. intros f Hf. apply (F d f Hd Hm Hdis Hf).
    destruct (proj1 (code_iff d Hd Hm) (C d Hd Hm)) as [U S].
    split; [exact (D d f Hd Hm Hf)|split; [exact (S Hdis f Hf)|split; [exact (N d f Hd Hm Hf)|exact (U f Hf)]]].
  - intros H. assert (H' : forall d f, In d (sc_msgs sc) -> has_methods d = true -> md_disabled d = false -> In f (all_fields d) ->
      field_fit (file_uuid sc) f).
    { intros d f Hd Hm Hdis Hf. specialize (H d Hd Hm Hdis). rewrite Forall_forall in H. auto. }
    split; [|split].
    + intros d f Hd Hm Hf. destruct (md_disabled d) eqn:E.
      * destruct (B d f Hd E Hf) as [-> _]. constructor.
      * apply (F d f Hd Hm E Hf), (H' d f Hd Hm E Hf).
    + intros d f Hd Hm Hf. destruct (md_disabled d) eqn:E.
      * unfold decls_fit. destruct (B d f Hd E Hf) as [-> _]. constructor.
      * apply (F d f Hd Hm E Hf), (H' d f Hd Hm E Hf).
    + intros d Hd Hm. apply (code_iff d Hd Hm). destruct (md_disabled d) eqn:E.
      * split; [|discriminate]. intros f Hf X. destruct (B d f Hd E Hf) as [_ Y]. congruence.
      * split; [intros f Hf|intros _ f Hf]; apply (F d f Hd Hm E Hf), (H' d f Hd Hm E Hf).
Qed.
End Package.
