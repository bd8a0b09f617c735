(** Fields, oneofs and whole messages. *)
From Coq Require Import Lia ZifyBool ZifyN ZifyNat.
From Verif Require Import Base Utf8 Num Rules Types Time Iface Checker GoIR GoGen Regex Known GoSem
  Spec Wt BaseFacts Utf8Facts NumFacts TimeFacts RegexFacts KnownFacts ExecFacts ExecLeaf ExecRule ExecField.

Lemma in_decl_if {A} (l : list A) n d : l <> [] -> In (n, d) (decl_if l n d).
Proof. destruct l; [congruence|cbn; auto]. Qed.
Lemma in_decl_opt o n p : o = Some p -> In (n, DRegex p) (decl_opt o n).
Proof. intros ->. cbn. auto. Qed.

Section Msg.
Variable sc : schema.
Variable orc : oracles.
Variable decls : list (string * pkgvar).
Variable uuidd : bool.
Variable rec : bool -> string -> msgval -> vres.
Variable hs : list callee.
Variable all : bool.
Variable m : msgval.
Variable mn : string.
Variable sc0 : schema.
Variable re_ok : bytes -> bool.
Variable sch : schema.

Notation ex := (exec sc orc decls uuidd rec hs all m).
Notation emb := (ExecFacts.emb sc rec all).
Notation runs_w := (ExecFacts.runs_w sc orc decls uuidd rec hs all m mn).
Notation describes := (ExecFacts.describes sc rec all mn).
Notation elem_env := (ExecRule.elem_env decls uuidd hs).
Notation rule_env := (ExecRule.rule_env decls uuidd hs).
Notation no_stuck := (ExecRule.no_stuck sc rec all sc0).

(** What the package provides for a field. *)
Record field_env (f : field) : Prop := mkFieldEnv {
  fe_decl : forall x d, In (x, d) (field_decls mn f) -> assoc x decls = Some d;
  fe_need : forall h, field_needs h f = true -> has_helper hs h = true;
  fe_uuid : uuidd = file_uuid sc }.

Lemma needs_wk mr r h :
  str_needs (Some (FR None (Some (RString (mkStringRules None None None None None None None None
      None None None None [] [] (s_wk r) None None))))) h = str_needs (Some (FR mr (Some (RString r)))) h.
Proof. reflexivity. Qed.

Lemma env_top f e acc ix : field_env f -> f_type f = FOne e -> elem_ok sc PTop e (f_rules f) ->
  elem_env (mkCtx mn (f_name f) (f_type f) acc ix) e (f_rules f).
Proof.
  intros [D H U] Et Hok. unfold field_decls in D. unfold field_needs in H. rewrite Et in *.
  destruct (f_rules f) as [mr [r|]]; [|exact I]. cbn [elem_ok elem_env fr_typ] in *.
  assert (W : exists w e', rule_ok sc PTop w e' r /\ (e' = e /\ w = false \/ exists k, e = TWrap k /\ e' = wrapped_type k /\ w = true) /\
     (rule_env (mkCtx mn (f_name f) (FOne e) acc ix) e' r -> match e with
      | TWrap w => rule_env (mkCtx mn (f_name f) (FOne e) acc ix) (wrapped_type w) r | _ => rule_env (mkCtx mn (f_name f) (FOne e) acc ix) e r end)).
  { destruct e; try (exists false; eexists; split; [exact Hok|split; [auto|auto]]; fail).
    destruct Hok as [_ Hok]. exists true. eexists. split; [exact Hok|]. split; [|auto]. right. eauto. }
  destruct W as (w & e' & Hr & He & Hgoal). apply Hgoal. clear Hgoal Hok.
  destruct r; cbn [rule_ok rule_env] in *; try exact I.
  - destruct e'; try contradiction. destruct Hr as [<- (W1 & W2 & W3 & W4 & W5 & W6)].
    rewrite forallb_app in W4. apply andb_true_iff in W4. destruct W4 as [W4 W7].
    split; intros Hl; eexists; (erewrite D; [|apply in_app_iff; first [left; apply in_decl_if; exact Hl|right; apply in_decl_if; exact Hl]]);
      unfold num_set; rewrite ?W4, ?W5, ?W6, ?W7; reflexivity.
  - destruct e'; try contradiction. destruct Hr as (W1 & W2 & W3 & W4 & W5).
    split; [|split; [|split]].
    + split; [|intros Hw; rewrite U; auto].
      intros h Hh. rewrite (needs_wk mr) in Hh. apply H.
      destruct He as [[<- _]|(k & -> & Hk & _)]; [exact Hh|]. destruct k; try discriminate. exact Hh.
    + intros Hl; eexists; (erewrite D; [|apply in_app_iff; left; apply in_decl_if; exact Hl]). unfold str_set. now rewrite W3.
    + intros Hl; eexists; (erewrite D; [|apply in_app_iff; right; apply in_app_iff; left; apply in_decl_if; exact Hl]). unfold str_set. now rewrite W4.
    + intros p Hp. apply D. apply in_app_iff. right. apply in_app_iff. right. now apply in_decl_opt.
  - destruct e'; try contradiction. destruct Hr as (W1 & W2 & W3 & W4 & W5 & W6).
    rewrite forallb_app in W4. apply andb_true_iff in W4. destruct W4 as [W4 W7].
    split; [|split].
    + intros Hl. destruct He as [[<- _]|(k & -> & Hk & ->)]; [|destruct W2; [auto|congruence]].
      eexists; (erewrite D; [|apply in_app_iff; left; apply in_decl_if; exact Hl]).
      unfold byt_set. cbn. now rewrite W4, W5.
    + intros Hl. destruct He as [[<- _]|(k & -> & Hk & ->)]; [|destruct W2; [auto|congruence]].
      eexists; (erewrite D; [|apply in_app_iff; right; apply in_app_iff; left; apply in_decl_if; exact Hl]).
      unfold byt_set. cbn. now rewrite W7, W6.
    + intros p Hp. apply D. apply in_app_iff. right. apply in_app_iff. right. now apply in_decl_opt.
  - destruct e'; try contradiction. destruct Hr as (W2 & W3 & W4 & W5).
    destruct He as [[<- _]|(k & -> & Hk & ->)]; [|destruct k; discriminate].
    split; [reflexivity|split].
    + intros Hl; eexists; (erewrite D; [|apply in_app_iff; left; apply in_decl_if; exact Hl]). unfold enum_set. now rewrite W3.
    + intros Hl; eexists; (erewrite D; [|apply in_app_iff; right; apply in_decl_if; exact Hl]). unfold enum_set. now rewrite W4.
  - destruct e'; try contradiction. destruct Hr as (W2 & W3 & W4). split.
    + intros Hl; eexists; (erewrite D; [|apply in_app_iff; left; apply in_decl_if; exact Hl]). unfold str_set. now rewrite W3.
    + intros Hl; eexists; (erewrite D; [|apply in_app_iff; right; apply in_decl_if; exact Hl]). unfold str_set. now rewrite W4.
  - destruct e'; try contradiction. destruct Hr as (W1 & W2 & W3 & W4). split.
    + intros Hl; eexists; (erewrite D; [|apply in_app_iff; left; apply in_decl_if; exact Hl]). unfold dur_set. now rewrite W3.
    + intros Hl; eexists; (erewrite D; [|apply in_app_iff; right; apply in_decl_if; exact Hl]). unfold dur_set. now rewrite W4.
Qed.

Lemma env_item f e mr r acc ix : field_env f -> f_type f = FRep e -> f_rules f = FR mr (Some (RRepeated r)) ->
  elem_ok sc PItem e (rules_or_none (r_items r)) ->
  elem_env (mkCtx mn (f_name f) (f_type f) acc ix) e (rules_or_none (r_items r)).
Proof.
  intros [D H U] Et Er Hok. unfold field_decls in D. unfold field_needs in H. rewrite Et, Er in *. cbn [fr_typ] in *.
  destruct (r_items r) as [[mr2 [r2|]]|]; try exact I. cbn [rules_or_none elem_ok elem_env str_rules_of enum_rules_of] in *.
  destruct e; try (destruct Hok; discriminate); destruct r2; cbn [rule_ok rule_env] in *; try contradiction; try exact I.
  - destruct Hok as [<- (W1 & W2 & W3 & W4 & W5 & W6)]. destruct W3 as [-> ->]; [discriminate|]. split; congruence.
  - destruct Hok as (W1 & W2 & W3 & W4 & W5). rewrite app_nil_r in D.
    split; [|split; [|split]].
    + split; [|intros Hw; rewrite U; auto].
      intros h Hh. rewrite (needs_wk mr2) in Hh. apply H. exact Hh.
    + intros Hl; eexists; (erewrite D; [|apply in_app_iff; right; apply in_app_iff; left; apply in_decl_if; exact Hl]). unfold str_set. now rewrite W3.
    + intros Hl; eexists; (erewrite D; [|apply in_app_iff; right; apply in_app_iff; right; apply in_decl_if; exact Hl]). unfold str_set. now rewrite W4.
    + intros p Hp. apply D. apply in_app_iff. left. now apply in_decl_opt.
  - destruct Hok as (W1 & W2 & W3 & W4 & W5 & W6).
    destruct W2 as [-> ->]; [left; discriminate|]. rewrite W3 by discriminate.
    split; [congruence|split; [congruence|discriminate]].
  - destruct Hok as (W2 & W3 & W4 & W5). split; [reflexivity|split].
    + intros Hl; eexists; (erewrite D; [|apply in_app_iff; right; apply in_app_iff; left; apply in_decl_if; exact Hl]). unfold enum_set. now rewrite W3.
    + intros Hl; eexists; (erewrite D; [|apply in_app_iff; right; apply in_app_iff; right; apply in_decl_if; exact Hl]). unfold enum_set. now rewrite W4.
  - destruct Hok as (W2 & W3 & W4). destruct W2 as [-> ->]; [discriminate|]. split; congruence.
  - destruct Hok as (W1 & W2 & W3 & W4). destruct W2 as [-> ->]; [discriminate|]. split; congruence.
Qed.

Lemma env_map f k v mr r acc ix p e o : field_env f -> f_type f = FMap k v -> f_rules f = FR mr (Some (RMap r)) ->
  map_key k = true ->
  (p = PKey /\ e = k /\ o = p_keys r \/ p = PVal /\ e = v /\ o = p_values r) ->
  elem_ok sc p e (rules_or_none o) ->
  elem_env (mkCtx mn (f_name f) (f_type f) acc ix) e (rules_or_none o).
Proof.
  intros [D H U] Et Er Hk Hp Hok. unfold field_decls in D. unfold field_needs in H. rewrite Et, Er in *. cbn [fr_typ] in *.
  assert (P1 : p <> PTop) by (destruct Hp as [[-> _]|[-> _]]; discriminate).
  assert (P2 : p = PKey \/ p = PVal) by tauto.
  destruct o as [[mr2 [r2|]]|]; try exact I. cbn [rules_or_none elem_ok elem_env] in *.
  destruct e; try (destruct Hok; congruence); destruct r2; cbn [rule_ok rule_env] in *; try contradiction; try exact I.
  - destruct Hok as [<- (W1 & W2 & W3 & W4 & W5 & W6)]. destruct W3 as [-> ->]; auto. split; congruence.
  - destruct Hok as (W1 & W2 & W3 & W4 & W5). destruct W2 as [W2a W2b]; auto. rewrite W2a, W2b.
    split; [|split; [congruence|split; [congruence|]]].
    + split; [|intros Hw; rewrite U; auto].
      intros h Hh. rewrite (needs_wk mr2) in Hh. apply H. apply orb_true_iff.
      destruct Hp as [(_ & <- & <-)|(_ & <- & <-)]; [left|right]; exact Hh.
    + intros q Hq. apply D. apply in_app_iff.
      destruct Hp as [(_ & _ & <-)|(_ & _ & <-)]; [left|right]; cbn [str_rules_of]; now apply in_decl_opt.
  - destruct Hok as (W1 & W2 & W3 & W4 & W5 & W6). destruct W2 as [-> ->]; auto. rewrite W3 by auto.
    split; [congruence|split; [congruence|discriminate]].
  - destruct Hok as (W2 & W3 & W4 & W5). destruct W2 as [-> ->]; auto. split; [|split; congruence].
    destruct Hp as [(_ & <- & _)|(_ & <- & _)]; [discriminate|reflexivity].
  - destruct Hok as (W2 & W3 & W4). destruct W2 as [-> ->]; auto. split; congruence.
  - destruct Hok as (W1 & W2 & W3 & W4). destruct W2 as [-> ->]; auto. split; congruence.
Qed.

Hypothesis same_enums : forall e, find_enum sc e = find_enum sc0 e.
Hypothesis same_methods : forall n,
  option_map md_methods (find_msg sc n) = option_map md_methods (find_msg sc0 n).
Hypothesis orc_ok : oracle_ok orc.

(** ** Fields *)
Definition no_stuck_field (t : ftype) (v : value) : Prop :=
  match t, v with
  | FOne e, v => no_stuck e v
  | FRep e, VList l => Forall (no_stuck e) l
  | FMap _ e, VMap l => Forall (fun p => no_stuck e (snd p)) l
  | _, _ => True
  end.

Lemma field_tpl_one f e : f_type f = FOne e -> elem_ok sc PTop e (f_rules f) ->
  field_tpl mn f = elem_tpl (mkCtx mn (f_name f) (f_type f) (AField (f_name f)) None) false e (Some (f_rules f)).
Proof.
  intros Et Hok. unfold field_tpl. rewrite Et in *. destruct (f_rules f) as [mr [r|]]; cbn [elem_tpl]; [|reflexivity].
  rewrite andb_true_r.
  destruct r; try reflexivity; exfalso; cbn in Hok; destruct e; try contradiction; destruct Hok as [_ Hok];
    destruct w; contradiction.
Qed.

Lemma check_other t mr r0 fr :
  match t with FOne _ => False | _ => True end ->
  check_fr re_ok sch (CField t) (FR mr (Some r0)) = Some fr ->
  match t, r0 with FRep _, RRepeated _ => False | FMap _ _, RMap _ => False | _, _ => True end ->
  match t, fr_typ fr with FRep _, (None | Some (RRepeated _)) => False | FMap _ _, (None | Some (RMap _)) => False | _, _ => True end.
Proof.
  intros Ht H Hn. destruct t, r0; cbn in *; unfold guard in *; try contradiction; try discriminate;
  repeat match type of H with
   | (if ?b then _ else _) = _ => destruct b
   | match ?b with _ => _ end = _ => destruct b end; try discriminate; injection H as <-; exact I.
Qed.

Lemma runs_field f0 f v :
  check_field re_ok sch f0 = Some f -> field_ok sc f -> field_env f ->
  wt_field sc0 (f_type f0) v -> get_field m (f_name f0) = Some v -> ftype_ok sc0 (f_type f0) ->
  no_stuck_field (f_type f0) v ->
  runs_w [] (field_tpl mn f) (named (f_name f0) (field_reqs orc sc0 emb f0 v)).
Proof.
  intros Hck Hok Henv Hwt Hget Hty Hns.
  unfold check_field, guard in Hck. destruct (check_message _ _); [|discriminate].
  destruct (check_fr re_ok sch (CField (f_type f0)) (f_rules f0)) as [fr|] eqn:Ec; [|discriminate].
  assert (En : f_name f = f_name f0) by (injection Hck as <-; reflexivity).
  assert (Et : f_type f = f_type f0) by (injection Hck as <-; reflexivity).
  assert (Er : f_rules f = fr) by (injection Hck as <-; reflexivity).
  clear Hck. unfold field_ok in Hok. unfold field_reqs.
  set (c := mkCtx mn (f_name f) (f_type f) (AField (f_name f)) None).
  assert (G : good_ctx c) by (split; cbn; auto).
  assert (Hc : ctx_ok m mn [] c None (RV v)).
  { constructor; auto. cbn [cx_acc c eval_access]. rewrite En, Hget. reflexivity. }
  rewrite <- En. change (f_name f) with (cx_field c).
  inversion Hwt as [e v' We E1 E2|e l We E1 E2|k e l We E1 E2]; subst v; rewrite <- E1 in *; rewrite Et in Hok.
  - (* singular *)
    rewrite named_tag. rewrite (field_tpl_one f e Et Hok). apply runs_weaken.
    assert (Hx := env_top f e (AField (f_name f)) None Henv Et Hok). rewrite Er in *.
    eapply runs_elem with (p := PTop) (ct := CField (FOne e)) (sc0 := sc0) (sch := sch) (re_ok := re_ok); eauto.
  - (* list *)
    destruct (f_rules f0) as [mr [r0|]] eqn:Er0; cbn [fr_typ].
    + destruct r0; try (apply check_other in Ec; [|exact I|exact I]; rewrite Er in Hok; destruct (fr_typ fr) as [[]|]; contradiction).
      apply check_rep in Ec. destruct Ec as (r' & -> & H1 & H2 & H3 & H4 & H5).
      rewrite Er in Hok. cbn [fr_typ] in Hok. destruct Hok as (K1 & K2 & K3).
      assert (Ht : field_tpl mn f = rep_tpl c e r') by (unfold field_tpl; rewrite Er, Et; subst c; rewrite Et; reflexivity).
      rewrite Ht. eapply runs_rep with (sc0 := sc0) (sch := sch) (re_ok := re_ok); eauto.
      eapply env_item; eauto. 
    + cbn in Ec. injection Ec as <-.
      assert (Ht : field_tpl mn f = rep_tpl c e (mkRepRules None None None None None)) by (unfold field_tpl; rewrite Er, Et; subst c; rewrite Et; reflexivity).
      rewrite Ht. eapply runs_rep with (sc0 := sc0) (sch := sch) (re_ok := re_ok) (r := mkRepRules None None None None None); eauto; cbn; try reflexivity; try exact I; try discriminate.
      intros n [H|[H|[]]]; discriminate.
  - (* map *)
    destruct Hty as [Hk Hty].
    destruct (f_rules f0) as [mr [r0|]] eqn:Er0; cbn [fr_typ].
    + destruct r0; try (apply check_other in Ec; [|exact I|exact I]; rewrite Er in Hok; destruct (fr_typ fr) as [[]|]; contradiction).
      apply check_map in Ec. destruct Ec as (r' & -> & H1 & H2 & H3 & H4 & H5 & H6).
      rewrite Er in Hok. cbn [fr_typ] in Hok. destruct Hok as (K1 & K2 & K3 & K4 & K5).
      assert (Ht : field_tpl mn f = map_tpl c k e r') by (unfold field_tpl; rewrite Er, Et; subst c; rewrite Et; reflexivity).
      rewrite Ht. eapply runs_map with (sc0 := sc0) (sch := sch) (re_ok := re_ok); eauto; (eapply env_map; eauto).
    + cbn in Ec. injection Ec as <-.
      assert (R : runs_w [] (map_tpl c k e (mkMapRules None None None None None None)) (named (cx_field c) (map_reqs orc sc0 emb k e (mkMapRules None None None None None None) l))).
      { eapply runs_map with (sc0 := sc0) (sch := sch) (re_ok := re_ok) (r := mkMapRules None None None None None None); eauto; cbn; try reflexivity; try exact I; try discriminate.
        intros n [H|[H|[]]]; discriminate. }
      assert (Ht : field_tpl mn f = if is_embed e then map_tpl c k e (mkMapRules None None None None None None) else SSkip) by (unfold field_tpl; rewrite Er, Et; subst c; rewrite Et; reflexivity).
      rewrite Ht. destruct (is_embed e) eqn:Ee; [exact R|].
      replace (map_reqs orc sc0 emb k e (mkMapRules None None None None None None) l) with (@nil (option ixval * req)); [apply runs_weaken, runs_skip|].
      unfold map_reqs. cbn. clear - Ee Hk. induction l as [|p t IH]; auto. cbn [flat_map]. rewrite <- IH.
      rewrite Ee. destruct k; try discriminate Hk; reflexivity.
Qed.

(** ** Reading fields *)
Lemma wt_assoc fl fs f : Forall2 (wt_named sc0) fl fs -> NoDup (map f_name fl) -> In f fl ->
  exists v, assoc (f_name f) fs = Some v /\ wt_field sc0 (f_type f) v /\ In (f_name f, v) fs.
Proof.
  induction 1 as [|g p fl fs H _ IH]; intros ND Hin; [contradiction|]. cbn in ND. apply NoDup_cons_iff in ND. destruct ND as [N1 N2].
  inversion H as [g' v Hv E1 E2]; subst. destruct Hin as [->|Hin].
  - exists v. cbn. rewrite String.eqb_refl. auto.
  - destruct (IH N2 Hin) as (w & A & B & C). exists w. cbn. destruct (String.eqb_spec (f_name f) (f_name g)) as [E|E].
    + elim N1. rewrite <- E. now apply in_map.
    + auto.
Qed.

Lemma wt_assoc_none fl fs x : Forall2 (wt_named sc0) fl fs -> ~ In x (map f_name fl) -> assoc x fs = None.
Proof.
  induction 1 as [|g p fl fs H _ IH]; intros N; [reflexivity|]. inversion H; subst. cbn in *.
  destruct (String.eqb_spec x (f_name g)); [elim N; auto|]. apply IH. tauto.
Qed.

Lemma wt_assoc_oneof ol os o : Forall2 (wt_oneof sc0) ol os -> NoDup (map o_name ol) -> In o ol ->
  exists s, assoc (o_name o) os = Some s /\ wt_oneof sc0 o (o_name o, s) /\ In (o_name o, s) os.
Proof.
  induction 1 as [|g p ol os H _ IH]; intros ND Hin; [contradiction|]. cbn in ND. apply NoDup_cons_iff in ND. destruct ND as [N1 N2].
  assert (E : exists s, p = (o_name g, s)) by (inversion H; eauto). destruct E as [s ->].
  destruct Hin as [->|Hin].
  - exists s. cbn. rewrite String.eqb_refl. auto.
  - destruct (IH N2 Hin) as (w & A & B & C). exists w. cbn. destruct (String.eqb_spec (o_name o) (o_name g)) as [E|E].
    + elim N1. rewrite <- E. now apply in_map.
    + auto.
Qed.

Lemma find_oneof ol os o f v : Forall2 (wt_oneof sc0) ol os -> NoDup (map f_name (flat_map o_fields ol)) ->
  In o ol -> In f (o_fields o) -> In (o_name o, Some (f_name f, v)) os -> NoDup (map o_name ol) ->
  exists x, find (fun p => match snd p with Some (g, _) => String.eqb (f_name f) g | None => false end) os
    = Some (x, Some (f_name f, v)).
Proof.
  intros H. revert o f v. induction H as [|g p ol os Hp H IH]; intros o f v ND Ho Hf Hin NO; [contradiction|].
  cbn [flat_map map] in *. rewrite map_app in ND. apply NoDup_cons_iff in NO. destruct NO as [NO1 NO2].
  assert (Hdisj : forall a b, In a (o_fields g) -> In b (flat_map o_fields ol) -> f_name a <> f_name b).
  { intros a b Ha Hb E. clear - ND Ha Hb E. induction (o_fields g) as [|y t IHt]; [contradiction|].
    cbn in ND. apply NoDup_cons_iff in ND. destruct ND as [N1 N2]. destruct Ha as [->|Ha]; auto.
    apply N1. apply in_app_iff. right. rewrite E. now apply in_map. }
  destruct Ho as [->|Ho].
  - destruct Hin as [->|Hin].
    + cbn. rewrite String.eqb_refl. eauto.
    + (* the same oneof name cannot come twice *)
      elim NO1. clear - H Hin. induction H as [|h q ol os Hq H IH2]; [contradiction|]. destruct Hin as [->|Hin]; [|right; auto].
      left. inversion Hq; auto.
  - assert (Hin' : In (o_name o, Some (f_name f, v)) os).
    { destruct Hin as [->|Hin]; auto. elim NO1.
      assert (E : o_name o = o_name g) by (inversion Hp; auto). rewrite <- E. now apply in_map. }
    assert (ND2 : NoDup (map f_name (flat_map o_fields ol))).
    { clear - ND. induction (map f_name (o_fields g)); auto. apply IHl. cbn in ND. now apply NoDup_cons_iff in ND. }
    destruct (IH o f v ND2 Ho Hf Hin' NO2) as (x & Hx). exists x. cbn.
    assert (Hsk : match snd p with Some (g0, _) => String.eqb (f_name f) g0 | None => false end = false).
    { inversion Hp; subst; cbn; auto. apply String.eqb_neq. intros E. symmetry in E. revert E. apply Hdisj; auto.
      apply in_flat_map. eauto. }
    rewrite Hsk. exact Hx.
Qed.

Lemma list_max_in {A} (f : A -> nat) l x : In x l -> (f x <= list_max (map f l))%nat.
Proof.
  intros H. assert (F := proj1 (list_max_le (map f l) (list_max (map f l))) (le_n _)).
  rewrite Forall_forall in F. apply F. now apply in_map.
Qed.

Hypothesis rec_ok : forall b n x d', find_msg sc0 n = Some d' -> wt_msg sc0 d' x ->
  (S (mheight x) <= mheight m)%nat -> validated_type sc0 n = true -> rec b n x <> VStuck.

Lemma no_stuck_height e v : wt_elem sc0 e v -> (vheight v <= mheight m)%nat -> no_stuck e v.
Proof.
  intros Hw Hh n x -> -> Hv. inversion Hw; subst. eapply rec_ok; eauto.
Qed.

Lemma no_stuck_field_height t v : wt_field sc0 t v -> (vheight v <= mheight m)%nat -> no_stuck_field t v.
Proof.
  intros Hw Hh. inversion Hw as [e v' We|e l We|k e l We]; subst; cbn.
  - now apply no_stuck_height.
  - rewrite Forall_forall in *. intros x Hx. apply no_stuck_height; auto.
    cbn in Hh. assert (H := list_max_in vheight l x Hx). lia.
  - rewrite Forall_forall in *. intros x Hx. apply no_stuck_height; [now apply We|].
    cbn in Hh. assert (H := list_max_in (fun p => vheight (snd p)) l x Hx). cbn in H. lia.
Qed.

(** ** Messages *)
Lemma Forall2_in {A B} (R S : A -> B -> Prop) l l' :
  (forall x y, In x l -> In y l' -> R x y -> S x y) -> Forall2 R l l' -> Forall2 S l l'.
Proof. intros H F. induction F; constructor; [apply H; cbn; auto|apply IHF; intros; apply H; cbn; auto]. Qed.
Lemma Forall2_map_both {A B C D} (f : A -> C) (g : B -> D) (R : C -> D -> Prop) (l : list A) (l' : list B) :
  Forall2 (fun y x => R (f x) (g y)) l' l -> Forall2 R (map f l) (map g l').
Proof. induction 1; constructor; auto. Qed.
Lemma Forall2_map_r {A B C} (f : A -> C) (R : B -> C -> Prop) l l' :
  Forall2 (fun x y => R x (f y)) l l' -> Forall2 R l (map f l').
Proof. induction 1; constructor; auto. Qed.

Lemma map_opt_forall2 {A B} (f : A -> option B) l l' : map_opt f l = Some l' -> Forall2 (fun x y => f x = Some y) l l'.
Proof.
  revert l'. induction l as [|x t IH]; cbn; intros l' H.
  - injection H as <-. constructor.
  - destruct (f x) eqn:E; [|discriminate]. destruct (map_opt f t); [|discriminate]. injection H as <-. constructor; auto.
Qed.

Lemma check_field_name f0 f : check_field re_ok sch f0 = Some f -> f_name f = f_name f0 /\ f_type f = f_type f0.
Proof.
  unfold check_field, guard. destruct (check_message _ _); [|discriminate].
  destruct (check_fr _ _ _ _); [|discriminate]. intros [= <-]. auto.
Qed.

Definition vres_spec (reqs : list item) (r : vres) : Prop :=
  match r with
  | VNil => Forall it_holds reqs
  | VErr e => if all then exists es, es <> [] /\ e = GMulti mn es /\ reports describes reqs es
              else first_bad describes reqs e
  | VStuck => False
  end.

Lemma reports_none D l : reports D l [] -> Forall it_holds l.
Proof. remember [] as es. induction 1; try discriminate; constructor; auto. Qed.

Lemma exec_msg_spec d0 d :
  mn = md_name d ->
  check_msg re_ok sch d0 = Some d -> md_disabled d0 = false ->
  wf_msg d0 -> (forall f, In f (all_fields d0) -> ftype_ok sc0 (f_type f)) ->
  Forall (field_ok sc) (all_fields d) -> Forall field_env (all_fields d) ->
  wt_msg sc0 d0 m ->
  vres_spec (msg_reqs orc sc0 emb d0 m) (exec_msg sc orc decls uuidd rec hs all m (msg_tpl d)).
Proof.
  intros Hmn Hck Hdis [ND1 ND2] Hft Hok Henv Hwt. unfold check_msg in Hck. rewrite Hdis in Hck.
  destruct (map_opt (check_field re_ok sch) (md_fields d0)) as [fl|] eqn:Ef; [|discriminate].
  destruct (map_opt (check_oneof re_ok sch) (md_oneofs d0)) as [ol|] eqn:Eo; [|discriminate].
  injection Hck as <-. apply map_opt_forall2 in Ef, Eo. cbn [md_name] in Hmn.
  inversion Hwt as [d' fs os Hfs Hos E1 E2]. subst d'.
  assert (Efs : mv_fields m = fs) by (rewrite <- E2; reflexivity).
  assert (Eos : mv_oneofs m = os) by (rewrite <- E2; reflexivity).
  unfold all_fields in ND1, Hft, Hok, Henv. cbn [md_fields md_oneofs] in Hok, Henv.
  apply Forall_app in Hok, Henv. destruct Hok as [Hok1 Hok2], Henv as [Henv1 Henv2].
  assert (NDf : NoDup (map f_name (md_fields d0))).
  { rewrite map_app in ND1. clear - ND1. induction (map f_name (md_fields d0)); constructor.
    - cbn in ND1. apply NoDup_cons_iff in ND1. intros H. apply ND1. apply in_app_iff; auto.
    - apply IHl. cbn in ND1. now apply NoDup_cons_iff in ND1. }
  assert (NDo : NoDup (map f_name (flat_map o_fields (md_oneofs d0)))).
  { rewrite map_app in ND1. clear - ND1. induction (map f_name (md_fields d0)); auto.
    apply IHl. cbn in ND1. now apply NoDup_cons_iff in ND1. }
  assert (NDfo : forall f, In f (flat_map o_fields (md_oneofs d0)) -> ~ In (f_name f) (map f_name (md_fields d0))).
  { intros f Hf Hin. rewrite map_app in ND1. apply in_map with (f := f_name) in Hf. clear - ND1 Hf Hin.
    induction (map f_name (md_fields d0)); [contradiction|]. cbn in ND1. apply NoDup_cons_iff in ND1. destruct ND1 as [N1 N2].
    destruct Hin as [->|Hin]; auto. apply N1, in_app_iff; auto. }
  (* the plain fields *)
  set (qf := fun f => match assoc (f_name f) (mv_fields m) with
                     | Some v => named (f_name f) (field_reqs orc sc0 emb f v)
                     | None => []
                     end).
  assert (Hbody : runs_w [] (seq (map (field_tpl mn) fl)) (List.concat (map qf (md_fields d0)))).
  { apply runs_w_seq. apply Forall2_map_both. eapply Forall2_in; [|exact Ef]. cbn beta. intros f0 f I0 I1 Hf.
    destruct (wt_assoc _ _ _ Hfs NDf I0) as (v & A & B & C). unfold qf. rewrite Efs, A.
    rewrite Forall_forall in Hok1, Henv1. apply runs_field; auto.
    - unfold get_field. now rewrite Efs, A.
    - apply Hft. apply in_app_iff; auto.
    - apply no_stuck_field_height; auto. rewrite <- E2. cbn [mheight].
      assert (H := list_max_in (fun p => vheight (snd p)) fs _ C). cbn in H. lia. }
  (* the oneofs *)
  set (qo := fun o => match assoc (o_name o) (mv_oneofs m) with
                        | Some set => oneof_reqs orc sc0 emb o set
                        | None => []
                        end).
  assert (Hones : forall st, outcome describes all (flat_map qo (md_oneofs d0)) st
            (loop (exec_oneof sc orc decls uuidd rec hs all m) (map (oneof_tpl mn) ol) st)).
  { assert (H1 : Forall2 (fun o0 oc => forall st, outcome describes all (qo o0) st (exec_oneof sc orc decls uuidd rec hs all m oc st))
      (md_oneofs d0) (map (oneof_tpl mn) ol)).
    2:{ revert H1. generalize (md_oneofs d0) (map (oneof_tpl mn) ol). clear. induction 1 as [|o oc l l' H _ IH]; intros st; cbn [flat_map loop]; [apply outcome_nil|].
        change (outcome describes all (qo o ++ flat_map qo l) st
          (match exec_oneof sc orc decls uuidd rec hs all m oc st with ONext st' => loop (exec_oneof sc orc decls uuidd rec hs all m) l' st' | ORet e => ORet e | OStuck => OStuck end)).
        apply outcome_bind; auto. }
    apply Forall2_map_r. eapply Forall2_in; [|exact Eo]. cbn beta. intros o0 o I0 I1 Ho st.
    unfold check_oneof in Ho. destruct (map_opt (check_field re_ok sch) (o_fields o0)) as [ofl|] eqn:Eof; [|discriminate].
    injection Ho as <-. apply map_opt_forall2 in Eof.
    destruct (wt_assoc_oneof _ _ _ Hos ND2 I0) as (s & A & B & C).
    unfold qo, exec_oneof. rewrite Eos. cbn [oneof_tpl oc_name o_name oc_default oc_cases o_fields o_required]. rewrite A.
    inversion B as [o' E3|o' f0 v Hf0 Wv E3]; subst s; subst o'; cbn [oneof_reqs].
    - destruct (getb (o_required o0)); [|apply outcome_nil].
      apply (fail_outcome sc rec all mn [] _ st (o_name o0, (None, want False [PStr "value is required"]))
        (GErr mn (o_name o0) None [PStr "value is required"] None false)); [reflexivity| |].
      + unfold it_holds. cbn. auto.
      + exists None. cbn. auto.
    - assert (Hnd0 : NoDup (map f_name (o_fields o0))).
      { clear - NDo I0. induction (md_oneofs d0) as [|x l IH]; [contradiction|]. cbn [flat_map] in NDo. rewrite map_app in NDo.
        destruct I0 as [->|I0].
        - clear IH. induction (map f_name (o_fields o0)); constructor.
          + cbn in NDo. apply NoDup_cons_iff in NDo. intros H. apply NDo. apply in_app_iff; auto.
          + apply IHl0. cbn in NDo. now apply NoDup_cons_iff in NDo.
        - apply IH; auto. clear - NDo. induction (map f_name (o_fields x)); auto. apply IHl0. cbn in NDo. now apply NoDup_cons_iff in NDo. }
      assert (Hfind : find (fun f => String.eqb (f_name f0) (f_name f)) (o_fields o0) = Some f0).
      { clear - Hnd0 Hf0. induction (o_fields o0) as [|x l IH]; [contradiction|]. cbn in *. apply NoDup_cons_iff in Hnd0. destruct Hnd0 as [N1 N2].
        destruct (String.eqb_spec (f_name f0) (f_name x)) as [E|E].
        - destruct Hf0 as [->|Hf0]; auto. elim N1. rewrite <- E. now apply in_map.
        - destruct Hf0 as [->|Hf0]; [congruence|auto]. }
      rewrite Hfind.
      assert (Hcase : exists f, check_field re_ok sch f0 = Some f /\ In f ofl /\
         assoc (f_name f0) (map (fun f => (f_name f, field_tpl mn f)) ofl) = Some (field_tpl mn f)).
      { clear - Eof Hnd0 Hf0. induction Eof as [|x y l l' Hxy _ IH]; [contradiction|]. cbn in *. apply NoDup_cons_iff in Hnd0. destruct Hnd0 as [N1 N2].
        destruct (check_field_name _ _ Hxy) as [-> _]. destruct (String.eqb_spec (f_name f0) (f_name x)) as [E|E].
        - destruct Hf0 as [->|Hf0]; [eauto|]. elim N1. rewrite <- E. now apply in_map.
        - destruct Hf0 as [->|Hf0]; [congruence|]. destruct (IH Hf0 N2) as (f & H1 & H2 & H3). eauto. }
      destruct Hcase as (f & Hf & Hin & ->).
      assert (Hin2 : In f (flat_map o_fields ol)) by (apply in_flat_map; eexists; split; [exact I1|exact Hin]).
      assert (Hin0 : In f0 (flat_map o_fields (md_oneofs d0))) by (apply in_flat_map; eauto).
      rewrite Forall_forall in Hok2, Henv2. apply runs_field; auto.
      + unfold get_field. rewrite Efs, Eos.
        rewrite (wt_assoc_none _ _ _ Hfs (NDfo _ Hin0)).
        destruct (find_oneof _ _ o0 f0 v Hos NDo I0 Hf0 C ND2) as (x & ->). reflexivity.
      + apply Hft. apply in_app_iff; auto.
      + apply no_stuck_field_height; auto. rewrite <- E2. cbn [mheight].
        assert (H := list_max_in (fun p => match snd p with Some (_, v) => vheight v | None => O end) os _ C). cbn in H. lia. }
  (* together *)
  assert (Hreq : msg_reqs orc sc0 emb d0 m = List.concat (map qf (md_fields d0)) ++ flat_map qo (md_oneofs d0)).
  { unfold msg_reqs. now rewrite flat_map_concat_map. }
  rewrite E2, Hreq. unfold exec_msg, msg_tpl. cbn [mc_disabled mc_body mc_oneofs mc_name md_disabled md_fields md_oneofs md_name].
  rewrite <- Hmn.
  assert (H := outcome_bind describes all _ _ (mkSt [] []) _ _ (Hbody (mkSt [] [])) (fun st' _ => Hones st')).
  unfold vres_spec. destruct (ex [] (seq (map (field_tpl mn) fl)) (mkSt [] [])) as [st1|e|].
  - destruct (loop _ _ st1) as [st2|e|].
    + cbn [outcome] in H. destruct all eqn:Ea.
      * destruct H as (es & R & E). cbn in E. rewrite E. destruct es as [|g es].
        -- eapply reports_none; exact R.
        -- exists (g :: es). split; [discriminate|auto].
      * destruct H as [F E]. cbn in E. rewrite E. exact F.
    + destruct H as [Ha F]. rewrite Ha in *. exact F.
    + exact H.
  - destruct H as [Ha F]. rewrite Ha in *. exact F.
  - exact H.
Qed.
End Msg.
