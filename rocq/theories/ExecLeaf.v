(** The templates of the scalar rules and the well-known types. *)
From Coq Require Import Lia ZifyBool ZifyN ZifyNat.
From Verif Require Import Base Utf8 Num Rules Types Time Iface Checker GoIR GoGen Regex Known GoSem
  Spec Wt BaseFacts Utf8Facts NumFacts TimeFacts RegexFacts KnownFacts ExecFacts.

(** Generalities. *)
Lemma is_none_iff {A} (o : option A) : is_none o = false <-> o <> None.
Proof. destruct o; cbn; intuition congruence. Qed.

Lemma Exists_In {A} (x : A) l : Exists (fun y => x = y) l <-> In x l.
Proof. rewrite Exists_exists. split; [intros (y & H & ->); auto|eauto]. Qed.

Lemma exists_map {A} (mk : A -> value) (k : value) (eq : A -> Prop) l :
  (forall x, key_eqb k (mk x) = true <-> eq x) ->
  (existsb (key_eqb k) (map mk l) = true <-> Exists eq l).
Proof.
  intros H. induction l as [|y l IH]; cbn [map existsb].
  - split; [discriminate|]. intros X. inversion X.
  - rewrite orb_true_iff, IH, Exists_cons, H. reflexivity.
Qed.

Lemma dec_none {A} (o : option A) : o = None \/ o <> None.
Proof. destruct o; [right; discriminate|now left]. Qed.

(** Requirements that hold add nothing. *)
Lemma outcome_cons_ok D al i l st o : it_holds i -> outcome' D al l st o -> outcome' D al (i :: l) st o.
Proof.
  intros H [H1 H2]. split; auto. destruct o; auto.
  - cbn in *. destruct al; [destruct H1 as (es & R & E); exists es; split; auto; now apply rep_ok|].
    destruct H1. split; auto.
  - destruct H1 as [Ha (a & j & b & -> & F & N & Dj)]. split; auto. exists (i :: a), j, b. auto.
Qed.
Lemma outcome_snoc_ok D al l i st o : it_holds i -> outcome' D al l st o -> outcome' D al (l ++ [i]) st o.
Proof.
  intros H [H1 H2]. split; auto. destruct o; auto.
  - cbn in *. destruct al.
    + destruct H1 as (es & R & E). exists es. split; auto. rewrite <- (app_nil_r es). apply reports_app; auto.
      apply rep_ok; auto. constructor.
    + destruct H1. split; auto. apply Forall_app. auto.
  - destruct H1 as [Ha (a & j & b & -> & F & N & Dj)]. split; auto. exists a, j, (b ++ [i]). now rewrite <- app_assoc.
Qed.

Lemma dur_nonempty (r : duration_rules) (d : sn) :
  let b := negb (is_nil (d_in r)) || negb (is_nil (d_not_in r)) || is_some (d_lt r)
        || is_some (d_lte r) || is_some (d_gt r) || is_some (d_gte r) || is_some (d_const r) in
  b = false -> dur_reqs r (Some d) = required_reqs (d_required r) (Some d).
Proof.
  unfold dur_reqs. destruct (d_in r), (d_not_in r), (d_lt r), (d_lte r), (d_gt r), (d_gte r), (d_const r);
    cbn; try discriminate. intros _. now rewrite app_nil_r.
Qed.

Definition dur_checks (r : duration_rules) (d : sn) (g : Prop -> Prop) : list req :=
  when (d_const r) (fun c => want (g (go_duration d = go_duration c)) [PStr "value must equal "; PDur c])
  ++ match bnd (d_lt r) (d_lte r), bnd (d_gt r) (d_gte r) with
     | None, None => []
     | _, _ =>
         [want (g (within_range (fun a b => (go_duration a < go_duration b)%Z)
                         (fun a b => go_duration a = go_duration b) (bnd (d_lt r) (d_lte r)) (bnd (d_gt r) (d_gte r)) d))
            (range_reason (fun a b => Z.ltb (go_duration a) (go_duration b)) PDur
               (bnd (d_lt r) (d_lte r)) (bnd (d_gt r) (d_gte r)))]
     end
  ++ match d_in r, d_not_in r with
     | (_ :: _) as l, _ =>
         [want (g (Exists (fun x => go_duration d = go_duration x) l)) [PStr "value must be in list "; PDurs l]]
     | [], (_ :: _) as l =>
         [want (g (~ Exists (fun x => go_duration d = go_duration x) l)) [PStr "value must not be in list "; PDurs l]]
     | [], [] => []
     end.

Lemma dur_reqs_split r d :
  let b := negb (is_nil (d_in r)) || negb (is_nil (d_not_in r)) || is_some (d_lt r)
        || is_some (d_lte r) || is_some (d_gt r) || is_some (d_gte r) || is_some (d_const r) in
  b = true ->
  dur_reqs r (Some d) = required_reqs (d_required r) (Some d) ++
    want_c (valid_duration d) [PStr "value is not a valid duration"] :: dur_checks r d (fun p => valid_duration d -> p).
Proof.
  cbv zeta. intros H. unfold dur_reqs. f_equal.
  change (_ :: dur_checks r d ?g) with ([want_c (valid_duration d) [PStr "value is not a valid duration"]] ++ dur_checks r d g).
  match goal with |- match ?x with [] => _ | _ => _ end = _ => change x with (dur_checks r d (fun p => valid_duration d -> p)) end.
  assert (dur_checks r d (fun p => valid_duration d -> p) <> []).
  { unfold dur_checks. destruct (d_const r); [discriminate|].
    destruct (d_lt r); cbn [bnd when app]; [destruct (d_gt r), (d_gte r); discriminate|].
    destruct (d_lte r); cbn [bnd when app]; [destruct (d_gt r), (d_gte r); discriminate|].
    destruct (d_gt r); [discriminate|]. destruct (d_gte r); [discriminate|].
    destruct (d_in r); [|discriminate]. destruct (d_not_in r); [|discriminate]. cbn in H. discriminate. }
  destruct (dur_checks r d _) eqn:E; [congruence|reflexivity].
Qed.

Lemma req_equiv_guard (V P : Prop) reason : V -> req_equiv (want P reason) (want (V -> P) reason).
Proof. intros H. repeat split; cbn; tauto. Qed.
Lemma req_holds_guard (V P : Prop) reason : ~ V -> rq_holds (want (V -> P) reason).
Proof. cbn. tauto. Qed.

Lemma dur_checks_valid r d : valid_duration d ->
  Forall2 req_equiv (dur_checks r d (fun p => p)) (dur_checks r d (fun p => valid_duration d -> p)).
Proof.
  intros V. unfold dur_checks. apply Forall2_app; [|apply Forall2_app].
  - destruct (d_const r); constructor; auto. now apply req_equiv_guard.
  - destruct (bnd (d_lt r) (d_lte r)), (bnd (d_gt r) (d_gte r)); constructor; auto; now apply req_equiv_guard.
  - destruct (d_in r), (d_not_in r); constructor; auto; now apply req_equiv_guard.
Qed.

Lemma dur_checks_invalid r d : ~ valid_duration d ->
  Forall rq_holds (dur_checks r d (fun p => valid_duration d -> p)).
Proof.
  intros V. unfold dur_checks. apply Forall_app. split; [|apply Forall_app; split].
  - destruct (d_const r); constructor; auto. now apply req_holds_guard.
  - destruct (bnd (d_lt r) (d_lte r)), (bnd (d_gt r) (d_gte r)); constructor; auto; now apply req_holds_guard.
  - destruct (d_in r), (d_not_in r); constructor; auto; now apply req_holds_guard.
Qed.

(** ** Contexts and locals *)
Definition outer_names : list string := ["item"; "key"; "val"; "wrapper"; "idx"]%string.
Definition good_ctx (c : ctx) : Prop :=
  match cx_acc c with AField _ => True | AVar x | AUnwrap x | AUrl x => In x outer_names end /\
  match cx_ix c with None => True | Some x => In x outer_names end.

Lemma ix_push en c ix x w : good_ctx c -> ~ In x outer_names -> ix_val en (cx_ix c) = Some ix ->
  ix_val ((x, w) :: en) (cx_ix c) = Some ix.
Proof.
  intros [G1 G2] Hx H3. unfold ix_val in *. destruct (cx_ix c) as [y|]; auto. cbn [assoc].
  destruct (String.eqb_spec y x); auto. subst. contradiction.
Qed.

Ltac not_outer := cbn; intuition discriminate.

Lemma good_err c : good_ctx c -> cx_ix c <> Some "err"%string.
Proof. intros [_ G] E. rewrite E in G. revert G. not_outer. Qed.


Section Leaf.
Variable sc : schema.
Variable orc : oracles.
Variable decls : list (string * pkgvar).
Variable uuidd : bool.
Variable rec : bool -> string -> msgval -> vres.
Variable hs : list callee.
Variable all : bool.
Variable m : msgval.
Variable mn : string.

Hypothesis orc_ok : oracle_ok orc.

Notation runs := (ExecFacts.runs sc orc decls uuidd rec hs all m mn).
Notation runs_w := (ExecFacts.runs_w sc orc decls uuidd rec hs all m mn).
Notation ctx_ok := (ExecFacts.ctx_ok m mn).
Notation evalc := (eval_cond sc orc decls).

(** ** Booleans *)
Lemma runs_bool en c ix v o :
  ctx_ok en c ix (RV (VBool v)) -> runs en (bool_tpl c o) (tagf (cx_field c) ix (bool_reqs o v)).
Proof.
  intros Hc. apply runs_opt. intros b Eb. eapply runs_chk; [exact Hc|reflexivity|].
  rewrite negb_false_iff, Bool.eqb_true_iff. reflexivity.
Qed.

(** ** Lengths *)
Lemma runs_len en c ix v (cond_of : cmp -> N -> cond) (L : N) (count : N -> Prop) unit l mn0 mx :
  ctx_ok en c ix v ->
  (forall op n, (n < 2^63)%N -> eval_cond sc orc decls en v (cond_of op n) = Some (cmp_n op L n)) ->
  (forall n, count n <-> L = n) ->
  lens_ok [l; mn0; mx] ->
  runs en (len_tpl c cond_of unit l mn0 mx) (tagf (cx_field c) ix (len_reqs count unit l mn0 mx)).
Proof.
  intros Hc He Hcount Hok. unfold lens_ok in Hok.
  assert (Hex : forall P : N -> Prop, (exists n, count n /\ P n) <-> P L).
  { intros P. split; [intros (n & Hn & HP); apply Hcount in Hn; now subst|].
    intros HP. exists L. split; auto. now apply Hcount. }
  assert (Heq : forall a, (a < 2^63)%N ->
     runs en (chk c (cond_of ONe a) [PStr "value length must be "; PNat a; PStr (" " ++ unit)])
       (tagf (cx_field c) ix [want (count a) [PStr "value length must be "; PNat a; PStr (" " ++ unit)]])).
  { intros a Ha. eapply runs_chk; [exact Hc|apply He; exact Ha|]. cbn [cmp_n]. rewrite Hcount. lia. }
  unfold len_tpl, len_reqs. destruct l as [n|].
  { apply Heq, Hok. cbn. auto. }
  destruct mn0 as [a|], mx as [b|].
  - assert (Ha : (a < 2^63)%N) by (apply Hok; cbn; auto).
    assert (Hb : (b < 2^63)%N) by (apply Hok; cbn; auto).
    destruct (N.eqb a b); [now apply Heq|].
    eapply runs_chk; [exact Hc|apply eval_COr; apply He; assumption|]. cbn [cmp_n]. rewrite Hex. lia.
  - eapply runs_chk; [exact Hc|apply He; apply Hok; cbn; auto|]. cbn [cmp_n]. rewrite Hex. lia.
  - eapply runs_chk; [exact Hc|apply He; apply Hok; cbn; auto|]. cbn [cmp_n]. rewrite Hex. lia.
  - apply runs_skip.
Qed.

Lemma eval_CLen en v L op n : len_val v = Some L -> (n < 2^63)%N ->
  eval_cond sc orc decls en v (CLen op n) = Some (cmp_n op L n).
Proof. intros H Hn. cbn [eval_cond]. rewrite H. unfold int_lit_ok. now replace (n <? 2^63)%N with true by lia. Qed.

Lemma eval_CRunes en s op n : (n < 2^63)%N ->
  eval_cond sc orc decls en (RV (VStr s)) (CRunes op n) = Some (cmp_n op (rune_count s) n).
Proof. intros Hn. cbn [eval_cond]. unfold int_lit_ok. now replace (n <? 2^63)%N with true by lia. Qed.

Lemma bytes_count_iff s n : bytes_count s n <-> blen s = n.
Proof. reflexivity. Qed.

(** ** Calls returning an error *)
Lemma runs_try en c ix v f x reason (P : Prop) :
  ctx_ok en c ix v -> cx_ix c <> Some "err"%string ->
  (P -> exists w, call orc uuidd hs f v = Some (inr w)) ->
  (~ P -> exists p, call orc uuidd hs f v = Some (inl (GPlain p))) ->
  (P \/ ~ P) ->
  runs en (STry f x (cx_acc c) (SFail (err_cause c [PStr reason])) SSkip)
    (tagf (cx_field c) ix [want_c P [PStr reason]]).
Proof.
  intros [H1 H2 H3] Hx Hok Hbad Hdec st. cbn [exec]. rewrite H2. destruct Hdec as [HP|HP].
  - destruct (Hok HP) as (w & ->). cbn [exec]. apply next_outcome. repeat constructor. exact HP.
  - destruct (Hbad HP) as (q & ->). cbn [exec]. eapply fail_outcome.
    + apply mk_err_cause with (e := GPlain q); [|reflexivity].
      unfold ix_val in *. destruct (cx_ix c) as [y|]; [|exact H3]. cbn [assoc].
      destruct (String.eqb_spec y "err"); [congruence|exact H3].
    + unfold it_holds. exact HP.
    + eexists. split; [cbn; eauto|]. cbn. now rewrite H1.
Qed.

Lemma ctx_push en c ix v x w : good_ctx c -> ~ In x outer_names -> ctx_ok en c ix v ->
  ctx_ok ((x, w) :: en) c ix v.
Proof.
  intros [G1 G2] Hx [H1 H2 H3]. constructor; auto.
  - destruct (cx_acc c) as [f|y|y|y]; cbn [eval_access assoc] in *; auto;
      destruct (String.eqb_spec y x); auto; subst; contradiction.
  - unfold ix_val in *. destruct (cx_ix c) as [y|]; auto. cbn [assoc].
    destruct (String.eqb_spec y x); auto. subst. contradiction.
Qed.

(** ** Well-known strings *)
Definition needs_ok (w : option str_wk) : Prop :=
  (forall h, str_needs (Some (FR None (Some (RString (mkStringRules None None None None None None None None
      None None None None [] [] w None None))))) h = true -> has_helper hs h = true) /\
  (w = Some (WUuid true) -> uuidd = true).

Lemma bad_ip_spec k s :
  bad_ip_str orc k s = false <->
  ip_text orc s (fun ip => match k with IpAny => True | Ip4 => ip4_bytes ip | Ip6 => ~ ip4_bytes ip end).
Proof.
  unfold bad_ip_str, ip_text. destruct (o_parse_ip orc s) as [ip|].
  - assert (T := to4_ok_spec ip). destruct k.
    + split; [intros _; eauto|auto].
    + rewrite negb_false_iff, T. split; [intros H; exists ip; auto|intros (i & E & H)]. inversion E; now subst.
    + split.
      * intros H. exists ip. split; auto. rewrite <- T, H. discriminate.
      * intros (i & E & H). inversion E; subst. destruct (to4_ok i); tauto.
  - split; [discriminate|intros (i & E & _); discriminate].
Qed.

Lemma runs_str_wk en c ix s w : good_ctx c -> needs_ok w ->
  ctx_ok en c ix (RV (VStr s)) ->
  runs en (str_wk_tpl c w) (tagf (cx_field c) ix (wk_reqs orc w s)).
Proof.
  intros G [Hn Hu] Hc. unfold str_wk_tpl, wk_reqs.
  assert (Hh : forall h, str_needs (Some (FR None (Some (RString (mkStringRules None None None None None None None None
      None None None None [] [] w None None))))) h = true -> has_helper hs h = true) by exact Hn.
  destruct w as [[b|b|b|b|b|b|b|b|b|k]|]; try destruct b; try apply runs_skip.
  - (* email *)
    apply runs_try with (v := RV (VStr s)); auto using good_err; cbn [call];
      rewrite ?(Hh FEmail eq_refl), ?(Hh FHostname eq_refl); cbn [andb].
    + intros H. apply validate_email_spec in H. rewrite H. eauto.
    + intros H. destruct (validate_email (o_mail orc s)) as [e|] eqn:E; [|now apply validate_email_spec in E].
      assert (e <> EPanic).
      { intros ->. unfold validate_email in E. destruct (o_mail orc s) as [a|] eqn:Ea; [|discriminate].
        destruct (254 <? blen a)%N; [discriminate|].
        assert (Hin := ok_mail _ orc_ok _ _ Ea).
        destruct (split_at a) as [[l d]|] eqn:Es.
        - destruct (64 <? blen l)%N; [discriminate|]. destruct (validate_hostname d); discriminate.
        - clear -Es Hin. induction a as [|x a IH]; [elim Hin|]. cbn in Es. destruct (N.eqb_spec x 64); [discriminate|].
          destruct (split_at a) as [[? ?]|]; [discriminate|]. apply IH; auto. destruct Hin; [congruence|auto]. }
      destruct e; try congruence; eauto.
    + destruct (validate_email (o_mail orc s)) eqn:E; [right|left; now apply validate_email_spec].
      rewrite <- validate_email_spec, E. discriminate.
  - (* hostname *)
    apply runs_try with (v := RV (VStr s)); auto using good_err; cbn [call];
      rewrite ?(Hh FHostname eq_refl).
    + intros H. apply validate_hostname_spec in H. rewrite H. eauto.
    + intros H. destruct (validate_hostname s) eqn:E; eauto. now apply validate_hostname_spec in E.
    + rewrite <- validate_hostname_spec. apply dec_none.
  - eapply runs_chk; [exact Hc|reflexivity|]. apply (bad_ip_spec IpAny).
  - eapply runs_chk; [exact Hc|reflexivity|]. apply (bad_ip_spec Ip4).
  - eapply runs_chk; [exact Hc|reflexivity|]. apply (bad_ip_spec Ip6).
  - (* uri *)
    intros st. destruct Hc as [H1 H2 H3]. cbn [exec]. rewrite H2. cbn [call].
    destruct (o_url orc s) as [ab|] eqn:E; cbn [exec].
    + cbn [eval_access assoc String.eqb Ascii.eqb Bool.eqb eval_cond].
      destruct ab; cbn [negb exec].
      * apply next_outcome. repeat constructor; unfold it_holds; cbn; congruence.
      * apply outcome_cons_ok; [unfold it_holds; cbn; congruence|].
        eapply fail_outcome.
        -- apply mk_err_plain. apply ix_push; eauto. not_outer.
        -- unfold it_holds. cbn. tauto.
        -- exists None. cbn. rewrite H1. auto.
    + apply (outcome_snoc_ok _ _ [_]); [unfold it_holds; cbn; congruence|].
      eapply fail_outcome.
      * apply mk_err_cause with (e := GPlain PlUrl); [|reflexivity]. apply ix_push; eauto. not_outer.
      * unfold it_holds. cbn. tauto.
      * eexists. split; [cbn; eauto|]. cbn. now rewrite H1.
  - (* uri_ref *)
    apply runs_try with (v := RV (VStr s)); auto using good_err; cbn [call].
    + destruct (o_url orc s); [eauto|congruence].
    + destruct (o_url orc s); [intros []; discriminate|eauto].
    + destruct (dec_none (o_url orc s)); tauto.
  - (* address *)
    intros st. cbn [exec]. rewrite (co_acc _ _ _ _ _ _ Hc). cbn [call]. rewrite (Hh FHostname eq_refl).
    assert (V := validate_hostname_spec s). destruct (validate_hostname s) as [e|].
    + apply runs_equiv with (l := [want (ip_text orc s (fun _ => True)) [PStr "value must be a valid hostname, or ip address"]]).
      * constructor; [|constructor]. repeat split; cbn; intuition discriminate.
      * eapply runs_chk; [apply ctx_push; eauto; not_outer|reflexivity|]. apply (bad_ip_spec IpAny).
    + apply next_outcome. constructor; [|constructor]. left. now apply V.
  - (* uuid *)
    apply runs_try with (v := RV (VStr s)); auto using good_err; cbn [call];
      rewrite ?(Hh FUuid eq_refl), ?(Hu eq_refl); cbn [andb].
    + intros H. apply validate_uuid_spec in H. rewrite H. eauto.
    + intros H. destruct (validate_uuid s) eqn:E; eauto. now apply validate_uuid_spec in E.
    + rewrite <- validate_uuid_spec. destruct (validate_uuid s); auto.
Qed.

(** ** Strings.  On checked rules the pattern is explicit. *)
Definition str_reqs_chk (r : string_rules) (s : bytes) : list req :=
  if getb (s_ignore_empty r) && is_nil s then []
  else
    when (s_const r) (fun c => want (s = c) [PStr "value must equal "; PText c])
    ++ in_reqs (fun x => s = x) (s_in r) (s_not_in r) PTexts
    ++ len_reqs (chars_count s) "runes" (s_len r) (s_min_len r) (s_max_len r)
    ++ len_reqs (bytes_count s) "bytes" (s_len_bytes r) (s_min_bytes r) (s_max_bytes r)
    ++ when (s_prefix r) (fun p => want (starts_with s p) [PStr "value does not have prefix "; PLit p])
    ++ when (s_suffix r) (fun p => want (ends_with s p) [PStr "value does not have suffix "; PLit p])
    ++ when (s_contains r) (fun p => want (has_inside s p) [PStr "value does not contain substring "; PLit p])
    ++ when (s_not_contains r) (fun p => want (~ has_inside s p) [PStr "value contains substring "; PLit p])
    ++ wk_reqs orc (s_wk r) s
    ++ when (s_pattern r) (fun p => want (o_match orc p s = true) [PStr "value does not match regex pattern "; PLit p]).

Definition decl_list {A} (x : string) (mk : A -> value) (l : list A) : Prop :=
  l <> [] -> exists ty, assoc x decls = Some (DSet ty (map mk l)).
Definition decl_re (x : string) (o : option bytes) : Prop :=
  forall p, o = Some p -> assoc x decls = Some (DRegex p).

Lemma runs_str en c ix s r : good_ctx c -> ctx_ok en c ix (RV (VStr s)) ->
  needs_ok (s_wk r) ->
  lens_ok [s_len r; s_min_len r; s_max_len r; s_len_bytes r; s_min_bytes r; s_max_bytes r] ->
  decl_list (lookup c "InLookup") VStr (s_in r) ->
  decl_list (lookup c "NotInLookup") VStr (s_not_in r) ->
  decl_re (lookup c "Pattern") (s_pattern r) ->
  runs en (str_tpl c r) (tagf (cx_field c) ix (str_reqs_chk r s)).
Proof.
  intros G Hc Hn Hl Hi Hni Hp. unfold str_tpl, str_reqs_chk.
  assert (Hset : forall x l ty, assoc x decls = Some (DSet ty (map VStr l)) ->
     exists b, in_set decls x false (RV (VStr s)) = Some b /\ (b = true <-> Exists (fun x => s = x) l)).
  { intros x l ty E. unfold in_set. rewrite E. eexists. split; [reflexivity|]. apply exists_map.
    intros y. cbn. apply bytes_eqb_eq. }
  eapply runs_guarded with (v := RV (VStr s)); [exact Hc| |].
  - intros _. cbn [eval_cond]. destruct s; reflexivity.
  - apply runs_seq_cons; [|apply runs_seq_cons; [|apply runs_seq_cons; [|apply runs_seq_cons; [|
    apply runs_seq_cons; [|apply runs_seq_cons; [|apply runs_seq_cons; [|apply runs_seq_cons; [|
    apply runs_seq_cons; [|apply runs_seq_one]]]]]]]]].
    + apply runs_opt. intros k _. eapply runs_chk; [exact Hc|reflexivity|].
      rewrite negb_false_iff. apply bytes_eqb_eq.
    + apply runs_in with (v := RV (VStr s)); [exact Hc| |].
      * intros Hne. destruct (Hi Hne) as (ty & E). eapply Hset; eauto.
      * intros Hne _. destruct (Hni Hne) as (ty & E). eapply Hset; eauto.
    + eapply runs_len with (v := RV (VStr s)); [exact Hc|apply eval_CRunes|intros n; apply chars_count_iff|].
      intros n H. apply Hl. cbn in *. tauto.
    + eapply runs_len with (v := RV (VStr s)); [exact Hc|intros; apply eval_CLen; [reflexivity|assumption]|intros n; apply bytes_count_iff|].
      intros n H. apply Hl. cbn in *. tauto.
    + apply runs_opt. intros k _. eapply runs_chk; [exact Hc|reflexivity|].
      rewrite negb_false_iff. apply has_prefix_spec.
    + apply runs_opt. intros k _. eapply runs_chk; [exact Hc|reflexivity|].
      rewrite negb_false_iff. apply has_suffix_spec.
    + apply runs_opt. intros k _. eapply runs_chk; [exact Hc|reflexivity|].
      rewrite negb_false_iff. apply contains_spec.
    + apply runs_opt. intros k _. eapply runs_chk; [exact Hc|reflexivity|].
      rewrite <- contains_spec. destruct (contains s k); split; congruence.
    + now apply runs_str_wk.
    + apply runs_opt. intros p Ep. eapply runs_chk; [exact Hc|cbn [eval_cond]; rewrite (Hp _ Ep); reflexivity|].
      unfold re_match. rewrite negb_false_iff. reflexivity.
Qed.

(** ** Bytes *)
Lemma runs_when_ne en c ix (o : option bytes) (t : bytes -> stmt) (q : bytes -> req) :
  (forall a, runs en (t a) (tagf (cx_field c) ix [q a])) ->
  runs en (opt (nonempty o) t) (tagf (cx_field c) ix (when_ne o q)).
Proof. intros H. destruct o as [[|x a]|]; cbn [nonempty opt when_ne]; try apply runs_skip. apply H. Qed.

Lemma runs_byt en c ix s r : ctx_ok en c ix (RV (VByt s)) ->
  lens_ok [b_len r; b_min_len r; b_max_len r] ->
  decl_list (lookup c "InLookup") VStr (b_in r) ->
  decl_list (lookup c "NotInLookup") VStr (b_not_in r) ->
  decl_re (lookup c "Pattern") (b_pattern r) ->
  runs en (byt_tpl c r) (tagf (cx_field c) ix (byt_reqs orc r s)).
Proof.
  intros Hc Hl Hi Hni Hp. unfold byt_tpl, byt_reqs.
  assert (Hset : forall x l ty, assoc x decls = Some (DSet ty (map VStr l)) ->
     exists b, in_set decls x true (RV (VByt s)) = Some b /\ (b = true <-> Exists (fun x => s = x) l)).
  { intros x l ty E. unfold in_set. rewrite E. eexists. split; [reflexivity|]. apply exists_map.
    intros y. cbn. apply bytes_eqb_eq. }
  eapply runs_guarded with (v := RV (VByt s)); [exact Hc| |].
  - intros _. cbn [eval_cond len_val]. destruct s; reflexivity.
  - apply runs_seq_cons; [|apply runs_seq_cons; [|apply runs_seq_cons; [|apply runs_seq_cons; [|
    apply runs_seq_cons; [|apply runs_seq_cons; [|apply runs_seq_cons; [|apply runs_seq_one]]]]]]].
    + eapply runs_len with (v := RV (VByt s)); [exact Hc|intros; apply eval_CLen; [reflexivity|assumption]|intros n; apply bytes_count_iff|].
      exact Hl.
    + apply runs_when_ne. intros k. eapply runs_chk; [exact Hc|reflexivity|].
      rewrite negb_false_iff. apply has_prefix_spec.
    + apply runs_when_ne. intros k. eapply runs_chk; [exact Hc|reflexivity|].
      rewrite negb_false_iff. apply has_suffix_spec.
    + apply runs_when_ne. intros k. eapply runs_chk; [exact Hc|reflexivity|].
      rewrite negb_false_iff. apply contains_spec.
    + apply runs_in with (v := RV (VByt s)); [exact Hc| |].
      * intros Hne. destruct (Hi Hne) as (ty & E). eapply Hset; eauto.
      * intros Hne _. destruct (Hni Hne) as (ty & E). eapply Hset; eauto.
    + apply runs_when_ne. intros k. eapply runs_chk; [exact Hc|reflexivity|].
      rewrite negb_false_iff. apply bytes_eqb_eq.
    + assert (T4 := to4_ok_spec s). assert (T16 := to16_ok_spec s).
      destruct (b_wk r) as [[b|b|b]|]; try destruct b; try apply runs_skip;
        (eapply runs_chk; [exact Hc|reflexivity|]); unfold bad_ip_byt;
        destruct (to4_ok s), (to16_ok s); cbn; intuition discriminate.
    + apply runs_opt. intros p Ep. eapply runs_chk; [exact Hc|cbn [eval_cond]; rewrite (Hp _ Ep); reflexivity|].
      unfold re_match. rewrite negb_false_iff. reflexivity.
Qed.

(** ** Enums *)
Lemma runs_enum (sc0 : schema) en c ix z r e : (forall e, find_enum sc e = find_enum sc0 e) ->
  ctx_ok en c ix (RV (VEnum z)) ->
  (getb (e_defined_only r) = true -> enum_name (cx_ftype c) = e /\ find_enum sc e <> None) ->
  decl_list (lookup c "InLookup") VEnum (e_in r) ->
  decl_list (lookup c "NotInLookup") VEnum (e_not_in r) ->
  runs en (enum_tpl c r) (tagf (cx_field c) ix (enum_reqs sc0 e r z)).
Proof.
  intros same_enums Hc He Hi Hni. unfold enum_tpl, enum_reqs.
  assert (Hset : forall x l ty, assoc x decls = Some (DSet ty (map VEnum l)) ->
     exists b, in_set decls x false (RV (VEnum z)) = Some b /\ (b = true <-> Exists (fun x => z = x) l)).
  { intros x l ty E. unfold in_set. rewrite E. eexists. split; [reflexivity|]. apply exists_map.
    intros y. cbn. apply Z.eqb_eq. }
  apply runs_seq_cons; [|apply runs_seq_cons; [|apply runs_seq_one]].
  - apply runs_opt. intros k _. eapply runs_chk; [exact Hc|reflexivity|]. rewrite negb_false_iff. apply Z.eqb_eq.
  - apply runs_in with (v := RV (VEnum z)); [exact Hc| |].
    + intros Hne. destruct (Hi Hne) as (ty & E). eapply Hset; eauto.
    + intros Hne _. destruct (Hni Hne) as (ty & E). eapply Hset; eauto.
  - destruct (getb (e_defined_only r)); cbn [whenb]; [|apply runs_skip].
    destruct (He eq_refl) as [<- Hf].
    destruct (find_enum sc (enum_name (cx_ftype c))) as [d|] eqn:E; [|congruence].
    eapply runs_chk; [exact Hc|cbn [eval_cond]; rewrite E; reflexivity|].
    rewrite negb_false_iff, existsb_exists. unfold defined. rewrite <- same_enums, E. split.
    + intros (x & H1 & H2). apply Z.eqb_eq in H2. subst. eauto.
    + intros (d' & [= <-] & H). exists z. split; auto. apply Z.eqb_refl.
Qed.

(** ** Required *)
Lemma runs_required en c ix v b (o : bool) :
  ctx_ok en c ix v -> (getb b = true -> is_nil_val v = Some o) ->
  forall P : Prop, (o = false <-> P) ->
  runs en (required_tpl c b) (tagf (cx_field c) ix (whenb (getb b) [want P [PStr "value is required"]])).
Proof.
  intros Hc Ho P HP. unfold required_tpl. destruct (getb b); cbn [whenb]; [|apply runs_skip].
  eapply runs_chk; [exact Hc|apply Ho; reflexivity|exact HP].
Qed.

Lemma runs_bind en x a v (b : bool) s1 s2 l :
  eval_access m en a = Some v -> is_nil_val v = Some b ->
  (b = false -> runs ((x, v) :: en) s1 l) -> (b = true -> runs ((x, v) :: en) s2 l) ->
  runs en (SBind x a s1 s2) l.
Proof. intros Ha Hb H1 H2 st. cbn [exec]. rewrite Ha, Hb. destruct b; [apply H2|apply H1]; reflexivity. Qed.

Lemma runs_let en x r v s l : eval_rhs orc r = Some v -> runs ((x, v) :: en) s l -> runs en (SLet x r s) l.
Proof. intros H1 H2 st. cbn [exec]. rewrite H1. apply H2. Qed.

(** ** Any *)
Lemma runs_any en c ix o r : good_ctx c -> ctx_ok en c ix (RV (VAny o)) ->
  decl_list (lookup c "InLookup") VStr (a_in r) ->
  decl_list (lookup c "NotInLookup") VStr (a_not_in r) ->
  runs en (any_tpl c r) (tagf (cx_field c) ix (any_reqs r o)).
Proof.
  intros G Hc Hi Hni. unfold any_tpl, any_reqs. rewrite tagf_app. apply runs_SSeq.
  - eapply runs_required; [exact Hc|reflexivity|]. apply is_none_iff.
  - eapply runs_bind; [apply (co_acc _ _ _ _ _ _ Hc)|reflexivity| |].
    2:{ intros E. destruct o; [discriminate|]. apply runs_skip. }
    intros E. destruct o as [u|]; [clear E|discriminate].
    assert (Hset : forall x l ty, assoc x decls = Some (DSet ty (map VStr l)) ->
       exists b, in_set decls x false (RV (VStr u)) = Some b /\ (b = true <-> In u l)).
    { intros x l ty E. unfold in_set. rewrite E. eexists. split; [reflexivity|].
      rewrite <- Exists_In. apply exists_map. intros y. cbn. apply bytes_eqb_eq. }
    set (c' := mkCtx _ _ _ (AUrl "a") _).
    assert (Hc' : ctx_ok (("a"%string, RV (VAny (Some u))) :: en) c' ix (RV (VStr u))).
    { destruct Hc as [H1 H2 H3]. constructor; auto. apply (ix_push en c); auto. not_outer. }
    destruct (a_in r) as [|x l] eqn:Ei.
    + destruct (a_not_in r) as [|y l] eqn:En; [apply runs_skip|].
      destruct Hni as (ty & E); [discriminate|]. destruct (Hset _ _ _ E) as (b & Hb & Hbi).
      change (cx_field c) with (cx_field c'). eapply runs_chk; [exact Hc'|cbn [eval_cond]; exact Hb|].
      rewrite <- Hbi. destruct b; split; congruence.
    + destruct Hi as (ty & E); [discriminate|]. destruct (Hset _ _ _ E) as (b & Hb & Hbi).
      change (cx_field c) with (cx_field c'). eapply runs_chk; [exact Hc'|cbn [eval_cond]; rewrite Hb; reflexivity|].
      rewrite <- Hbi. destruct b; cbn; split; congruence.
Qed.

(** ** Ranges of durations and timestamps *)
Ltac cmp_lia := cbn [cmp_z]; lia.

Lemma runs_range en c ix v (val : sn -> Z) (d : sn) gt_fn cmpc pr lt lte gt gte other lother :
  ctx_ok en c ix v ->
  (forall a b, (lt = Some a \/ lte = Some a) -> (gt = Some b \/ gte = Some b) ->
     gt_fn a b = (val b <? val a)%Z) ->
  (forall op x t, In (x, Some t) [("lt", lt); ("lte", lte); ("gt", gt); ("gte", gte)]%string ->
     evalc en v (cmpc op x) = Some (cmp_z op (val d) (val t))) ->
  (lt = None -> lte = None -> gt = None -> gte = None -> runs en other (tagf (cx_field c) ix lother)) ->
  runs en (range_tpl sn gt_fn cmpc pr c lt lte gt gte other)
    (tagf (cx_field c) ix
      (match bnd lt lte, bnd gt gte with
       | None, None => lother
       | _, _ => [want (within_range (fun a b => val a < val b)%Z (fun a b => val a = val b) (bnd lt lte) (bnd gt gte) d)
                    (range_reason (fun a b => Z.ltb (val a) (val b)) pr (bnd lt lte) (bnd gt gte))]
       end)).
Proof.
  intros Hc Hgt He Ho. unfold range_tpl.
  destruct lt as [lt|], lte as [lte|], gt as [gt|], gte as [gte|]; cbn [bnd];
    try (apply Ho; reflexivity); cbn [range_reason within_range bval below above].
  all: try (rewrite Hgt by tauto; match goal with |- context [Z.ltb ?a ?b] => destruct (Z.ltb_spec a b) end).
  all: (eapply runs_chk; [exact Hc| |]);
    try (first [apply eval_COr|apply eval_CAnd]; (apply He; cbn; tauto));
    try (apply He; cbn; tauto); cmp_lia.
Qed.

Definition push_opt {A} (o : option A) (x : string) (g : A -> rval) (en : env) : env :=
  match o with Some a => (x, g a) :: en | None => en end.

Lemma runs_let_opt {A} en (o : option A) x f g s l :
  (forall a, o = Some a -> eval_rhs orc (f a) = Some (g a)) ->
  runs (push_opt o x g en) s l -> runs en (let_opt o x f s) l.
Proof. intros H1 H2. destruct o as [a|]; cbn in *; auto. eapply runs_let; eauto. Qed.

Lemma ctx_push_opt {A} en c ix v (o : option A) x g : good_ctx c -> ~ In x outer_names -> ctx_ok en c ix v ->
  ctx_ok (push_opt o x g en) c ix v.
Proof. destruct o; cbn; auto. intros. now apply ctx_push. Qed.

(** ** Durations *)
(** What the checker guarantees about duration rules. *)
Definition dur_valid (r : duration_rules) : Prop :=
  (forall d, (d_const r = Some d \/ d_lt r = Some d \/ d_lte r = Some d \/ d_gt r = Some d \/ d_gte r = Some d) ->
     valid_duration d) /\
  Forall valid_duration (d_in r) /\ Forall valid_duration (d_not_in r).

Definition decl_durs (x : string) (l : list sn) : Prop :=
  l <> [] -> exists ty, assoc x decls = Some (DDurSet ty (map as_duration l)).

Lemma runs_durationcmp en c ix r d z : good_ctx c -> ix_val en (cx_ix c) = Some ix -> cx_msg c = mn ->
  z = go_duration d ->
  (forall d, (d_const r = Some d \/ d_lt r = Some d \/ d_lte r = Some d \/ d_gt r = Some d \/
              d_gte r = Some d) -> dur_lit d <> None) ->
  dur_valid r -> decl_durs (lookup c "InLookup") (d_in r) -> decl_durs (lookup c "NotInLookup") (d_not_in r) ->
  runs (("dur"%string, RDur z) :: en) (durationcmp_tpl c r)
    (tagf (cx_field c) ix (dur_checks r d (fun p => p))).
Proof.
  intros G Hix Hmn Hz Hl (Hv & Hvi & Hvn) Hi Hni. unfold durationcmp_tpl, dur_checks.
  set (c' := with_acc c (AVar "dur")). set (en1 := ("dur"%string, RDur z) :: en).
  assert (Hlit : forall t, dur_lit t <> None -> dur_lit t = Some (go_duration t)).
  { intros t Ht. destruct (dur_lit t) as [y|] eqn:E; [|congruence]. apply dur_lit_spec in E. f_equal. symmetry. apply E. }
  assert (Hset : forall x l, Forall valid_duration l -> l <> [] -> decl_durs x l ->
    exists b, in_set decls x false (RDur z) = Some b /\ (b = true <-> Exists (fun x => z = go_duration x) l)).
  { intros x l F Hne Hd. destruct (Hd Hne) as (ty & E). unfold in_set. rewrite E. eexists. split; [reflexivity|].
    clear -F. induction F as [|y l Hy F IH]; cbn [map existsb].
    - split; [discriminate|]. intros X. inversion X.
    - rewrite orb_true_iff, IH, Exists_cons, Z.eqb_eq, as_duration_spec; auto. reflexivity. }
  rewrite !tagf_app. apply runs_SSeq.
  - change (cx_field c) with (cx_field c'). apply runs_opt. intros k Ek.
    assert (Hc : ctx_ok en1 c' ix (RDur z)).
    { constructor; auto. apply (ix_push en c); auto. not_outer. }
    eapply runs_chk; [exact Hc|cbn [eval_cond]; rewrite Hlit by (apply Hl; auto); reflexivity|].
    rewrite negb_false_iff, Z.eqb_eq, Hz. reflexivity.
  - assert (Hrhs : forall o, (forall k, o = Some k -> dur_lit k <> None) -> forall a, o = Some a ->
       eval_rhs orc (RhsDur (dur_lit a)) = Some (RDur (go_duration a))).
    { intros o Ho a Ea. cbn. rewrite Hlit; auto. }
    do 4 (eapply runs_let_opt; [apply Hrhs; intros; apply Hl; tauto|]).
    set (en2 := push_opt _ _ _ (push_opt _ _ _ _)).
    assert (Hc : ctx_ok en2 c' ix (RDur z)).
    { assert (X : ix_val en2 (cx_ix c) = Some ix).
      { unfold en2, en1. destruct (d_lt r), (d_lte r), (d_gt r), (d_gte r); cbn [push_opt];
          repeat (apply (ix_push _ c); [assumption|not_outer|]); exact Hix. }
      constructor; [exact Hmn| |exact X].
      unfold en2, en1. destruct (d_lt r), (d_lte r), (d_gt r), (d_gte r); reflexivity. }
    apply runs_SSeq.
    + change (cx_field c) with (cx_field c').
      apply runs_range with (v := RDur z) (val := go_duration).
      * exact Hc.
      * intros a b Ha Hb. unfold dur_gt. rewrite !as_duration_spec; auto; apply Hv; tauto.
      * intros op x t Hin. cbn [In] in Hin. cbn [eval_cond]. subst z. unfold en2, en1.
        destruct Hin as [E|[E|[E|[E|[]]]]]; injection E; intros Et <-; rewrite Et; cbn [push_opt].
        -- destruct (d_lte r), (d_gt r), (d_gte r); reflexivity.
        -- destruct (d_lt r), (d_gt r), (d_gte r); reflexivity.
        -- destruct (d_lt r), (d_lte r), (d_gte r); reflexivity.
        -- destruct (d_lt r), (d_lte r), (d_gt r); reflexivity.
      * intros. apply runs_skip.
    + change (cx_field c) with (cx_field c').
      assert (R : runs en2 (in_tpl c' false (negb (is_nil (d_in r))) (negb (is_nil (d_not_in r))) (PDurs (d_in r)) (PDurs (d_not_in r)))
         (tagf (cx_field c') ix (in_reqs (fun x => z = go_duration x) (d_in r) (d_not_in r) PDurs))).
      { apply runs_in with (v := RDur z); [exact Hc| |]; intros; apply Hset; auto. }
      subst z. unfold in_reqs in R. destruct (d_in r); [destruct (d_not_in r)|]; exact R.
Qed.

Lemma runs_try2 en c ix v f x a reason (P : Prop) w s2 l :
  ix_val en (cx_ix c) = Some ix -> cx_ix c <> Some "err"%string -> cx_msg c = mn ->
  eval_access m en a = Some v ->
  (P /\ call orc uuidd hs f v = Some (inr w) \/ ~ P /\ exists p, call orc uuidd hs f v = Some (inl (GPlain p))) ->
  (P -> runs ((x, w) :: en) s2 (tagf (cx_field c) ix l)) ->
  (~ P -> Forall rq_holds l) ->
  runs en (STry f x a (SFail (err_cause c [PStr reason])) s2)
    (tagf (cx_field c) ix (want_c P [PStr reason] :: l)).
Proof.
  intros H3 Hx H1 H2 Hcall Hs Hl st. cbn [exec]. rewrite H2. destruct Hcall as [[HP ->]|(HP & q & ->)].
  - apply outcome_cons_ok; [exact HP|]. now apply Hs.
  - cbn [exec]. change (tagf ?f ix (?r :: l)) with (tagf f ix [r] ++ tagf f ix l).
    assert (Hh : Forall it_holds (tagf (cx_field c) ix l)).
    { unfold tagf. apply Forall_map. exact (Hl HP). }
    match goal with |- outcome' _ _ (?a ++ _) st ?o => assert (X : outcome' (describes sc rec all mn) all a st o) end.
    { eapply fail_outcome.
      + apply mk_err_cause with (e := GPlain q); [|reflexivity].
        unfold ix_val in *. destruct (cx_ix c) as [y|]; [|exact H3]. cbn [assoc].
        destruct (String.eqb_spec y "err"); [congruence|exact H3].
      + unfold it_holds. exact HP.
      + eexists. split; [cbn; eauto|]. cbn. now rewrite H1. }
    clear -X Hh. revert X. generalize (tagf (cx_field c) ix [want_c P [PStr reason]]).
    revert Hh. generalize (tagf (cx_field c) ix l). intros l0. induction l0 as [|i l0 IH] using rev_ind; intros Hh.
    + intros l1 X. now rewrite app_nil_r.
    + intros l1 X. apply Forall_app in Hh. destruct Hh as [Hh Hi]. inversion Hi; subst. rewrite app_assoc. apply outcome_snoc_ok; auto.
Qed.
End Leaf.
