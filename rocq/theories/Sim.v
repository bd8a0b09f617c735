(** Validate and ValidateAll run in lockstep up to the first error. *)
From Coq Require Import Lia.
From Verif Require Import Base Num Rules Types Time Iface Checker GoIR GoGen Regex Known GoSem Spec SpecErr.

(** No list of errors inside. *)
Inductive single : gerr -> Prop :=
| single_plain p : single (GPlain p)
| single_leaf n f ix r k : single (GErr n f ix r None k)
| single_err n f ix r c k : single c -> single (GErr n f ix r (Some c) k).

(** [first_of e g]: [e] (from Validate) is the first of the errors in [g] (from ValidateAll). *)
Inductive first_of : gerr -> gerr -> Prop :=
| fo_plain p : first_of (GPlain p) (GPlain p)
| fo_leaf n f ix r k : first_of (GErr n f ix r None k) (GErr n f ix r None k)
| fo_err n f ix r c c' k : first_of c c' -> first_of (GErr n f ix r (Some c) k) (GErr n f ix r (Some c') k)
| fo_multi e n g es : first_of e g -> first_of e (GMulti n (g :: es)).

Lemma first_of_refl e : single e -> first_of e e.
Proof. induction 1; constructor; auto. Qed.

Lemma first_of_leaves e g : first_of e g -> single e -> exists t, leaves g = innermost e :: t.
Proof.
  induction 1 as [p|n f ix r k|n f ix r c c' k H IH|e n g es H IH]; intros S; cbn; eauto.
  - inversion S; subst. auto.
  - destruct (IH S) as (t & ->). cbn. eauto.
Qed.

Section Sim.
Variable sc : schema.
Variable orc : oracles.
Variable decls : list (string * pkgvar).
Variable uuidd : bool.
Variable rec : bool -> string -> msgval -> vres.
Variable hs : list callee.
Variable m : msgval.

Definition vres_sim (a b : vres) : Prop :=
  match a with
  | VNil => b = VNil
  | VErr e => single e /\ match b with VErr g => first_of e g | VStuck => True | VNil => False end
  | VStuck => b = VStuck
  end.

Hypothesis rec_sim : forall b n x, vres_sim (rec false n x) (rec b n x).

Notation exF := (exec sc orc decls uuidd rec hs false m).
Notation exT := (exec sc orc decls uuidd rec hs true m).

Definition out_sim (st : state) (a b : out) : Prop :=
  match a with
  | ONext st1 => b = ONext st1 /\ st_errs st1 = st_errs st
  | ORet e => single e /\
      match b with
      | ONext st2 => exists g es, st_errs st2 = st_errs st ++ g :: es /\ first_of e g
      | ORet _ => False
      | OStuck => True
      end
  | OStuck => b = OStuck
  end.

(** ValidateAll never returns early and only adds errors. *)
Definition grows (st : state) (b : out) : Prop :=
  match b with
  | ONext st2 => exists es, st_errs st2 = st_errs st ++ es
  | ORet _ => False
  | OStuck => True
  end.

Lemma grows_bind st o (k : state -> out) : grows st o -> (forall st', grows st' (k st')) ->
  grows st (match o with ONext st' => k st' | ORet e => ORet e | OStuck => OStuck end).
Proof.
  intros H K. destruct o as [st'| |]; auto. specialize (K st'). destruct (k st'); auto; cbn in *.
  destruct H as [a Ha], K as [b Hb]. exists (a ++ b). now rewrite Hb, Ha, app_assoc.
Qed.

Lemma grows_refl st : grows st (ONext st).
Proof. exists []. now rewrite app_nil_r. Qed.

Lemma grows_fail en e st : grows st (fail true en e st).
Proof. unfold fail. destruct (mk_err en e); cbn; eauto. Qed.

Lemma grows_loop {A} (f : A -> state -> out) l : (forall x st, grows st (f x st)) -> forall st, grows st (loop f l st).
Proof.
  intros H. induction l as [|x t IH]; intros st; cbn [loop]; [apply grows_refl|]. exact (grows_bind st (f x st) (loop f t) (H x st) IH).
Qed.

Lemma exec_grows s : forall en st, grows st (exT en s st).
Proof.
  induction s; intros en st; cbn [exec].
  - apply grows_refl.
  - exact (grows_bind st _ _ (IHs1 en st) (fun st' => IHs2 en st')).
  - apply grows_fail.
  - destruct (eval_access m en a); [|exact I]. destruct (eval_cond _ _ _ _ _ _) as [[]|]; auto. exact I.
  - destruct (eval_access m en a); [|exact I]. destruct (is_nil_val r) as [[]|]; auto. exact I.
  - destruct (eval_access m en a); [|exact I]. destruct (call _ _ _ _ _) as [[|]|]; auto. exact I.
  - destruct (eval_rhs orc r); auto. exact I.
  - specialize (IHs en (mkSt (st_errs st) (set_assoc x [] (st_sets st)))). exact IHs.
  - destruct (eval_access m en a); [|exact I]. destruct (unique_key _ _); [|exact I].
    destruct (assoc x (st_sets st)); [|exact I]. destruct (existsb _ _); auto. exists []. cbn. now rewrite app_nil_r.
  - destruct (eval_access m en a) as [[[]| | | | |]|]; try exact I. apply grows_loop. auto.
  - destruct (eval_access m en a) as [[[]| | | | |]|]; try exact I. apply grows_loop. auto.
  - destruct (eval_access m en a); [|exact I]. destruct (embed_call _ _ _ _ _) as [[]|]; try exact I.
    + apply grows_refl.
    + apply grows_fail.
  - exact I.
Qed.

Lemma out_sim_bind st a b (kF kT : state -> out) : out_sim st a b ->
  (forall st', out_sim st' (kF st') (kT st')) -> (forall st', grows st' (kT st')) ->
  out_sim st (match a with ONext s => kF s | ORet e => ORet e | OStuck => OStuck end)
             (match b with ONext s => kT s | ORet e => ORet e | OStuck => OStuck end).
Proof.
  intros H K G. destruct a as [s1|e|]; cbn in H.
  - destruct H as [-> E]. specialize (K s1). unfold out_sim in *. destruct (kF s1) as [s2|e|]; auto.
    + destruct K as [K1 K2]. split; auto. congruence.
    + destruct K as [S K]. split; auto. destruct (kT s1); auto. now rewrite <- E.
  - destruct H as [S H]. split; auto. destruct b as [s2|g|]; auto. specialize (G s2). destruct (kT s2); auto.
    destruct H as (g & es & H1 & H2), G as [es2 G]. exists g, (es ++ es2). split; auto. now rewrite G, H1, <- app_assoc.
  - now rewrite H.
Qed.

Lemma out_sim_refl st : out_sim st (ONext st) (ONext st).
Proof. cbn. auto. Qed.

(** Errors in the environment are library errors. *)
Definition env_ok (en : env) : Prop := forall x e, assoc x en = Some (RErr e) -> single e.

Lemma env_push en x v : env_ok en -> (forall e, v = RErr e -> single e) -> env_ok ((x, v) :: en).
Proof.
  intros H Hv y e. cbn. destruct (String.eqb y x); [intros [= ->]; auto|apply H].
Qed.

Lemma access_ok en a v : env_ok en -> eval_access m en a = Some v -> forall e, v = RErr e -> single e.
Proof.
  intros H Ha e ->. destruct a; cbn in Ha.
  - destruct (get_field m f); discriminate.
  - eapply H; eauto.
  - destruct (assoc x en) as [[[]| | | | |]|]; try discriminate. destruct v; discriminate.
  - destruct (assoc x en) as [[[]| | | | |]|]; try discriminate. destruct url; discriminate.
Qed.

Lemma fail_sim en e st : env_ok en -> out_sim st (fail false en e st) (fail true en e st).
Proof.
  intros H. unfold fail. destruct (mk_err en e) as [g|] eqn:E; cbn; auto.
  assert (S : single g).
  { unfold mk_err in E. destruct (match es_ix e with None => _ | Some x => _ end) as [ix|]; [|discriminate].
    destruct (es_cause e).
    - destruct (assoc "err"%string en) as [[| | | | |c]|] eqn:Ea; try discriminate. injection E as <-. constructor. eapply H; eauto.
    - injection E as <-. constructor. }
  split; auto. exists g, []. split; auto. now apply first_of_refl.
Qed.

Lemma loop_sim {A} (f g : A -> state -> out) l : (forall x st, out_sim st (f x st) (g x st)) ->
  (forall x st, grows st (g x st)) -> forall st, out_sim st (loop f l st) (loop g l st).
Proof.
  intros H G. induction l as [|x t IH]; intros st; cbn [loop]; [apply out_sim_refl|].
  apply (out_sim_bind st (f x st) (g x st) (loop f t) (loop g t)); auto. apply grows_loop; auto.
Qed.

Lemma call_plain2 f v r : call orc uuidd hs f v = Some r ->
  match r with inl e => exists p, e = GPlain p | inr w => forall e, w <> RErr e end.
Proof.
  destruct f; cbn [call]; destruct v as [[]| | | | |]; try discriminate.
  - destruct (has_helper _ _); [|discriminate]. destruct (validate_hostname _); intros [= <-]; [eauto|discriminate].
  - destruct (_ && _); [|discriminate].
    destruct (validate_email _) as [[]|]; try discriminate; intros [= <-]; eauto; discriminate.
  - destruct (_ && _); [|discriminate]. destruct (validate_uuid _); intros [= <-]; [discriminate|eauto].
  - destruct (o_url _ _); intros [= <-]; [discriminate|eauto].
  - destruct d; [|discriminate]. destruct (dur_check _); intros [= <-]; [eauto|discriminate].
  - destruct t; [|discriminate]. destruct (ts_check _); intros [= <-]; [eauto|discriminate].
Qed.

Lemma call_plain f v r : call orc uuidd hs f v = Some r ->
  match r with inl e => single e | inr w => forall e, w = RErr e -> False end.
Proof.
  intros H. apply call_plain2 in H. destruct r as [e|w].
  - destruct H as [p ->]. constructor.
  - exact H.
Qed.

Lemma mk_err_pushed en e :
  (forall c, mk_err (("err"%string, RErr c) :: en) e = None) \/
  (exists ix, forall c, mk_err (("err"%string, RErr c) :: en) e =
     Some (GErr (es_msg e) (es_field e) ix (es_reason e) (if es_cause e then Some c else None) (es_key e))).
Proof.
  unfold mk_err. cbn [assoc].
  change (String.eqb "err" "err") with true. cbn iota.
  destruct (es_ix e) as [y|].
  - destruct (String.eqb y "err").
    + left. reflexivity.
    + destruct (assoc y en) as [[]|]; try (left; reflexivity); right; eexists; intros c; destruct (es_cause e); reflexivity.
  - right. exists None. intros c. destruct (es_cause e); reflexivity.
Qed.

Lemma exec_sim s : forall en st, env_ok en -> out_sim st (exF en s st) (exT en s st).
Proof.
  induction s; intros en st He; cbn [exec].
  - apply out_sim_refl.
  - apply (out_sim_bind st _ _ (exF en s2) (exT en s2)); auto. intros. apply exec_grows.
  - now apply fail_sim.
  - destruct (eval_access m en a); [|reflexivity]. destruct (eval_cond _ _ _ _ _ _) as [[]|]; auto. reflexivity.
  - destruct (eval_access m en a) eqn:Ea; [|reflexivity]. assert (P := access_ok _ _ _ He Ea).
    destruct (is_nil_val r) as [[]|]; [| |reflexivity]; auto using env_push.
  - destruct (eval_access m en a) eqn:Ea; [|reflexivity]. destruct (call _ _ _ _ _) as [[e|w]|] eqn:Ec; [| |reflexivity];
      apply call_plain in Ec.
    + apply IHs1. apply env_push; auto. intros e' [= <-]. auto.
    + apply IHs2. apply env_push; auto. intros e' E. elim (Ec _ E).
  - destruct (eval_rhs orc r) eqn:Er; [|reflexivity]. apply IHs. apply env_push; auto.
    intros e ->. destruct r as [[]| |]; discriminate.
  - specialize (IHs en (mkSt (st_errs st) (set_assoc x [] (st_sets st))) He). exact IHs.
  - destruct (eval_access m en a); [|reflexivity]. destruct (unique_key _ _); [|reflexivity].
    destruct (assoc x (st_sets st)); [|reflexivity]. destruct (existsb _ _); auto. cbn. auto.
  - destruct (eval_access m en a) as [[[]| | | | |]|]; try reflexivity. apply loop_sim; intros.
    + apply IHs. apply env_push; [apply env_push; auto|]; intros e' E; discriminate E.
    + apply exec_grows.
  - destruct (eval_access m en a) as [[[]| | | | |]|]; try reflexivity. apply loop_sim; intros.
    + apply IHs. apply env_push; [apply env_push; auto|]; intros e' E; discriminate E.
    + apply exec_grows.
  - destruct (eval_access m en a) as [v|]; [|reflexivity]. unfold embed_call.
    destruct (methods_of sc t) as [ms|]; [|reflexivity].
    assert (K : forall n x, out_sim st
       (match rec false n x with VNil => ONext st | VErr c => fail false (("err"%string, RErr c) :: en) e st | VStuck => OStuck end)
       (match rec (match ms with MBoth => true | _ => false end) n x with VNil => ONext st | VErr c => fail true (("err"%string, RErr c) :: en) e st | VStuck => OStuck end)).
    { intros n x. assert (R := rec_sim (match ms with MBoth => true | _ => false end) n x).
      unfold vres_sim in R. destruct (rec false n x) as [|c|].
      - rewrite R. apply out_sim_refl.
      - destruct R as [S R]. destruct (rec _ n x) as [|g|]; [contradiction| |].
        + destruct (mk_err_pushed en e) as [K|(ix & K)].
          * unfold fail. rewrite !K. reflexivity.
          * unfold fail. rewrite !K. cbn. destruct (es_cause e).
            -- split; [now constructor|]. eexists _, []. split; [reflexivity|]. now constructor.
            -- split; [constructor|]. eexists _, []. split; [reflexivity|]. constructor.
        + destruct (mk_err_pushed en e) as [K|(ix & K)].
          * unfold fail. rewrite !K. reflexivity.
          * unfold fail. rewrite !K. cbn. destruct (es_cause e); (split; [now constructor|auto]).
      - now rewrite R. }
    destruct ms, v as [[| | | | |[]| | | | | |]| | | | |], t; cbn [andb]; try reflexivity; try apply out_sim_refl; try apply K.
  - reflexivity.
Qed.

Lemma oneof_sim oc st : out_sim st (exec_oneof sc orc decls uuidd rec hs false m oc st) (exec_oneof sc orc decls uuidd rec hs true m oc st).
Proof.
  unfold exec_oneof. destruct (assoc _ _) as [[[f v]|]|]; [| |reflexivity].
  - destruct (assoc f _); [|reflexivity]. apply exec_sim. intros x e H. discriminate H.
  - destruct (oc_default oc); [|apply out_sim_refl]. apply fail_sim. intros x e' H. discriminate H.
Qed.

Lemma oneof_grows oc st : grows st (exec_oneof sc orc decls uuidd rec hs true m oc st).
Proof.
  unfold exec_oneof. destruct (assoc _ _) as [[[f v]|]|]; [| |exact I].
  - destruct (assoc f _); [|exact I]. apply exec_grows.
  - destruct (oc_default oc); [apply grows_fail|apply grows_refl].
Qed.

(** The whole method: besides the relation of the results, the list starts with the error
    of Validate. *)
Lemma exec_msg_sim mc : vres_sim (exec_msg sc orc decls uuidd rec hs false m mc) (exec_msg sc orc decls uuidd rec hs true m mc).
Proof.
  unfold exec_msg. destruct (mc_disabled mc); [reflexivity|].
  assert (H : out_sim (mkSt [] [])
    (match exF [] (mc_body mc) (mkSt [] []) with ONext st => loop (exec_oneof sc orc decls uuidd rec hs false m) (mc_oneofs mc) st | ORet e => ORet e | OStuck => OStuck end)
    (match exT [] (mc_body mc) (mkSt [] []) with ONext st => loop (exec_oneof sc orc decls uuidd rec hs true m) (mc_oneofs mc) st | ORet e => ORet e | OStuck => OStuck end)).
  { apply out_sim_bind; intros.
    - apply exec_sim. intros x e H. discriminate H.
    - apply loop_sim; [apply oneof_sim|apply oneof_grows].
    - apply grows_loop, oneof_grows. }
  revert H. unfold out_sim.
  destruct (exF [] (mc_body mc) (mkSt [] [])) as [s1|e|].
  - destruct (loop _ _ s1) as [s2|e|].
    + destruct (exT [] (mc_body mc) (mkSt [] [])) as [t1|g|]; [|intros [H _]; discriminate H|intros [H _]; discriminate H].
      intros [-> E]. cbn in E. rewrite E. reflexivity.
    + destruct (exT [] (mc_body mc) (mkSt [] [])) as [t1|g|]; [|tauto|cbn; tauto].
      intros [S H]. split; auto. destruct (loop _ _ t1) as [t2|g|]; auto; [|contradiction]. destruct H as (g & es & E & F). cbn in E. rewrite E.
      now constructor.
    + destruct (exT [] (mc_body mc) (mkSt [] [])) as [t1|g|]; try discriminate; [|reflexivity]. now intros ->.
  - destruct (exT [] (mc_body mc) (mkSt [] [])) as [t1|g|]; [|tauto|cbn; tauto].
    intros [S H]. split; auto. destruct (loop _ _ t1) as [t2|g|]; auto; [|contradiction]. destruct H as (g & es & E & F). cbn in E. rewrite E.
    now constructor.
  - destruct (exT [] (mc_body mc) (mkSt [] [])) as [t1|g|]; try discriminate; [|reflexivity]. now intros ->.
Qed.
End Sim.

Lemma vres_sim_refl a : (forall e, a = VErr e -> single e) -> vres_sim a a.
Proof. destruct a; cbn; auto. intros H. split; auto. apply first_of_refl; auto. Qed.

Lemma validate_f_sim sc orc k : forall b n x, vres_sim (validate_f sc orc k false n x) (validate_f sc orc k b n x).
Proof.
  induction k as [|k IH]; intros b n x; cbn [validate_f]; [reflexivity|].
  destruct (code_of sc n) as [mc|]; [|reflexivity].
  assert (H := exec_msg_sim sc orc (pkg_decls sc) (file_uuid sc) (validate_f sc orc k) (mc_helpers mc) x IH mc).
  destruct b; auto. apply vres_sim_refl. intros e E. rewrite E in H. apply H.
Qed.

Lemma validate_sim sc orc n x : vres_sim (validate sc orc false n x) (validate sc orc true n x).
Proof. apply validate_f_sim. Qed.
