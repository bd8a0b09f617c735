(** The tables in generated C++ are declared once, and where they are needed. *)
From Coq Require Import Lia.
From Verif Require Import Base BaseFacts Num Rules Types Values CcSpec JavaName JavaNameSpec JavaNameFacts JavaNameLookup JavaConst JavaConstSpec JavaConstFacts CcName CcNameSpec CcNameFacts.
Local Open Scope N_scope.

Lemma part_inv f p e r : In (p, e, r) (parts f) ->
  match p with
  | AtField => f_type f = FOne e /\ fr_typ (f_rules f) = Some r
  | AtItem => exists rr fr, f_type f = FRep e /\ fr_typ (f_rules f) = Some (RRepeated rr) /\ r_items rr = Some fr /\ fr_typ fr = Some r
  | AtKey => exists v rr fr, f_type f = FMap e v /\ fr_typ (f_rules f) = Some (RMap rr) /\ p_keys rr = Some fr /\ fr_typ fr = Some r
  | AtValue => exists k rr fr, f_type f = FMap k e /\ fr_typ (f_rules f) = Some (RMap rr) /\ p_values rr = Some fr /\ fr_typ fr = Some r
  end.
Proof.
  unfold parts, typed. destruct (f_type f) as [e'|e'|k v].
  - destruct (fr_typ (f_rules f)); [|intros []]. intros [H|[]]. injection H as <- <- <-. auto.
  - destruct (fr_typ (f_rules f)) as [[]|]; try (intros []; fail). destruct (r_items r0) as [fr|] eqn:I; [|intros []]. destruct (fr_typ fr) eqn:T; [|intros []].
    intros [H|[]]. injection H as <- <- <-. exists r0, fr. auto.
  - destruct (fr_typ (f_rules f)) as [[]|]; try (intros []; fail). intros H. apply in_app_or in H. destruct H as [H|H].
    + destruct (p_keys r0) as [fr|] eqn:I; [|destruct H]. destruct (fr_typ fr) eqn:T; [|destruct H]. destruct H as [H|[]]. injection H as <- <- <-. exists v, r0, fr. auto.
    + destruct (p_values r0) as [fr|] eqn:I; [|destruct H]. destruct (fr_typ fr) eqn:T; [|destruct H]. destruct H as [H|[]]. injection H as <- <- <-. exists k, r0, fr. auto.
Qed.

(** ** Once *)
Lemma declare_cases t c o : declare t c o = [] \/ exists x, declare t c o = [(t, x)].
Proof. unfold declare. destruct c, o; eauto. Qed.
Lemma sets_once c c' c'' o o' o'' : NoDup (map fst (declare InTable c o ++ declare NotInTable c' o' ++ declare PatternTable c'' o'')).
Proof.
  destruct (declare_cases InTable c o) as [-> | [x ->]], (declare_cases NotInTable c' o') as [-> | [y ->]], (declare_cases PatternTable c'' o'') as [-> | [z ->]]; cbn;
    repeat (apply NoDup_cons; [cbn; intuition discriminate|]); apply NoDup_nil.
Qed.
Lemma field_tables_once f : ~ two_patterns f -> NoDup (map fst (field_tables f)).
Proof.
  intros N. unfold field_tables. destruct (f_type f) as [e|e|k v] eqn:T; destruct (fr_typ (f_rules f)) as [r|] eqn:R; try (destruct r; constructor); try constructor.
  - apply sets_once.
  - destruct r as [| | | | | r | | | |]; try constructor. destruct (match r_items r with Some fr => fr_typ fr | None => None end) as [[]|]; try constructor; [apply sets_once|].
    rewrite <- (app_nil_r (declare NotInTable _ _)). exact (sets_once _ _ None _ _ None).
  - destruct r as [| | | | | | r | | |]; try constructor.
    destruct (p_keys r) as [[mk [[]|]]|] eqn:K; destruct (p_values r) as [[mv [[]|]]|] eqn:V; cbn [fr_typ app]; try constructor;
      rewrite ?app_nil_r; unfold declare, pattern_of; try (match goal with |- context [s_pattern ?x] => destruct (s_pattern x) eqn:P1 end; cbn; repeat constructor; auto; fail).
    destruct (s_pattern r0) eqn:P1, (s_pattern r1) eqn:P2; cbn; repeat constructor; auto. exfalso. apply N. exists k, v, r. refine (conj T (conj R _)).
    split; [exists mk, r0, b|exists mv, r1, b0]; rewrite ?K, ?V; auto.
Qed.
Lemma field_key (l : list field) : NoDup (map (fun f => squash (bs (f_name f))) l) -> NoDup l /\ forall f g, In f l -> In g l -> squash (bs (f_name f)) = squash (bs (f_name g)) -> f = g.
Proof. apply nodup_map_inv. Qed.
Lemma same_owner l m f t m' f' t' : file_names l -> In m l -> In m' l -> In f (fields_of m) -> In f' (fields_of m') ->
  lookup (simple_name m) (bs (f_name f)) t = lookup (simple_name m') (bs (f_name f')) t' -> m = m' /\ f = f' /\ t = t'.
Proof.
  intros (N & U & S & I) M M' F F' E. apply lookup_inj in E; auto. destruct E as (A & B & ->). apply nodup_map_inv in N. destruct N as [_ N]. assert (m = m') by auto. subst m'.
  refine (conj eq_refl (conj _ eq_refl)). destruct (field_key _ (S m M)) as [_ K]. apply K; auto. apply pgg_inj; auto; [apply (I m f)|apply (I m f')]; auto.
Qed.
Lemma tables_in l n : In n (map fst (flat_map msg_tables l)) <->
  exists m f t, In m l /\ In f (fields_of m) /\ In t (map fst (field_tables f)) /\ n = lookup (simple_name m) (bs (f_name f)) t.
Proof.
  rewrite in_map_iff. split.
  - intros ([n' x] & <- & H). apply in_flat_map in H. destruct H as (m & M & H). apply in_flat_map in H. destruct H as (f & F & H). apply in_map_iff in H.
    destruct H as ([t y] & E & H). injection E as <- <-. exists m, f, t. refine (conj M (conj F (conj _ eq_refl))). apply in_map_iff. exists (t, y). auto.
  - intros (m & f & t & M & F & H & ->). apply in_map_iff in H. destruct H as ([t' y] & E & H). cbn in E. subst t'. exists (lookup (simple_name m) (bs (f_name f)) t, y). split; auto.
    apply in_flat_map. exists m. split; auto. apply in_flat_map. exists f. split; auto. apply in_map_iff. exists (t, y). auto.
Qed.
Lemma inj_nodup {A B} (g : A -> B) l : (forall a b, In a l -> In b l -> g a = g b -> a = b) -> NoDup l -> NoDup (map g l).
Proof.
  induction l as [|a l IH]; intros J N; [constructor|]. inversion N. subst. cbn [map]. constructor.
  - intros H. apply in_map_iff in H. destruct H as (b & E & H). assert (b = a) by (apply J; auto; [now right|now left]). now subst.
  - apply IH; auto. intros x y X Y. apply J; now right.
Qed.
Lemma tables_once l ds : file_names (live l) -> (forall m f, In m (live l) -> In f (fields_of m) -> ~ two_patterns f) -> file_tables l = Some ds -> NoDup (map fst ds).
Proof.
  intros FN W C. unfold file_tables in C. destruct (existsb _ _); [discriminate|]. injection C as <-. pose proof FN as (N & U & S & I). rewrite flat_map_map. apply flat_nodup.
  - intros m M. unfold msg_tables. rewrite flat_map_map. apply flat_nodup.
    + intros f F. rewrite map_map. cbn [fst]. rewrite <- (map_map fst (lookup (simple_name m) (bs (f_name f)))). apply inj_nodup; [|now apply field_tables_once, (W m)].
      intros a b _ _ E. now destruct (same_owner (live l) m f a m f b) as (_ & _ & ?).
    + intros f g n F G A B. apply in_map_iff in A. apply in_map_iff in B. destruct A as (x & <- & A), B as (y & E & B).
      apply in_map_iff in A. apply in_map_iff in B. destruct A as (x' & <- & A), B as (y' & <- & B). cbn [fst] in E.
      now destruct (same_owner (live l) m g (fst y') m f (fst x')) as (_ & ? & _).
    + now apply field_key, S.
  - intros m m' n M M' A B. change (map fst (msg_tables m)) with (map fst (msg_tables m)) in A.
    assert (X : In n (map fst (flat_map msg_tables [m]))) by (cbn [flat_map]; now rewrite app_nil_r).
    assert (Y : In n (map fst (flat_map msg_tables [m']))) by (cbn [flat_map]; now rewrite app_nil_r).
    apply tables_in in X. apply tables_in in Y. destruct X as (a & f & t & [<-|[]] & F & _ & ->), Y as (b & g & u & [<-|[]] & G & _ & E).
    now destruct (same_owner (live l) m f t m' g u) as (? & _ & _).
  - now apply nodup_map_inv in N.
Qed.

(** ** Where they are needed *)
Lemma declare_in t c x (y : option ccontent) : c <> None -> y = Some x -> exists k, c = Some k /\ In (t, (k, x)) (declare t c y).
Proof. intros C ->. destruct c as [k|]; [|now elim C]. exists k. split; auto. now left. Qed.
Lemma need_value r t : In t (needs r) -> exists v, table_value r t = Some v /\
  match t with InTable => in_of r = Some v | NotInTable => not_in_of r = Some v | PatternTable => pattern_of r = Some v end.
Proof.
  unfold needs. intros H. apply in_app_or in H. destruct H as [H|H].
  - destruct (in_of r) as [c|] eqn:E; [|destruct (not_in_of r) as [c|] eqn:E'; [|destruct H]]; destruct H as [<-|[]]; exists c; (split; [|reflexivity]).
    + destruct r; cbn in E |- *; unfold some_list in E; try discriminate E;
        match type of E with match ?l with [] => _ | _ :: _ => _ end = _ => destruct l; [discriminate|]; now injection E as <- end.
    + destruct r; cbn in E' |- *; unfold some_list in E'; try discriminate E';
        match type of E' with match ?l with [] => _ | _ :: _ => _ end = _ => destruct l; [discriminate|]; now injection E' as <- end.
  - destruct (pattern_of r) eqn:E; [|destruct H]. destruct H as [<-|[]]. exists c. split; [|reflexivity]. destruct r; try discriminate E; exact E.
Qed.
Lemma field_resolves f p e r t : In (p, e, r) (parts f) -> rule_for e r -> bad_list f = false -> (p = AtField \/ forall w, e <> TWrap w) -> In t (needs r) -> has_table p r t ->
  exists c v, In (t, (c, v)) (field_tables f) /\ table_type e t = Some c /\ table_value r t = Some v.
Proof.
  intros P R B W U H. destruct (need_value r t U) as (v & V & D). apply part_inv in P. destruct p.
  - destruct P as [T Q]. unfold field_tables, bad_list in *. rewrite T, Q in *. destruct t.
    + assert (G : table_type e InTable = in_type e r /\ in_type e r <> None).
      { destruct r, e; cbn in R; try (now destruct R); try (destruct R as [R|(w' & R & _)]; discriminate R); try (destruct R as [R|R]; discriminate R); try discriminate R;
          try (destruct R as [n R]; discriminate R); try discriminate D; rewrite D in B; cbn in B; try discriminate B; cbn; split; try discriminate; auto; try (destruct k0; reflexivity).
        destruct R as [R|R]; [discriminate R|]. injection R as ->. reflexivity. }
      destruct G as [G1 G2]. destruct (declare_in InTable _ v _ G2 D) as (c & C & X). exists c, v. refine (conj _ (conj _ V)); [|congruence]. apply in_or_app. now left.
    + assert (G : table_type e NotInTable = in_type e r /\ in_type e r <> None).
      { destruct r, e; cbn in R; try (now destruct R); try (destruct R as [R|(w' & R & _)]; discriminate R); try (destruct R as [R|R]; discriminate R); try discriminate R;
          try (destruct R as [n R]; discriminate R); try discriminate D; rewrite D in B; cbn in B; rewrite ?orb_true_r in B; try discriminate B; cbn; split; try discriminate; auto; try (destruct k0; reflexivity).
        destruct R as [R|R]; [discriminate R|]. injection R as ->. reflexivity. }
      destruct G as [G1 G2]. destruct (declare_in NotInTable _ v _ G2 D) as (c & C & X). exists c, v. refine (conj _ (conj _ V)); [|congruence]. apply in_or_app. right. apply in_or_app. now left.
    + exists CcRE2, v. refine (conj _ (conj eq_refl V)). rewrite D. apply in_or_app. right. apply in_or_app. right. now left.
  - destruct P as (rr & fr & T & Q & I & F). unfold field_tables. rewrite T, Q, I, F. destruct W as [W|W]; [discriminate|]. destruct H as [H|H]; [discriminate|].
    destruct t; destruct r; try (now destruct H); cbn in R.
    + destruct R as [-> |R]; [|now elim (W WkString)]. exists CcString, v. refine (conj _ (conj eq_refl V)). rewrite D. apply in_or_app. left. now left.
    + destruct R as [n ->]. exists (CcEnum n), v. refine (conj _ (conj eq_refl V)). rewrite D. apply in_or_app. left. now left.
    + destruct R as [-> |R]; [|now elim (W WkString)]. exists CcString, v. refine (conj _ (conj eq_refl V)). rewrite D. apply in_or_app. right. apply in_or_app. left. now left.
    + destruct R as [n ->]. exists (CcEnum n), v. refine (conj _ (conj eq_refl V)). rewrite D. apply in_or_app. right. now left.
    + exists CcRE2, v. refine (conj _ (conj eq_refl V)). rewrite D. apply in_or_app. right. apply in_or_app. right. now left.
  - destruct P as (v' & rr & fr & T & Q & I & F). unfold field_tables. rewrite T, Q, I, F. destruct H as [H|H]; [discriminate|].
    destruct t; destruct r; try (now destruct H). exists CcRE2, v. refine (conj _ (conj eq_refl V)). rewrite D. apply in_or_app. left. now left.
  - destruct P as (k & rr & fr & T & Q & I & F). unfold field_tables. rewrite T, Q, I, F. destruct H as [H|H]; [discriminate|].
    destruct t; destruct r; try (now destruct H). exists CcRE2, v. refine (conj _ (conj eq_refl V)). rewrite D. apply in_or_app. right. now left.
Qed.
Lemma needs_in l n f x t : In (n, (f, x, t)) (file_needs l) -> exists m, In m (live l) /\ md_disabled (cm_desc m) = false /\ In f (fields_of m) /\ In x (parts f) /\ In t (needs (snd x)) /\
  n = lookup (simple_name m) (bs (f_name f)) t.
Proof.
  intros H. apply in_flat_map in H. destruct H as (m & M & H). unfold msg_needs in H. destruct (md_disabled (cm_desc m)) eqn:D; [destruct H|].
  apply in_flat_map in H. destruct H as (f' & F & H). apply in_flat_map in H. destruct H as (x' & X & H). apply in_map_iff in H. destruct H as (t' & E & H).
  injection E as <- -> -> ->. exists m. auto 10.
Qed.
Lemma tables_resolve l ds n f p e r t : file_tables l = Some ds -> file_rules_for (live l) -> In (n, (f, (p, e, r), t)) (file_needs l) -> has_table p r t ->
  exists c v, In (n, (c, v)) ds /\ table_type e t = Some c /\ table_value r t = Some v.
Proof.
  intros C R H T. unfold file_tables in C. destruct (existsb _ _) eqn:B; [discriminate|]. injection C as <-. apply needs_in in H. destruct H as (m & M & D & F & X & U & ->).
  assert (Z : fails m = false).
  { destruct (fails m) eqn:Z; auto. rewrite <- B. symmetry. apply existsb_exists. eauto. }
  unfold fails in Z. apply orb_false_iff in Z. destruct Z as [Z1 Z2]. rewrite D in Z2. cbn [negb andb] in Z2.
  destruct (field_resolves f p e r t) as (c & v & I & Y & V); auto.
  - now apply (R m f p).
  - destruct (bad_list f) eqn:Z; auto. rewrite <- Z1. symmetry. apply existsb_exists. eauto.
  - destruct p; auto; right; intros w ->; (assert (Q : existsb (fun f => existsb panics (parts f)) (fields_of m) = true); [|rewrite Q in Z2; discriminate]);
      apply existsb_exists; exists f; (split; [exact F|]); apply existsb_exists; eexists; (split; [exact X|reflexivity]).
  - exists c, v. split; auto. apply in_flat_map. exists m. split; auto. apply in_flat_map. exists f. split; auto. apply in_map_iff. exists (t, (c, v)). auto.
Qed.
Lemma field_missing f p e r t : In (p, e, r) (parts f) -> In t (needs r) -> ~ has_table p r t -> (t = PatternTable -> ~ one_pattern f) -> ~ In t (map fst (field_tables f)).
Proof.
  intros P U H O J. destruct (need_value r t U) as (v & V & D). apply part_inv in P. unfold field_tables in J. destruct p.
  - apply H. now left.
  - destruct P as (rr & fr & T & Q & I & F). rewrite T, Q, I, F in J. destruct r; try (destruct J; fail).
    + apply H. right. destruct t; exact Logic.I.
    + destruct t; try (apply H; right; exact Logic.I). discriminate D.
  - destruct P as (w & rr & fr & T & Q & I & F). rewrite T, Q, I, F in J. destruct t.
    + rewrite map_app in J. apply in_app_or in J. destruct J as [J|J]; [destruct r; try (destruct J; fail)|destruct (p_values rr) as [[? [[]|]]|]; cbn in J; try (destruct J; fail)];
        unfold declare, pattern_of in J; (destruct (s_pattern _); [destruct J as [J|[]]; discriminate J|destruct J]).
    + rewrite map_app in J. apply in_app_or in J. destruct J as [J|J]; [destruct r; try (destruct J; fail)|destruct (p_values rr) as [[? [[]|]]|]; cbn in J; try (destruct J; fail)];
        unfold declare, pattern_of in J; (destruct (s_pattern _); [destruct J as [J|[]]; discriminate J|destruct J]).
    + destruct r; try discriminate D; [apply H; right; exact Logic.I|]. cbn [app] in J. apply (O eq_refl). exists e, w, rr. refine (conj T (conj Q (or_intror _))).
      destruct (p_values rr) as [[mv [[]|]]|] eqn:W; cbn in J; try (destruct J; fail). destruct (s_pattern r0) eqn:S; [|destruct J]. exists mv, r0, b. auto.
  - destruct P as (w & rr & fr & T & Q & I & F). rewrite T, Q, I, F in J. destruct t.
    + rewrite map_app in J. apply in_app_or in J. destruct J as [J|J]; [destruct (p_keys rr) as [[? [[]|]]|]; cbn in J; try (destruct J; fail)|destruct r; try (destruct J; fail)];
        unfold declare, pattern_of in J; (destruct (s_pattern _); [destruct J as [J|[]]; discriminate J|destruct J]).
    + rewrite map_app in J. apply in_app_or in J. destruct J as [J|J]; [destruct (p_keys rr) as [[? [[]|]]|]; cbn in J; try (destruct J; fail)|destruct r; try (destruct J; fail)];
        unfold declare, pattern_of in J; (destruct (s_pattern _); [destruct J as [J|[]]; discriminate J|destruct J]).
    + destruct r; try discriminate D; [apply H; right; exact Logic.I|]. rewrite app_nil_r in J. apply (O eq_refl). exists w, e, rr. refine (conj T (conj Q (or_introl _))).
      destruct (p_keys rr) as [[mv [[]|]]|] eqn:W; cbn in J; try (destruct J; fail). destruct (s_pattern r0) eqn:S; [|destruct J]. exists mv, r0, b. auto.
Qed.
Lemma tables_missing l ds n f p e r t : file_names (live l) -> file_tables l = Some ds -> In (n, (f, (p, e, r), t)) (file_needs l) -> ~ has_table p r t ->
  (t = PatternTable -> ~ one_pattern f) -> ~ In n (map fst ds).
Proof.
  intros FN C H T O J. unfold file_tables in C. destruct (existsb _ _) eqn:B; [discriminate|]. injection C as <-. apply needs_in in H. destruct H as (m & M & D & F & X & U & ->).
  apply tables_in in J. destruct J as (m' & f' & t' & M' & F' & J & E). destruct (same_owner (live l) m f t m' f' t') as (_ & -> & ->); auto.
  now apply (field_missing f' p e r t').
Qed.

(** ** Failures of the generator *)
Lemma bad_list_iff f : (forall p e r, In (p, e, r) (parts f) -> rule_for e r) -> (bad_list f = true <-> wrapper_list f).
Proof.
  intros R. unfold bad_list, wrapper_list. split.
  - destruct (f_type f) as [e| |] eqn:T; try discriminate. destruct (fr_typ (f_rules f)) as [r|] eqn:Q; [|discriminate].
    assert (RF : rule_for e r). { apply (R AtField). unfold parts, typed. rewrite T, Q. now left. }
    destruct (in_type e r) eqn:I; [discriminate|]. intros H.
    destruct r, e; cbn in RF; try (now destruct RF); try (destruct RF as [RF|(w' & RF & _)]; discriminate RF); try (destruct RF as [RF|RF]; discriminate RF); try discriminate RF;
      try (destruct RF as [n RF]; discriminate RF); try discriminate I; try discriminate H.
    + exists w, (RNum k r). refine (conj eq_refl (conj eq_refl _)). destruct RF as [RF|(w' & RF & K)]; [discriminate|]. injection RF as <-. split; [intros ->; discriminate|].
      cbn in H. destruct (n_in r); [right|left; discriminate]. destruct (n_not_in r); [discriminate H|discriminate].
    + exists w, (RBytes r). refine (conj eq_refl (conj eq_refl _)). destruct RF as [RF|RF]; [discriminate|]. injection RF as ->. split; [discriminate|].
      cbn in H. destruct (b_in r); [right|left; discriminate]. destruct (b_not_in r); [discriminate H|discriminate].
  - intros (w & r & T & Q & _ & H). rewrite T, Q. destruct r; try (now destruct H); cbn.
    + destruct (n_in r), (n_not_in r); auto. now destruct H.
    + destruct (b_in r), (b_not_in r); auto. now destruct H.
Qed.
Lemma panics_iff f : existsb panics (parts f) = true <-> wrapper_elements f.
Proof.
  set (d := mkMsg "" [f] [] false MBoth). assert (E : constants d = None <-> existsb panics (parts f) = true).
  { unfold constants, d. cbn [md_fields md_oneofs flat_map app existsb]. rewrite orb_false_r. destruct (existsb panics (parts f)); split; try discriminate; auto. }
  rewrite <- E, constants_none. cbn. split; [intros (g & [<-|[]] & W); exact W|eauto].
Qed.
Lemma tables_none l : file_rules_for (live l) -> (file_tables l = None <->
  exists m f, In m (live l) /\ In f (fields_of m) /\ (wrapper_list f \/ (md_disabled (cm_desc m) = false /\ wrapper_elements f))).
Proof.
  intros R. unfold file_tables. split.
  - destruct (existsb _ _) eqn:E; [|discriminate]. intros _. apply existsb_exists in E. destruct E as (m & M & E). unfold fails in E. apply orb_true_iff in E. destruct E as [E|E].
    + apply existsb_exists in E. destruct E as (f & F & E). exists m, f. refine (conj M (conj F (or_introl _))). apply bad_list_iff; auto. intros p e r. now apply (R m f).
    + apply andb_true_iff in E. destruct E as [D E]. apply existsb_exists in E. destruct E as (f & F & E). exists m, f. refine (conj M (conj F (or_intror (conj _ _)))).
      * now destruct (md_disabled (cm_desc m)).
      * now apply panics_iff.
  - intros (m & f & M & F & W). replace (existsb fails (live l)) with true; [reflexivity|]. symmetry. apply existsb_exists. exists m. split; auto. unfold fails. apply orb_true_iff.
    destruct W as [W|[D W]]; [left|right; rewrite D; cbn [negb andb]]; apply existsb_exists; exists f; (split; [exact F|]).
    + apply bad_list_iff; auto. intros p e r. now apply (R m f).
    + now apply panics_iff.
Qed.

(** ** The schemas of C42 *)
Lemma needs_lists r t : In t (needs r) -> t <> PatternTable -> has_lists r.
Proof.
  intros U N. destruct (need_value r t U) as (v & _ & D). destruct t; [| |now elim N]; destruct r; cbn in D |- *; unfold some_list in D; try discriminate D;
    match type of D with match ?l with [] => _ | _ :: _ => _ end = _ => destruct l; [discriminate|] end; try (left; discriminate); right; discriminate.
Qed.
Lemma rule_has_table cl p q e r t : CcSpec.cc_rule_ok cl q e r -> In t (needs r) ->
  match p with AtField => True | AtItem => q = PItem | _ => q = PEntry end -> has_table p r t.
Proof.
  intros (L & P & _) U Q. destruct p; [now left|right|right|right]; subst q; destruct t; try (specialize (L (needs_lists r _ U ltac:(discriminate))); cbn in L; destruct r; now auto);
    destruct (need_value r _ U) as (v & _ & D); destruct r; try discriminate D; auto; cbn in P, D; rewrite P in D; discriminate D.
Qed.
Lemma fragment_tables cl f p e r t : CcSpec.cc_field_ok cl f -> In (p, e, r) (parts f) -> In t (needs r) -> has_table p r t.
Proof.
  intros K P U. apply part_inv in P. unfold CcSpec.cc_field_ok in K. destruct p; [now left| | |].
  - destruct P as (rr & fr & T & Q & I & F). rewrite T, Q in K. destruct K as (_ & _ & _ & K). rewrite I in K. cbn [inner] in K. destruct fr as [mr [r'|]]; [|discriminate]. injection F as ->.
    cbn in K. destruct e; try (apply (rule_has_table cl AtItem PItem _ r t K U eq_refl)). now destruct K.
  - destruct P as (v & rr & fr & T & Q & I & F). rewrite T, Q in K. destruct K as (_ & _ & _ & _ & K & _). rewrite I in K. cbn [inner] in K. destruct fr as [mr [r'|]]; [|discriminate]. injection F as ->.
    cbn in K. destruct e; try (apply (rule_has_table cl AtKey PEntry _ r t K U eq_refl)). now destruct K.
  - destruct P as (v & rr & fr & T & Q & I & F). rewrite T, Q in K. destruct K as (_ & _ & _ & _ & _ & K). rewrite I in K. cbn [inner] in K. destruct fr as [mr [r'|]]; [|discriminate]. injection F as ->.
    cbn in K. destruct e; try (apply (rule_has_table cl AtValue PEntry _ r t K U eq_refl)). now destruct K.
Qed.
Lemma fragment_generates cl f : CcSpec.cc_field_ok cl f -> ~ wrapper_list f /\ ~ wrapper_elements f /\ ~ two_patterns f.
Proof.
  intros K. unfold CcSpec.cc_field_ok in K. repeat split.
  - intros (w & r & T & Q & N & H). rewrite T in K. destruct (f_rules f) as [mr o]. cbn in Q. subst o. cbn in K. destruct K as (_ & L & _).
    destruct r; try (now destruct H); cbn in L; now apply L.
  - intros (w & [(r & fr & t & T & Q & I & F)|[(k & r & fr & t & T & Q & I & F)|(k & r & fr & t & T & Q & I & F)]]); rewrite T, Q in K; destruct fr as [mr o]; cbn in F; subst o.
    + destruct K as (_ & _ & _ & K). rewrite I in K. cbn in K. now destruct K.
    + destruct K as (_ & _ & _ & _ & _ & K). rewrite I in K. cbn in K. now destruct K.
    + destruct K as (_ & _ & _ & _ & K & _). rewrite I in K. cbn in K. now destruct K.
  - intros (k & v & r & T & Q & (m & s & p & E & S) & (m' & s' & p' & E' & S')). rewrite T, Q in K. destruct K as (_ & _ & _ & K & _). apply K. rewrite E, E'. cbn. rewrite S, S'. split; discriminate.
Qed.

Lemma needs_made r t : looks_up r t -> In t (needs r).
Proof.
  intros [(v & V & E) N]. unfold needs. apply in_or_app. destruct t.
  - left. assert (I : in_of r <> None).
    { destruct r; try discriminate V; cbn in V |- *; injection V as <-; cbn in E; unfold some_list;
        match goal with |- match ?l with [] => _ | _ :: _ => _ end <> None => destruct l; [now elim E|discriminate] end. }
    destruct (in_of r); [now left|now elim I].
  - left. specialize (N eq_refl). assert (A : in_of r = None).
    { destruct r; try discriminate V; cbn; unfold some_list;
        match goal with |- match ?l with [] => _ | _ :: _ => _ end = None => destruct l eqn:L; [reflexivity|] end;
        elim N; eexists; (split; [reflexivity|]); cbn; rewrite L; discriminate. }
    assert (B : not_in_of r <> None).
    { destruct r; try discriminate V; cbn in V |- *; injection V as <-; cbn in E; unfold some_list;
        match goal with |- match ?l with [] => _ | _ :: _ => _ end <> None => destruct l; [now elim E|discriminate] end. }
    rewrite A. destruct (not_in_of r); [now left|now elim B].
  - right. destruct r; try discriminate V; cbn in V |- *; [destruct (s_pattern r)|destruct (b_pattern r)]; try discriminate V; now left.
Qed.
Lemma lookups_made l m f x t : In m (kept l) -> md_disabled (cm_desc m) = false -> In f (own_fields m) -> In x (parts f) -> looks_up (snd x) t ->
  In (lookup (own_name m) (bs (f_name f)) t, (f, x, t)) (file_needs l).
Proof.
  intros M D F X U. apply in_flat_map. exists m. split; [exact M|]. unfold msg_needs. rewrite D. apply in_flat_map. exists f. split; [exact F|].
  apply in_flat_map. exists x. split; [exact X|]. apply in_map_iff. exists t. split; [reflexivity|now apply needs_made].
Qed.
