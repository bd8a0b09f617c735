(** Validation in Python agrees with the rules, on the schemas and values of PySpec.v: single values. *)
From Coq Require Import Lia ZifyBool ZifyNat Floats.SpecFloat.
From Verif Require Import Base Utf8 Num Rules Types Time Iface Checker Regex Known GoSem Spec Meaning Conflict Wt LitSpec BaseFacts Utf8Facts NumFacts
  LitFacts TimeFacts RegexFacts HostFacts KnownFacts Utf16Facts ExecFacts ExecRule ExecField ExecMsg Main MeaningFacts ConflictFacts Outcome Values Says LangFacts
  JavaFacts JavaRunFacts CcFacts Py PySpec.

(** ** Sources *)
Definition renders {A} (c : code A) : Prop := exists l, c = Some l.
Definition sayc {A} (c : code A) (a : A) (P : Prop) : Prop := exists l, c = Some l /\ says (run l a) P.

Lemma sayc_iff {A} (c : code A) a P Q : (P <-> Q) -> sayc c a P -> sayc c a Q.
Proof. intros E (l & -> & H). exists l. split; auto. eapply says_iff; eauto. Qed.
Lemma sayc_renders {A} (c : code A) a P : sayc c a P -> renders c.
Proof. intros (l & -> & _). now exists l. Qed.
Lemma in_order_app a b : in_order (a ++ b) = andthen (in_order a) (in_order b).
Proof. induction a as [|x t IH]; [reflexivity|]. cbn. rewrite IH. apply andthen_assoc. Qed.
Lemma run_app {A} (x y : list (A -> outcome)) a : run (x ++ y) a = andthen (run x a) (run y a).
Proof. unfold run. now rewrite map_app, in_order_app. Qed.
Lemma run_one {A} (s : A -> outcome) a : run [s] a = s a.
Proof. apply andthen_passes. Qed.
Lemma sayc_nil {A} (a : A) : sayc (seq []) a True.
Proof. exists []. split; auto. apply says_true. Qed.
Lemma sayc_cons {A} (c : code A) t a P Q : sayc c a P -> sayc (seq t) a Q -> sayc (seq (c :: t)) a (P /\ Q).
Proof.
  intros (x & -> & H) (y & E & K). cbn [seq]. rewrite E. exists (x ++ y). split; auto. rewrite run_app. apply says_seq; auto.
Qed.
Lemma sayc_last {A} (c : code A) a P : sayc c a P -> sayc (seq [c]) a P.
Proof. intros H. eapply sayc_iff; [|apply (sayc_cons c [] a P True H (sayc_nil a))]. tauto. Qed.
Lemma sayc_stmt {A} (s : A -> outcome) a P : says (s a) P -> sayc (stmt s) a P.
Proof. intros H. exists [s]. split; auto. now rewrite run_one. Qed.
Lemma sayc_nothing {A} (a : A) (P : Prop) : P -> sayc nothing a P.
Proof. intros H. exists []. split; auto. left. auto. Qed.
Lemma sayc_assign {A} (a : A) : sayc assign a True.
Proof. apply sayc_stmt. left. auto. Qed.
Lemma sayc_when {A} b (s : A -> outcome) a P : (b = true -> says (s a) P) -> sayc (when b s) a (b = true -> P).
Proof.
  unfold when. destruct b; intros H; [|apply sayc_nothing; discriminate].
  apply sayc_stmt. eapply says_iff; [|apply H; auto]. tauto.
Qed.
Lemma sayc_set {A B} (o : option B) (s : B -> A -> outcome) a (P : B -> Prop) :
  (forall b, o = Some b -> says (s b a) (P b)) -> sayc (if_set o s) a (forall b, o = Some b -> P b).
Proof.
  destruct o as [b|]; cbn [if_set]; intros H; [|apply sayc_nothing; discriminate].
  apply sayc_stmt. eapply says_iff; [|apply (H b eq_refl)]. split; [intros K c [= <-]; exact K|auto].
Qed.
Lemma sayc_size {A} (o : option N) (s : N -> A -> outcome) a (P : N -> Prop) :
  (o = Some 0%N -> P 0%N) -> (forall b, o = Some b -> says (s b a) (P b)) -> sayc (if_size o s) a (forall b, o = Some b -> P b).
Proof.
  destruct o as [b|]; cbn [if_size]; intros Z H; [|apply sayc_nothing; discriminate].
  destruct (N.eqb_spec b 0) as [->|Nz]; [apply sayc_nothing; intros b [= <-]; auto|].
  apply sayc_stmt. eapply says_iff; [|apply (H b eq_refl)]. split; [intros K c [= <-]; exact K|auto].
Qed.
Lemma sayc_text {A} (o : option bytes) (s : bytes -> A -> outcome) a (P : bytes -> Prop) :
  (o = Some [] -> P []) -> (forall b, o = Some b -> says (s b a) (P b)) -> sayc (if_text o s) a (forall b, o = Some b -> P b).
Proof.
  destruct o as [[|c t]|]; cbn [if_text]; intros Z H; [apply sayc_nothing; intros b [= <-]; auto| |apply sayc_nothing; discriminate].
  apply sayc_stmt. eapply says_iff; [|apply (H _ eq_refl)]. split; [intros K b [= <-]; exact K|auto].
Qed.
Lemma sayc_list {A B} (l : list B) (s : list B -> A -> outcome) a (P : Prop) :
  (l <> [] -> says (s l a) P) -> sayc (if_list l s) a (l <> [] -> P).
Proof.
  destruct l as [|c t]; cbn [if_list]; intros H; [apply sayc_nothing; congruence|].
  apply sayc_stmt. eapply says_iff; [|apply H; discriminate]. split; [auto|intros K; apply K; discriminate].
Qed.
(** Both lists. *)
Lemma sayc_lists {A B} (l nl : list B) (f : B -> A -> bool) (s1 s2 : list B -> A -> outcome) a (E : B -> Prop) t Q :
  (forall c, In c l \/ In c nl -> f c a = true <-> E c) ->
  s1 l a = py_raise_unless (existsb (fun c => f c a) l) -> s2 nl a = py_raise_unless (negb (existsb (fun c => f c a) nl)) ->
  sayc (seq t) a Q -> sayc (seq (if_list l s1 :: if_list nl s2 :: t)) a (listed E l nl /\ Q).
Proof.
  intros H E1 E2 T.
  assert (X : forall l', (forall c, In c l' -> f c a = true <-> E c) -> existsb (fun c => f c a) l' = true <-> Exists E l').
  { intros l' Hl. rewrite existsb_exists, Exists_exists. split; intros (c & Ic & K); exists c; split; auto; now apply (Hl c Ic). }
  assert (R : forall b (P : Prop), (b = true <-> P) -> says (py_raise_unless b) P).
  { intros [] P K; [left|right]; split; auto; [now apply K|]. intros K'. apply K in K'. discriminate. }
  eapply sayc_iff; [|apply sayc_cons; [apply (sayc_list l s1 a (Exists E l))|apply sayc_cons; [apply (sayc_list nl s2 a (~ Exists E nl))|exact T]]].
  - unfold listed. split; [|tauto]. intros (K1 & K2 & K3). split; [split; [exact K1|]|exact K3]. destruct nl; [now rewrite Exists_nil|apply K2; discriminate].
  - intros _. rewrite E1. apply R, X. auto.
  - intros _. rewrite E2. apply R. apply negb_iff, X. auto.
Qed.
Lemma says_unless b P : (b = true <-> P) -> says (py_raise_unless b) P.
Proof. intros H. destruct b; [left|right]; (split; [reflexivity|]); [now apply H|]. intros K. apply H in K. discriminate. Qed.

(** *** Empty sources *)
Lemma seq_empty {A} (l : list (code A)) : seq l = Some [] -> Forall (fun c => c = Some []) l.
Proof.
  induction l as [|c t IH]; intros H; [constructor|]. cbn [seq] in H. destruct c as [x|]; [|discriminate]. destruct (seq t) as [y|]; [|discriminate].
  injection H as H. apply app_eq_nil in H. destruct H as [-> ->]. constructor; auto.
Qed.
Lemma about_empty {A B} (part : B -> option A) c : about part c = Some [] -> c = Some [].
Proof. destruct c as [[|]|]; cbn; congruence. Qed.
Lemma guarded_empty {A} b (cond : A -> bool) c : guarded b cond c = Some [] -> b = false /\ c = Some [].
Proof. destruct b; cbn; [|auto]. unfold block. destruct c as [[|]|]; discriminate. Qed.
Lemma set_empty {A B} (o : option B) (s : B -> A -> outcome) : if_set o s = Some [] -> o = None.
Proof. destruct o; cbn; congruence. Qed.
Lemma size_empty {A} (o : option N) (s : N -> A -> outcome) : if_size o s = Some [] -> no_size o.
Proof. unfold no_size. destruct o as [n|]; cbn; auto. destruct (N.eqb_spec n 0) as [->|]; auto. discriminate. Qed.
Lemma text_empty {A} (o : option bytes) (s : bytes -> A -> outcome) : if_text o s = Some [] -> no_text o.
Proof. unfold no_text. destruct o as [[|]|]; cbn; auto. discriminate. Qed.
Lemma list_empty {A B} (l : list B) (s : list B -> A -> outcome) : if_list l s = Some [] -> l = [].
Proof. destruct l; cbn; congruence. Qed.
Lemma when_empty {A} b (s : A -> outcome) : when b s = Some [] -> b = false.
Proof. destruct b; cbn; congruence. Qed.

Lemma sayc_guarded {A} (b : bool) (cond : A -> bool) c a P : (b = true -> c <> Some []) -> sayc c a P ->
  sayc (guarded b cond c) a ((b = true /\ cond a = false) \/ P).
Proof.
  intros N (l & -> & H). destruct b; cbn [guarded].
  - unfold block. destruct l as [|x t]; [now destruct N|]. eexists. split; [reflexivity|]. rewrite run_one.
    destruct (cond a); cbn [only_if]; [|left; auto]. eapply says_iff; [|exact H]. intuition discriminate.
  - exists l. split; auto. eapply says_iff; [|exact H]. intuition discriminate.
Qed.
Lemma sayc_about {A B} (part : B -> option A) c b a P : part b = Some a -> sayc c a P -> sayc (about part c) b P.
Proof.
  intros E (l & -> & H). eexists. split; [reflexivity|]. unfold run in *. rewrite map_map.
  erewrite map_ext; [exact H|]. intros s. cbn. now rewrite E.
Qed.

(** *** Bounds *)
Lemma raise_if_unless b : raise_if (Some b) = throw_unless (negb b).
Proof. now destruct b. Qed.
Lemma py_or_some a b : py_or (Some a) (Some b) = Some (a || b).
Proof. now destruct a. Qed.
Lemma py_and_some a b : py_and (Some a) (Some b) = Some (a && b).
Proof. now destruct a. Qed.

Section Bounds.
Context {A B C : Type}.
Variable lt_ le_ gt_ ge_ : A -> B -> option bool.
Variable gen_gt : B -> B -> bool.
Variable clt cle cgt cge : C -> B -> bool.
Lemma run_bounds a c lt lte gt gte :
  (forall b, (lt = Some b \/ lte = Some b \/ gt = Some b \/ gte = Some b) ->
     lt_ a b = Some (clt c b) /\ le_ a b = Some (cle c b) /\ gt_ a b = Some (cgt c b) /\ ge_ a b = Some (cge c b)) ->
  exists l, py_bounds lt_ le_ gt_ ge_ gen_gt lt lte gt gte = Some l /\
    run l a = Cc.cc_ltgt clt cle cgt cge gen_gt c lt lte gt gte.
Proof.
  intros H.
  assert (K1 : forall b, lt = Some b -> _) by (intros b E; exact (H b (or_introl E))).
  assert (K2 : forall b, lte = Some b -> _) by (intros b E; exact (H b (or_intror (or_introl E)))).
  assert (K3 : forall b, gt = Some b -> _) by (intros b E; exact (H b (or_intror (or_intror (or_introl E))))).
  assert (K4 : forall b, gte = Some b -> _) by (intros b E; exact (H b (or_intror (or_intror (or_intror E))))).
  clear H. unfold py_bounds, Cc.cc_ltgt.
  destruct lt as [l|]; [specialize (K1 l eq_refl); destruct K1 as (A1 & A2 & A3 & A4)|clear K1];
  (destruct lte as [m|]; [specialize (K2 m eq_refl); destruct K2 as (B1 & B2 & B3 & B4)|clear K2]);
  (destruct gt as [g|]; [specialize (K3 g eq_refl); destruct K3 as (C1 & C2 & C3 & C4)|clear K3]);
  (destruct gte as [h|]; [specialize (K4 h eq_refl); destruct K4 as (D1 & D2 & D3 & D4)|clear K4]);
  (eexists; split; [reflexivity|]); try reflexivity; rewrite run_one;
  rewrite ?A1, ?A2, ?A3, ?A4, ?B1, ?B2, ?B3, ?B4, ?C1, ?C2, ?C3, ?C4, ?D1, ?D2, ?D3, ?D4, ?py_or_some, ?py_and_some, ?raise_if_unless; reflexivity.
Qed.
End Bounds.

(** ** Numbers *)
Lemma py_lit_same k n : py_const k n -> py_lit n = Some n.
Proof. intros (_ & I & N). destruct n as [z|[]]; auto; [now destruct (I s)|now destruct N]. Qed.
Lemma py_lits_same k l : (forall n, In n l -> py_const k n) -> py_lits l = Some l.
Proof.
  induction l as [|n t IH]; intros H; [reflexivity|]. cbn [py_lits]. rewrite (py_lit_same k) by (apply H; left; auto).
  rewrite IH; auto. intros; apply H; right; auto.
Qed.
Lemma py_zero_spec n : py_zero n = true <-> nzero n.
Proof. rewrite <- num_zero_b_spec. destruct n as [z|[]]; cbn; try reflexivity; destruct z; reflexivity. Qed.

Lemma py_num_body_empty r :
  py_num r = Some [] -> idle (RNum KInt32 r).
Proof.
  intros H. apply guarded_empty in H. destruct H as [_ H]. apply seq_empty in H. cbn [idle].
  rewrite !Forall_cons_iff in H. destruct H as (H1 & H2 & H3 & H4 & _).
  apply set_empty in H1. apply list_empty in H2, H3. repeat split; auto; unfold py_bounds in H4;
    destruct (n_lt r), (n_lte r), (n_gt r), (n_gte r); auto; discriminate H4.
Qed.

Lemma py_num_says k r n : num_of_kind k n = true -> py_num_ok k r -> check_num r = true -> ~ (ignoring (RNum k r) /\ idle (RNum k r)) ->
  sayc (py_num r) n (num_meaning r n).
Proof.
  intros K (Jc & Ji) C NE. unfold num_meaning.
  assert (NC := proj1 (check_num_ok r) C).
  eapply sayc_iff; [|unfold py_num; apply sayc_guarded].
  - assert (E : (n_ignore_empty r = Some true /\ nzero n) <-> (is_some (n_ignore_empty r) = true /\ negb (py_zero n) = false)).
    { rewrite negb_false_iff, py_zero_spec. destruct (n_ignore_empty r) as [[]|]; cbn; intuition congruence. }
    rewrite E. apply or_iff_compat_l. symmetry.
    instantiate (1 := (forall c, n_const r = Some c -> neq n c) /\ listed (neq n) (n_in r) (n_not_in r) /\
      (nan n \/ within_range nlt neq (bnd (n_lt r) (n_lte r)) (bnd (n_gt r) (n_gte r)) n)). clear. tauto.
  - intros Gi E. apply NE. split; [cbn; destruct (n_ignore_empty r); cbn in Gi; congruence|].
    assert (X : py_num (mkNumRules (n_const r) (n_lt r) (n_lte r) (n_gt r) (n_gte r) (n_in r) (n_not_in r) None) = Some []) by exact E.
    apply py_num_body_empty in X. exact X.
  - apply sayc_cons.
    { apply sayc_set. intros c Hc. rewrite (py_lit_same k c) by (apply Jc; auto). cbn [option_map]. rewrite raise_if_unless, negb_involutive.
      apply says_throw, num_eqb_spec. }
    apply (sayc_lists _ _ (fun c n => num_eqb n c)).
    { intros c _. apply num_eqb_spec. }
    { rewrite (py_lits_same k) by (intros; apply Jc; tauto). cbn [option_map]. unfold py_raise_unless. do 3 f_equal. }
    { rewrite (py_lits_same k) by (intros; apply Jc; tauto). cbn [option_map]. unfold py_raise_unless. rewrite negb_involutive. do 2 f_equal. }
    apply sayc_last.
    destruct (run_bounds (fun v b => option_map (num_ltb v) (py_lit b)) (fun v b => option_map (num_leb v) (py_lit b))
            (fun v b => option_map (fun b => num_ltb b v) (py_lit b)) (fun v b => option_map (fun b => num_leb b v) (py_lit b))
            (fun a b => num_ltb b a) num_ltb num_leb (fun v b => num_ltb b v) (fun v b => num_leb b v) n n
            (n_lt r) (n_lte r) (n_gt r) (n_gte r)) as (l & El & R).
    { intros b Hb. rewrite (py_lit_same k b) by (apply Jc; tauto). cbn [option_map]. auto. }
    exists l. split; [exact El|]. rewrite R. clear R El l.
    destruct (is_nan_dec n) as [Nn|Nn].
    + assert (N1 := fun b => nan_ltb_l n b Nn). assert (N2 := fun b => nan_ltb_r n b Nn).
      assert (N3 := fun b => nan_leb_l n b Nn). assert (N4 := fun b => nan_leb_r n b Nn).
      left. split; auto. unfold Cc.cc_ltgt. destruct (n_lt r), (n_lte r), (n_gt r), (n_gte r); rewrite ?N1, ?N2, ?N3, ?N4; cbn [orb andb negb throw_unless];
        try match goal with |- (if ?b then _ else _) = _ => destruct b end; reflexivity.
    + eapply says_iff; [|apply (says_ltgt _ _ _ _ _ nlt neq)].
      * split; auto. intros [X|X]; [contradiction|exact X].
      * intros x Hx. assert (Cx := Jc x ltac:(clear - Hx; tauto)). destruct Cx as (Kx & _ & Vx).
        rewrite !num_ltb_spec, !num_leb_spec.
        assert (Tr := trichotomy n x (kinds_same k n x K Kx) Nn Vx).
        assert (S1 := neq_sym n x). assert (S2 := neq_sym x n). clear - Tr S1 S2. tauto.
      * intros a b _ _. apply num_ltb_spec.
      * intros [H1 H2]. apply NC. now apply lt_with_lte.
      * intros [H1 H2]. apply NC. now apply gt_with_gte.
Qed.

Lemma py_bool_says c b : c <> None -> sayc (py_bool c) b (forall x, c = Some x -> b = x).
Proof.
  intros N. destruct c as [x|]; [|congruence]. apply sayc_stmt. cbn [getb]. rewrite raise_if_unless, negb_involutive.
  apply says_throw. rewrite Bool.eqb_true_iff. split; [intros H y [= <-]; exact H|auto].
Qed.

(** ** Texts *)
Lemma existsb_map {A B} (f : B -> bool) (g : A -> B) l : existsb f (map g l) = existsb (fun x => f (g x)) l.
Proof. induction l as [|x t IH]; [reflexivity|]. cbn. now rewrite IH. Qed.

Section Text.
Variable s p : bytes.
Hypothesis Hs : valid_utf8 s.
Hypothesis Hp : valid_utf8 p.
Lemma runes_inj : runes s = runes p <-> s = p.
Proof.
  split; [|now intros ->]. intros H. destruct (valid_text s Hs) as [_ E], (valid_text p Hp) as [_ F]. rewrite E, F. now f_equal.
Qed.
Lemma runes_eqb : bytes_eqb (runes s) (runes p) = true <-> s = p.
Proof. rewrite bytes_eqb_eq. apply runes_inj. Qed.
Lemma runes_prefix : has_prefix (runes s) (runes p) = true <-> starts_with s p.
Proof.
  rewrite BaseFacts.has_prefix_spec. destruct (valid_text s Hs) as [T Es], (valid_text p Hp) as [U Ep]. rewrite Es at 2. rewrite Ep at 2.
  symmetry. apply (code_prefix _ _ utf8_shape LitFacts.utf8_cancel); auto.
Qed.
Lemma runes_suffix : has_suffix (runes s) (runes p) = true <-> ends_with s p.
Proof.
  rewrite BaseFacts.has_suffix_spec. destruct (valid_text s Hs) as [T Es], (valid_text p Hp) as [U Ep]. rewrite Es at 2. rewrite Ep at 2.
  symmetry. apply (code_suffix _ _ utf8_shape LitFacts.utf8_cancel); auto.
Qed.
Lemma runes_inside : contains (runes s) (runes p) = true <-> has_inside s p.
Proof.
  rewrite BaseFacts.contains_spec. destruct (valid_text s Hs) as [T Es], (valid_text p Hp) as [U Ep]. rewrite Es at 2. rewrite Ep at 2.
  symmetry. apply (code_inside _ _ utf8_shape LitFacts.utf8_cancel); auto.
Qed.
End Text.
Lemma runes_nil s : valid_utf8 s -> runes s = [] <-> s = [].
Proof. intros H. apply (runes_inj s []); auto. exists []. split; auto. Qed.
Lemma runes_len s n : chars_count s n <-> blen (runes s) = n.
Proof. rewrite chars_count_iff. reflexivity. Qed.
Lemma runes_bytes s : valid_utf8 s -> byte_len (runes s) = blen s.
Proof. intros H. destruct (valid_text s H) as [T E]. unfold byte_len. rewrite utf8_encode_bytes by exact T. now rewrite <- E. Qed.
Lemma ascii_runes s : Forall (fun c => c < 128)%N s -> runes s = s.
Proof. intros H. apply runes_ascii, is_ascii_forall, H. Qed.

(** *** Host names *)
Lemma py_host_char_spec c : py_host_char c = true <-> ascii_letter c.
Proof. unfold py_host_char, ascii_letter, alnum. lia. Qed.
Lemma py_host_part_spec q : py_host_part q = true <-> ascii_label q.
Proof.
  unfold py_host_part, ascii_label, blen.
  assert (F : forallb py_host_char q = true <-> Forall ascii_letter q).
  { rewrite forallb_forall, Forall_forall. split; intros H c Hc; apply py_host_char_spec; auto. }
  rewrite !andb_true_iff, F. split; [intros [[H1 H2] H3]|intros (H1 & H2 & H3)]; repeat split; auto; lia.
Qed.
Lemma py_hostname_spec s : py_hostname s = true <-> rfc_hostname s.
Proof.
  unfold py_hostname, rfc_hostname, blen. rewrite !andb_true_iff.
  assert (F : forall l, forallb py_host_part l = true <-> Forall ascii_label l).
  { intros l. rewrite forallb_forall, Forall_forall. split; intros H c Hc; apply py_host_part_spec; auto. }
  rewrite F. split.
  - intros [[Ne L] H]. split; [lia|]. exists (split_on 46 (trim_suffix s [46%N])). split; [apply split_on_ne|]. split; [exact H|].
    rewrite split_join. destruct (trim_dot_cases s) as [(d & -> & E)|[_ E]]; rewrite E; auto.
  - intros (L & ls & N & A & E).
    assert (ND : Forall (fun p => ~ In 46%N p) ls) by (eapply Forall_impl; [apply label_no_dot|exact A]).
    assert (S : forall d, d = join_dots ls -> split_on 46 d = ls) by (intros d ->; now apply join_split).
    assert (Last : forall d, join_dots ls <> d ++ [46%N]).
    { intros d Hd. symmetry in Hd. apply S in Hd. rewrite split_dot_end in Hd. rewrite <- Hd in A. apply Forall_app in A. destruct A as [_ A].
      inversion A as [|? ? B]. destruct B as (B & _). cbn in B. lia. }
    assert (Nn : join_dots ls <> []).
    { intros Hd. symmetry in Hd. apply S in Hd. rewrite <- Hd in A. inversion A as [|? ? B]. destruct B as (B & _). cbn in B. lia. }
    repeat split; [| lia |].
    + destruct s; [|reflexivity]. destruct E as [E|E]; [congruence|destruct (join_dots ls); discriminate].
    + destruct (trim_dot_cases s) as [(d & Es & Et)|[Nd Et]]; rewrite Et; destruct E as [E|E].
      * exfalso. apply (Last d). congruence.
      * rewrite Es in E. apply app_inj_tail in E. destruct E as [-> _]. rewrite S; auto.
      * rewrite S; auto.
      * now destruct (Nd _ E).
Qed.
Lemma py_host_ascii s : Forall (fun c => c < 128)%N s -> py_hostname s = true <-> hostname s.
Proof. intros H. rewrite hostname_ascii by exact H. apply py_hostname_spec. Qed.

(** *** UUIDs *)
Lemma py_remove_none pat c s : In c pat -> ~ In c s -> py_remove pat 0 s = s.
Proof.
  intros Ip. induction s as [|x t IH]; intros N; [reflexivity|]. cbn [py_remove].
  destruct (has_prefix (x :: t) pat) eqn:E.
  - exfalso. apply BaseFacts.has_prefix_spec in E. destruct E as [y Ey]. apply N. rewrite Ey. apply in_app_iff. auto.
  - f_equal. apply IH. intros H. apply N. right. exact H.
Qed.
Lemma py_lstrip_none s : Forall (fun c => c <> 123 /\ c <> 125)%N s -> py_lstrip s = s.
Proof. intros H. destruct H as [|c t [H1 H2] _]; [reflexivity|]. cbn [py_lstrip]. destruct (N.eqb_spec c 123), (N.eqb_spec c 125); try contradiction. reflexivity. Qed.
Lemma py_hyphens s : py_remove (bs "-") 0 s = filter (fun c => negb (c =? 45)%N) s.
Proof.
  change (bs "-") with [45%N]. induction s as [|c t IH]; [reflexivity|]. cbn [py_remove filter].
  assert (E : has_prefix (c :: t) [45%N] = (c =? 45)%N).
  { destruct (N.eqb_spec c 45) as [->|Nc]; [apply BaseFacts.has_prefix_spec; now exists t|].
    apply not_true_iff_false. intros H. apply BaseFacts.has_prefix_spec in H. destruct H as [x Hx]. cbn in Hx. congruence. }
  rewrite E. destruct (c =? 45)%N; cbn [negb List.length Nat.sub]; rewrite <- IH; reflexivity.
Qed.
Lemma filter_hexes n l : hexes n l -> filter (fun c => negb (c =? 45)%N) l = l.
Proof.
  intros [_ F]. induction F as [|c t Hc _ IH]; [reflexivity|]. cbn [filter]. unfold hexdig in Hc.
  replace (c =? 45)%N with false by lia. cbn [negb]. now rewrite IH.
Qed.
Lemma uuid_hexes s : uuid s -> List.length (filter (fun c => negb (c =? 45)%N) s) = 32 /\ Forall hexdig (filter (fun c => negb (c =? 45)%N) s) /\
  Forall (fun c => hexdig c \/ c = 45%N) s.
Proof.
  intros (a & b & c & d & e & A & B & C & D & E & ->). rewrite !filter_app. change (filter (fun c => negb (c =? 45)%N) [45%N]) with (@nil N).
  rewrite (filter_hexes 8 a A), (filter_hexes 4 b B), (filter_hexes 4 c C), (filter_hexes 4 d D), (filter_hexes 12 e E).
  destruct A as [A1 A2], B as [B1 B2], C as [C1 C2], D as [D1 D2], E as [E1 E2]. rewrite !app_length. cbn [app List.length].
  split; [lia|]. split; [rewrite !Forall_app; auto|].
  assert (X : forall l, Forall hexdig l -> Forall (fun c => hexdig c \/ c = 45%N) l) by (intros l; apply Forall_impl; auto).
  apply Forall_app. split; [auto|]. constructor; [auto|]. apply Forall_app. split; [auto|]. constructor; [auto|].
  apply Forall_app. split; [auto|]. constructor; [auto|]. apply Forall_app. split; [auto|]. constructor; auto.
Qed.
Lemma py_uuid_plain pl s : Forall (fun c => ~ In c [58; 123; 125])%N s ->
  py_uuid pl s = (let h := filter (fun c => negb (c =? 45)%N) s in (blen h =? 32)%N && pl_int16 pl h).
Proof.
  intros H. unfold py_uuid.
  assert (N58 : ~ In 58%N s) by (intros I; rewrite Forall_forall in H; apply (H _ I); left; reflexivity).
  rewrite (py_remove_none (bs "urn:") 58 s) by (vm_compute; tauto || exact N58).
  rewrite (py_remove_none (bs "uuid:") 58 s) by (vm_compute; tauto || exact N58).
  assert (S : py_strip s = s).
  { assert (B : Forall (fun c => c <> 123 /\ c <> 125)%N s) by (eapply Forall_impl; [|exact H]; cbn; intros; lia).
    unfold py_strip. rewrite (py_lstrip_none s B). rewrite py_lstrip_none by (apply Forall_rev, B). apply rev_involutive. }
  rewrite S, py_hyphens. reflexivity.
Qed.

(** *** Addresses *)
Lemma split_first sep a t : ~ In sep a -> split_on sep (a ++ [sep] ++ t) = a :: split_on sep t.
Proof.
  induction a as [|c a IH]; intros H; [cbn [app split_on]; now rewrite N.eqb_refl|]. cbn [In] in H. cbn [app split_on].
  destruct (N.eqb_spec c sep); [tauto|]. change (a ++ sep :: t) with (a ++ [sep] ++ t). now rewrite IH by tauto.
Qed.
Lemma split_hd sep a t : ~ In sep a -> hd [] (split_on sep (a ++ t)) = a ++ hd [] (split_on sep t).
Proof.
  induction a as [|c a IH]; intros H; [reflexivity|]. cbn [In] in H. cbn [app split_on].
  destruct (N.eqb_spec c sep); [tauto|]. assert (N := split_on_ne sep (a ++ t)). specialize (IH ltac:(tauto)).
  destruct (split_on sep (a ++ t)); [congruence|]. cbn in *. now rewrite IH.
Qed.
Lemma split_none sep a : ~ In sep a -> split_on sep a = [a].
Proof.
  induction a as [|c a IH]; intros H; [reflexivity|]. cbn [In] in H. cbn [split_on]. destruct (N.eqb_spec c sep); [tauto|]. now rewrite IH by tauto.
Qed.
Lemma nth_hd {A} (l : list A) d : nth 0 l d = hd d l.
Proof. now destruct l. Qed.
Lemma existsb_in c s : existsb (N.eqb c) s = true <-> In c s.
Proof. rewrite existsb_exists. split; [intros (x & I & E); apply N.eqb_eq in E; now subst|intros I; exists c; split; auto; apply N.eqb_refl]. Qed.
Lemma mail_part_spec s addr : mail_part s addr ->
  (if existsb (N.eqb 60) s && existsb (N.eqb 62) s then hd [] (split_on 62 (nth 1 (split_on 60 s) [])) else s) = addr.
Proof.
  intros [[-> N]|(a & b & -> & N1 & N2 & N3)].
  - destruct (existsb (N.eqb 60) s) eqn:E1, (existsb (N.eqb 62) s) eqn:E2; auto. exfalso.
    rewrite existsb_in in E1, E2. tauto.
  - assert (E1 : existsb (N.eqb 60) (a ++ [60%N] ++ addr ++ [62%N] ++ b) = true) by (apply existsb_in; rewrite !in_app_iff; cbn; tauto).
    assert (E2 : existsb (N.eqb 62) (a ++ [60%N] ++ addr ++ [62%N] ++ b) = true) by (apply existsb_in; rewrite !in_app_iff; cbn; tauto).
    rewrite E1, E2. cbn [andb]. rewrite split_first by exact N1. cbn [nth]. rewrite nth_hd.
    rewrite app_assoc, split_hd by (rewrite in_app_iff; cbn; intros [?|[?|[]]]; [tauto|discriminate]).
    rewrite <- app_assoc, split_first by exact N3. reflexivity.
Qed.

Section Rules.
Variable orc : oracles.
Variable pl : py_libs.
Hypothesis OK : oracle_ok orc.
Hypothesis hex : forall h, List.length h = 32 -> Forall hexdig h -> pl_int16 pl h = true.

Lemma py_email_says s addr : Forall (fun c => c < 128)%N s -> mail_part s addr ->
  (if pl_email pl addr then o_mail orc s = Some addr /\ exists a b, addr = a ++ [64%N] ++ b /\ ~ In 64%N a /\ ~ In 64%N b
   else ~ email_ok (o_mail orc s)) -> says (py_email pl s) (email_ok (o_mail orc s)).
Proof.
  intros As M H. unfold py_email. rewrite (mail_part_spec s addr M).
  destruct (pl_email pl addr); cbn [negb]; [|right; auto].
  destruct H as (E & a & b & Ea & Na & Nb).
  assert (Aa : Forall (fun c => c < 128)%N addr).
  { destruct M as [[-> _]|(x & y & -> & _)]; auto. rewrite !Forall_app in As. tauto. }
  assert (K : email_ok (o_mail orc s) <-> List.length addr <= 254 /\ List.length a <= 64 /\ hostname b).
  { rewrite E. unfold email_ok. split.
    - intros (l & d & [= Ed] & Nl & L1 & L2 & Hd). change (addr = l ++ [64%N] ++ d) in Ed. rewrite <- Ed in L1. rewrite Ea in Ed.
      assert (S1 := split_first 64 a b Na). assert (S2 := split_first 64 l d Nl). rewrite Ed in S1. rewrite S1 in S2. injection S2 as -> _.
      apply app_inv_head in Ed. injection Ed as ->. auto.
    - intros (L1 & L2 & Hb). exists a, b. rewrite <- Ea. auto. }
  eapply says_iff; [symmetry; exact K|].
  rewrite Ea, split_first, split_none by auto. rewrite <- Ea. cbn [hd]. unfold blen.
  destruct (254 <? N.of_nat (List.length addr))%N eqn:L1; [right; split; auto; intros (Q & _); lia|].
  destruct (64 <? N.of_nat (List.length a))%N eqn:L2; [right; split; auto; intros (_ & Q & _); lia|].
  rewrite Ea in Aa. rewrite !Forall_app in Aa.
  apply says_unless. rewrite py_host_ascii by tauto. split; [intros Hb; split; [lia|split; [lia|exact Hb]]|tauto].
Qed.

Lemma py_wk_says w s : valid_utf8 s -> py_formats_agree pl orc w s ->
  sayc (py_well_known pl w) (runes s) ((forall k, w <> WRegex k) -> format_meaning orc w true s).
Proof using OK hex.
  intros V F.
  destruct w as [b|b|b|b|b|b|b|b|b|k]; try (destruct b; [|apply sayc_nothing; intros _; cbn; discriminate]).
  all: try (apply sayc_nothing; intros X; exfalso; eapply X; reflexivity).
  all: cbn [py_well_known format_meaning py_formats_agree] in *; cbv zeta in F; apply sayc_stmt.
  all: match goal with |- says _ (_ -> true = true -> ?P) =>
    apply (says_iff _ P); [split; [intros X _ _; exact X|intros X; apply X; [discriminate|reflexivity]]|] end.
  - destruct F as (A & addr & M & H). rewrite (ascii_runes s A). eapply py_email_says; eauto.
  - apply says_unless. rewrite (ascii_runes s F). now apply py_host_ascii.
  - apply says_unless. unfold py_ip. rewrite orb_true_iff. exact F.
  - apply says_unless. exact F.
  - apply says_unless. exact F.
  - destruct F as (u & -> & F). apply says_unless. rewrite !andb_true_iff, <- F. tauto.
  - destruct F as (u & -> & F). apply says_unless. rewrite <- F. destruct (u_scheme u), (u_path u), (u_fragment u); cbn; intuition congruence.
  - destruct F as [A F]. apply says_unless. rewrite (ascii_runes s A) in *. unfold py_ip. rewrite !orb_true_iff, F, py_host_ascii by auto. tauto.
  - apply says_unless. destruct F as [U|(N & A & L)].
    + destruct (uuid_hexes s U) as (L & H & B). rewrite ascii_runes by (eapply Forall_impl; [|exact B]; unfold hexdig; cbn; intros; lia).
      rewrite py_uuid_plain by (eapply Forall_impl; [|exact B]; unfold hexdig; cbn; intros; lia).
      cbv zeta. unfold blen. rewrite L, (hex _ L H). split; auto.
    + rewrite ascii_runes by exact A. rewrite py_uuid_plain by exact N. cbv zeta. unfold blen.
      split; [rewrite andb_true_iff; intros [Q _]; lia|]. intros U. now destruct (uuid_hexes s U).
Qed.

Lemma py_pattern_says r s : valid_utf8 s -> filled r -> s_wk r <> Some (WRegex KROther) ->
  (~ header_rule r -> forall p, s_pattern r = Some p -> p <> [] /\ py_regex p) ->
  (~ header_rule r -> forall p, s_pattern r = Some p -> pl_search pl p (runes s) = o_match orc p s) ->
  (forall w, s_wk r = Some w -> py_formats_agree pl orc w s) ->
  sayc (py_pattern pl r) (runes s) (forall p, s_pattern r = Some p -> o_match orc p s = true).
Proof using OK.
  intros V F NO JP Pat Fmt.
  assert (Whole : forall re, ~ ends_with s [10%N] -> py_whole re (runes s) = rmatch re (runes s)).
  { intros re Ne. unfold py_whole. replace (has_suffix (runes s) [10%N]) with false; [now rewrite orb_false_r|]. symmetry.
    apply not_true_iff_false. change [10%N] with (runes [10%N]). rewrite runes_suffix; auto. apply ascii_valid. repeat constructor. }
  assert (Dec : forall P : list N -> Prop, (exists l, decodes s l /\ P l) <-> P (runes s)).
  { intros P. split; [intros (l & D & H); apply decodes_iff in D; now subst|intros H; exists (runes s); split; auto; now apply decodes_iff]. }
  assert (M1 : o_match orc re_header_name s = true <-> rmatch header_name_re (runes s) = true).
  { rewrite (ok_name _ OK), Dec, rmatch_spec. symmetry. apply lang_header_name. }
  assert (M2 : o_match orc re_header_value s = true <-> rmatch header_value_re (runes s) = true).
  { rewrite (ok_value _ OK), Dec, rmatch_spec. symmetry. apply lang_header_value. }
  assert (M3 : o_match orc re_header_string s = true <-> rmatch header_string_re (runes s) = true).
  { rewrite (ok_line _ OK), Dec, rmatch_spec. symmetry. apply lang_header_string. }
  assert (Plain : ~ header_rule r -> sayc (if_text (s_pattern r) (fun p s => py_raise_unless (pl_search pl p s))) (runes s)
    (forall p, s_pattern r = Some p -> o_match orc p s = true)).
  { intros N. apply sayc_text; [intros E; now destruct (JP N _ E)|]. intros p Ep. apply says_unless. now rewrite (Pat N p Ep). }
  unfold py_pattern, filled in *. destruct (s_wk r) as [[b|b|b|b|b|b|b|b|b|k]|] eqn:Ew; try (apply Plain; unfold header_rule; rewrite Ew; intros [H|H]; discriminate).
  specialize (Fmt _ eq_refl). cbn [py_formats_agree] in Fmt. cbv zeta in Fmt.
  destruct k; try (apply Plain; unfold header_rule; rewrite Ew; intros [H|H]; discriminate); rewrite F.
  all: apply sayc_stmt, says_unless; rewrite Whole by exact Fmt; destruct (s_strict r) as [[]|]; rewrite <- ?M1, <- ?M2, <- ?M3;
    (split; [intros H p [= <-]; exact H|auto]).
Qed.

Lemma py_str_body_empty r : py_string pl r = Some [] -> idle (RString r).
Proof using.
  intros H. apply guarded_empty in H. destruct H as [_ H]. apply seq_empty in H. rewrite !Forall_cons_iff in H.
  destruct H as (H1 & H2 & H3 & H4 & H5 & H6 & H7 & H8 & H9 & H10 & H11 & H12 & H13 & H14 & H15 & _).
  apply set_empty in H1. apply list_empty in H2, H3. apply size_empty in H4, H5, H6, H7, H8, H9. apply text_empty in H11, H12, H13, H14.
  cbn [idle]. repeat (split; [solve [auto 10]|]). unfold py_pattern in H10.
  destruct (s_wk r) as [[b|b|b|b|b|b|b|b|b|[]]|]; try destruct b; try discriminate H15; try discriminate H10; now apply text_empty in H10.
Qed.

Lemma py_string_says r s : py_str_ok r -> check_len (s_len r) (s_min_len r) (s_max_len r) = true ->
  check_len (s_len_bytes r) (s_min_bytes r) (s_max_bytes r) = true -> filled r -> ~ (ignoring (RString r) /\ idle (RString r)) ->
  py_ruled pl orc (RString r) (VStr s) -> sayc (py_string pl r) (runes s) (str_flat orc r s).
Proof using OK hex.
  intros (JT & JQ & JP & NO & Z1 & Z2 & Z3 & Z4 & Z5) L1 L2 Fl NE (V & Pat & Fmt). unfold str_flat.
  eapply sayc_iff; [|unfold py_string; apply sayc_guarded].
  { assert (E : (s_ignore_empty r = Some true /\ s = []) <-> (getb (s_ignore_empty r) = true /\ negb (is_nil (runes s)) = false)).
    { rewrite negb_false_iff, is_nil_true, (runes_nil s V). destruct (s_ignore_empty r) as [[]|]; cbn; intuition congruence. }
    rewrite E. apply or_iff_compat_l. reflexivity. }
  { intros Gi E. apply NE. split; [cbn; destruct (s_ignore_empty r) as [[]|]; cbn in Gi; congruence|].
    assert (X : py_string pl (mkStringRules (s_const r) (s_len r) (s_min_len r) (s_max_len r) (s_len_bytes r) (s_min_bytes r) (s_max_bytes r)
      (s_pattern r) (s_prefix r) (s_suffix r) (s_contains r) (s_not_contains r) (s_in r) (s_not_in r) (s_wk r) (s_strict r) None) = Some []) by exact E.
    exact (py_str_body_empty _ X). }
  assert (VT : forall c, py_text c -> valid_utf8 c) by (intros c [H _]; exact H).
  assert (VQ : forall c, py_quoted c -> valid_utf8 c) by (intros c [H _]; exact H).
  assert (NN : valid_utf8 []) by (exists []; split; auto).
  eapply sayc_iff; cycle 1.
  { apply sayc_cons; [apply (sayc_set _ _ _ (fun c => s = c)); intros c Hc; apply says_unless, runes_eqb; auto|].
    apply (sayc_lists (s_in r) (s_not_in r) (fun c x => bytes_eqb x (runes c)) _ _ (runes s) (fun c => s = c)).
    { intros c Hc. apply runes_eqb; auto. }
    { now rewrite existsb_map. }
    { now rewrite existsb_map. }
    apply sayc_cons; [apply (sayc_size _ _ _ (chars_count s)); [congruence|]; intros n _; apply says_unless; rewrite runes_len; apply N.eqb_eq|].
    apply sayc_cons; [apply (sayc_size _ _ _ (fun n => exists k, chars_count s k /\ (n <= k)%N)); [intros _; exists (blen (runes s)); rewrite runes_len; split; [reflexivity|lia]|];
      intros n _; apply says_unless; rewrite negb_true_iff; split; [intros H; exists (blen (runes s)); rewrite runes_len; split; [reflexivity|lia]|
        intros (k & H & L); rewrite runes_len in H; lia]|].
    apply sayc_cons; [apply (sayc_size _ _ _ (fun n => exists k, chars_count s k /\ (k <= n)%N)); [congruence|];
      intros n _; apply says_unless; rewrite negb_true_iff; split; [intros H; exists (blen (runes s)); rewrite runes_len; split; [reflexivity|lia]|
        intros (k & H & L); rewrite runes_len in H; lia]|].
    apply sayc_cons; [apply (sayc_size _ _ _ (bytes_count s)); [congruence|]; intros n _; apply says_unless; rewrite runes_bytes by auto; apply N.eqb_eq|].
    apply sayc_cons; [apply (sayc_size _ _ _ (fun n => exists k, bytes_count s k /\ (n <= k)%N)); [intros _; exists (blen s); split; [reflexivity|lia]|];
      intros n _; apply says_unless; rewrite runes_bytes, negb_true_iff by auto; split; [intros H; exists (blen s); split; [reflexivity|lia]|
        intros (k & H & L); unfold bytes_count, blen in *; lia]|].
    apply sayc_cons; [apply (sayc_size _ _ _ (fun n => exists k, bytes_count s k /\ (k <= n)%N)); [congruence|];
      intros n _; apply says_unless; rewrite runes_bytes, negb_true_iff by auto; split; [intros H; exists (blen s); split; [reflexivity|lia]|
        intros (k & H & L); unfold bytes_count, blen in *; lia]|].
    apply sayc_cons; [apply (py_pattern_says r s); auto|].
    apply sayc_cons; [apply (sayc_text _ _ _ (starts_with s)); [intros _; now exists s|]; intros c Hc; apply says_unless, runes_prefix; [exact V|apply VT, JT; tauto]|].
    apply sayc_cons; [apply (sayc_text _ _ _ (ends_with s)); [intros _; exists s; now rewrite app_nil_r|]; intros c Hc; apply says_unless, runes_suffix; [exact V|apply VT, JT; tauto]|].
    apply sayc_cons; [apply (sayc_text _ _ _ (has_inside s)); [intros _; exists [], s; reflexivity|]; intros c Hc; apply says_unless, runes_inside; [exact V|apply VT, JT; tauto]|].
    apply sayc_cons; [apply (sayc_text _ _ _ (fun c => ~ has_inside s c)); [congruence|]; intros c Hc; apply says_unless, negb_iff, runes_inside; [exact V|apply VT, JT; tauto]|].
    apply sayc_last.
    instantiate (1 := forall w, s_wk r = Some w -> (forall k, w <> WRegex k) -> format_meaning orc w true s).
    destruct (s_wk r) as [w|]; [|apply sayc_nothing; discriminate].
    eapply sayc_iff; [|apply (py_wk_says w s); auto]. split; [intros X w' [= <-]; exact X|auto]. }
  clear. tauto.
Qed.

(** ** Bytes *)
Lemma plain_escape p : plain_ascii p -> unicode_escape p = p.
Proof using.
  clear. intros H. unfold unicode_escape, pystr. rewrite ascii_runes by (eapply Forall_impl; [|exact H]; cbn; intros; lia).
  induction H as [|c t Hc _ IH]; [reflexivity|]. cbn [flat_map]. rewrite IH. unfold unicode_escape1.
  replace (c =? 92)%N with false by lia. replace (c =? 9)%N with false by lia. replace (c =? 10)%N with false by lia.
  replace (c =? 13)%N with false by lia. replace ((32 <=? c) && (c <? 127))%N with true by lia. reflexivity.
Qed.
Lemma py_packed_spec l s : py_packed l s = true <-> In (blen s) l.
Proof using. apply existsb_in. Qed.

Lemma py_byt_body_empty r : py_bytes pl r = Some [] -> idle (RBytes r).
Proof using.
  intros H. apply guarded_empty in H. destruct H as [_ H]. apply seq_empty in H. rewrite !Forall_cons_iff in H.
  destruct H as (H1 & H2 & H3 & H4 & H5 & H6 & H7 & H8 & H9 & H10 & H11 & _).
  apply set_empty in H1. apply list_empty in H2, H3. apply size_empty in H4, H5, H6. apply text_empty in H8, H9, H10, H11.
  cbn [idle]. repeat (split; [solve [auto 10]|]).
  destruct (b_wk r) as [[b|b|b]|]; try destruct b; try discriminate H7; exact I.
Qed.

Lemma py_bytes_says r s : py_byt_ok r -> ~ (ignoring (RBytes r) /\ idle (RBytes r)) ->
  py_ruled pl orc (RBytes r) (VByt s) -> sayc (py_bytes pl r) s (byt_meaning orc r s).
Proof using.
  clear OK hex. intros (JC & JP & Z1 & Z2 & Z3 & ZL) NE (Pat & Map). unfold byt_meaning.
  eapply sayc_iff; [|unfold py_bytes; apply sayc_guarded].
  { assert (E : (b_ignore_empty r = Some true /\ s = []) <-> (getb (b_ignore_empty r) = true /\ negb (is_nil s) = false)).
    { rewrite negb_false_iff, is_nil_true. destruct (b_ignore_empty r) as [[]|]; cbn; intuition congruence. }
    rewrite E. apply or_iff_compat_l. reflexivity. }
  { intros Gi E. apply NE. split; [cbn; destruct (b_ignore_empty r) as [[]|]; cbn in Gi; congruence|].
    assert (X : py_bytes pl (mkBytesRules (b_const r) (b_len r) (b_min_len r) (b_max_len r)
      (b_pattern r) (b_prefix r) (b_suffix r) (b_contains r) (b_in r) (b_not_in r) (b_wk r) None) = Some []) by exact E.
    exact (py_byt_body_empty _ X). }
  eapply sayc_iff; cycle 1.
  { apply sayc_cons; [apply (sayc_set _ _ _ (fun c => s = c)); intros c Hc; apply says_unless, bytes_eqb_eq|].
    apply (sayc_lists (b_in r) (b_not_in r) (fun c x => bytes_eqb x c) _ _ s (fun c => s = c)).
    { intros c Hc. apply bytes_eqb_eq. }
    { reflexivity. }
    { reflexivity. }
    apply sayc_cons; [apply (sayc_size _ _ _ (bytes_count s)); [congruence|]; intros n _; apply says_unless; apply N.eqb_eq|].
    apply sayc_cons; [apply (sayc_size _ _ _ (fun n => exists k, bytes_count s k /\ (n <= k)%N)); [intros _; exists (blen s); split; [reflexivity|lia]|];
      intros n _; apply says_unless; rewrite negb_true_iff; split; [intros H; exists (blen s); split; [reflexivity|lia]|
        intros (k & H & L); unfold bytes_count, blen in *; lia]|].
    apply sayc_cons; [apply (sayc_size _ _ _ (fun n => exists k, bytes_count s k /\ (k <= n)%N)); [congruence|];
      intros n _; apply says_unless; rewrite negb_true_iff; split; [intros H; exists (blen s); split; [reflexivity|lia]|
        intros (k & H & L); unfold bytes_count, blen in *; lia]|].
    apply sayc_cons.
    { instantiate (1 := (b_wk r = Some (BIp true) -> ip_bytes s) /\ (b_wk r = Some (BIpv4 true) -> ip4_bytes s) /\
        (b_wk r = Some (BIpv6 true) -> ip_bytes s /\ ~ ip4_bytes s)).
      assert (W : forall b, b_wk r = Some b -> ~ mapped4 s) by (intros; apply Map; congruence).
      destruct (b_wk r) as [[[]|[]|[]]|]; try (apply sayc_nothing; repeat split; discriminate);
        specialize (W _ eq_refl); apply sayc_stmt, says_unless; rewrite py_packed_spec; unfold ip_bytes, ip4_bytes, blen in *; cbn [In].
      - split; [intros H; split; [intros _; lia|split; discriminate]|intros (H & _); specialize (H eq_refl); lia].
      - split; [intros H; split; [discriminate|split; [intros _; left; lia|discriminate]]|].
        intros (_ & H & _). specialize (H eq_refl). destruct H as [H|H]; [lia|contradiction].
      - split; [intros H; split; [discriminate|split; [discriminate|]]; intros _; split; [lia|intros [Q|Q]; [lia|contradiction]]|].
        intros (_ & _ & H). destruct (H eq_refl) as [H1 H2]. lia. }
    apply sayc_cons; [apply (sayc_text _ _ _ (fun p => o_match orc p s = true)); [intros E; now destruct (JP _ E)|];
      intros p Ep; apply says_unless; rewrite plain_escape by (apply JP; auto); rewrite (Pat p Ep); reflexivity|].
    apply sayc_cons; [apply (sayc_text _ _ _ (has_inside s)); [intros _; exists [], s; reflexivity|]; intros c Hc; apply says_unless, BaseFacts.contains_spec|].
    apply sayc_cons; [apply (sayc_text _ _ _ (starts_with s)); [intros _; now exists s|]; intros c Hc; apply says_unless, BaseFacts.has_prefix_spec|].
    apply sayc_last.
    apply (sayc_text _ _ _ (ends_with s)); [intros _; exists s; now rewrite app_nil_r|]; intros c Hc; apply says_unless, BaseFacts.has_suffix_spec. }
  assert (C : (forall c, b_const r = Some c -> s = c) <-> (forall c, b_const r = Some c -> c <> [] -> s = c)).
  { split; [intros H c Hc _; exact (H c Hc)|]. intros H c Hc. apply (H c Hc). intros ->. exact (Z1 Hc). }
  rewrite C. destruct (b_len r) as [n|].
  - destruct (ZL ltac:(discriminate)) as [-> ->]. intuition discriminate.
  - intuition.
Qed.
End Rules.

(** ** Enums and Any *)
Lemma py_enum_says sc e r z : e_const r <> Some 0%Z -> sayc (py_enum sc e r) z (enum_meaning sc e r z).
Proof.
  intros Z0. unfold py_enum, enum_meaning. apply sayc_cons.
  { destruct (e_const r) as [c|]; [|apply sayc_nothing; discriminate].
    unfold when. destruct (Z.eqb_spec c 0) as [->|_]; [congruence|]. cbn [negb]. apply sayc_stmt, says_unless.
    rewrite Z.eqb_eq. split; [intros H x [= <-]; exact H|auto]. }
  apply (sayc_lists (e_in r) (e_not_in r) (fun c x => Z.eqb x c) _ _ z (fun x => z = x)).
  { intros c _. apply Z.eqb_eq. }
  { reflexivity. }
  { reflexivity. }
  apply sayc_last. eapply sayc_iff; [|apply (sayc_when _ _ z (defined sc e z))].
  - destruct (e_defined_only r) as [[]|]; cbn; split; intros H Q; try discriminate; apply H; reflexivity.
  - intros _. apply says_unless. unfold py_enum_values, defined. rewrite existsb_exists. destruct (find_enum sc e) as [d|].
    + split; [intros (x & I & E); apply Z.eqb_eq in E; subst; eauto|intros (d' & [= <-] & I); exists z; split; auto; apply Z.eqb_refl].
    + split; [intros (x & [] & _)|intros (d' & E & _); discriminate].
Qed.

Lemma sayc_block {A} (cond : A -> bool) c a P : renders c -> c <> Some [] -> (cond a = true -> sayc c a P) ->
  sayc (block cond c) a (cond a = true -> P).
Proof.
  intros (l & ->) N H. unfold block. destruct l as [|x t]; [congruence|]. eexists. split; [reflexivity|]. rewrite run_one.
  destruct (cond a) eqn:E; cbn [only_if]; [|left; split; auto; discriminate].
  destruct (H eq_refl) as (l' & [= <-] & S). eapply says_iff; [|exact S]. tauto.
Qed.
Lemma seq_renders {A} (l : list (code A)) : Forall renders l -> renders (seq l).
Proof.
  induction 1 as [|c t (x & ->) _ (y & IH)]; [now exists []|]. cbn [seq]. rewrite IH. now exists (x ++ y).
Qed.
Lemma about_renders {A B} (part : B -> option A) c : renders c -> renders (about part c).
Proof. intros (l & ->). now eexists. Qed.
Lemma set_renders {A B} (o : option B) (s : B -> A -> outcome) : renders (if_set o s).
Proof. destruct o; eexists; reflexivity. Qed.
Lemma size_renders {A} (o : option N) (s : N -> A -> outcome) : renders (if_size o s).
Proof. destruct o as [n|]; cbn [if_size]; [destruct (n =? 0)%N|]; eexists; reflexivity. Qed.
Lemma text_renders {A} (o : option bytes) (s : bytes -> A -> outcome) : renders (if_text o s).
Proof. destruct o as [[|]|]; eexists; reflexivity. Qed.
Lemma list_renders {A B} (l : list B) (s : list B -> A -> outcome) : renders (if_list l s).
Proof. destruct l; eexists; reflexivity. Qed.
Lemma when_renders {A} b (s : A -> outcome) : renders (when b s).
Proof. destruct b; eexists; reflexivity. Qed.
Lemma bounds_renders {A B} lt_ le_ gt_ ge_ gen (lt lte gt gte : option B) : @renders A (py_bounds lt_ le_ gt_ ge_ gen lt lte gt gte).
Proof. unfold py_bounds. destruct lt, lte, gt, gte; eexists; reflexivity. Qed.

Lemma required_says elem b v : (elem = true -> b <> Some true) -> sayc (py_required elem b) v (b = Some true -> py_has v = true).
Proof.
  intros N. unfold py_required. eapply sayc_iff; [|apply (sayc_when _ _ v (py_has v = true))].
  - destruct b as [[]|]; cbn; split; intros H Q; try discriminate; apply H; reflexivity.
  - intros Hb. destruct elem; [destruct b as [[]|]; try discriminate; now destruct (N eq_refl)|]. apply says_unless. reflexivity.
Qed.
Lemma there_some elem v : (elem = true -> is_set v) -> py_there elem v = py_has v.
Proof. destruct elem; [|reflexivity]. cbn. intros H. specialize (H eq_refl). destruct v as [| | | | |[]|[]|[]|[]|[]| |]; cbn in *; auto; congruence. Qed.

Lemma py_any_says elem r o : (elem = true -> o <> None /\ a_required r <> Some true) ->
  (forall s, In s (a_in r) \/ In s (a_not_in r) -> py_quoted s) -> (forall u, o = Some u -> valid_utf8 u) ->
  sayc (py_any elem r) (VAny o) (any_meaning r o).
Proof.
  intros Hel J V. unfold py_any, any_meaning.
  assert (T : py_there elem (VAny o) = is_some o).
  { rewrite there_some; [now destruct o|]. intros E. destruct (Hel E) as [H _]. exact H. }
  assert (One : forall (l : list bytes) (neg : bool), (forall s, In s l -> py_quoted s) -> l <> [] ->
    sayc (block (py_there elem) (about any_url (stmt (fun u => py_raise_unless (if neg then negb (existsb (bytes_eqb u) (map pystr l)) else existsb (bytes_eqb u) (map pystr l))))))
      (VAny o) (forall u, o = Some u -> if neg then ~ Exists (fun x => u = x) l else Exists (fun x => u = x) l)).
  { intros l neg Q Nl. eapply sayc_iff; [|apply (sayc_block _ _ (VAny o) (forall u, o = Some u -> if neg then ~ Exists (fun x => u = x) l else Exists (fun x => u = x) l))].
    - rewrite T. split; [intros H u Hu; apply (H ltac:(now rewrite Hu) u Hu)|auto].
    - apply about_renders. eexists; reflexivity.
    - discriminate.
    - rewrite T. destruct o as [u|]; [intros _|discriminate].
      assert (K : existsb (bytes_eqb (runes u)) (map pystr l) = true <-> Exists (fun x => u = x) l).
      { rewrite existsb_map, existsb_exists, Exists_exists. split; intros (x & I & E); exists x; split; auto; apply (runes_eqb u x); auto; apply Q; auto. }
      eapply sayc_iff; [|eapply (sayc_about any_url); [reflexivity|apply sayc_stmt, says_unless]].
      + instantiate (1 := if neg then ~ Exists (fun x => u = x) l else Exists (fun x => u = x) l). split; [intros H u' [= <-]; exact H|intros H; exact (H u eq_refl)].
      + unfold pystr in *. destruct neg; [apply negb_iff|]; exact K. }
  eapply sayc_iff; [|apply sayc_cons; [apply required_says; tauto|apply sayc_cons; [|apply sayc_last]]].
  2:{ instantiate (1 := a_in r <> [] -> forall u, o = Some u -> Exists (fun x => u = x) (a_in r)).
      destruct (a_in r) as [|c t] eqn:E; [apply sayc_nothing; congruence|]. rewrite <- E in *.
      assert (Ne : a_in r <> []) by (rewrite E; discriminate).
      eapply sayc_iff; [|apply (One (a_in r) false); auto]. split; auto. }
  2:{ instantiate (1 := forall u, o = Some u -> ~ Exists (fun x => u = x) (a_not_in r)).
      destruct (a_not_in r) as [|c t] eqn:E; [apply sayc_nothing; intros; now rewrite Exists_nil|]. rewrite <- E in *.
      apply (One (a_not_in r) true); auto. rewrite E. discriminate. }
  unfold listed. assert (R : (a_required r = Some true -> py_has (VAny o) = true) <-> (a_required r = Some true -> o <> None)).
  { destruct o; cbn; split; intros H Q; try discriminate; try reflexivity; specialize (H Q); congruence. }
  rewrite R. clear. firstorder.
Qed.

(** ** Whole numbers as floats *)
Lemma int_shape m : (Zpos m < 2 ^ 53)%Z -> forall s,
  binary_round 53 1024 s m 0 = S754_finite s (Z.to_pos (Zpos m * 2 ^ (53 - Zpos (digits2_pos m)))) (Zpos (digits2_pos m) - 53).
Proof.
  intros B s. assert (D := digits_bounds m). set (d := Zpos (digits2_pos m)) in *.
  assert (Hd : (1 <= d <= 53)%Z).
  { split; [unfold d; lia|]. assert (d - 1 < 53)%Z by (apply (Z.pow_lt_mono_r_iff 2); lia). lia. }
  assert (F : forall e, (1 <= e <= 53)%Z -> fexp 53 1024 e = (e - 53)%Z) by (intros e He; unfold fexp, emin; lia).
  set (M := (Zpos m * 2 ^ (53 - d))%Z).
  assert (PM : (2 ^ 52 <= M < 2 ^ 53)%Z).
  { unfold M. replace (2 ^ 52)%Z with (2 ^ (d - 1) * 2 ^ (53 - d))%Z by (rewrite <- Z.pow_add_r by lia; f_equal; lia).
    replace (2 ^ 53)%Z with (2 ^ d * 2 ^ (53 - d))%Z by (rewrite <- Z.pow_add_r by lia; f_equal; lia).
    assert (0 < 2 ^ (53 - d))%Z by (apply Z.pow_pos_nonneg; lia). nia. }
  assert (MP : Zpos (Z.to_pos M) = M) by (apply Z2Pos.id; lia).
  assert (MD : Zpos (digits2_pos (Z.to_pos M)) = 53%Z).
  { change 53%Z with (52 + 1)%Z. apply digits_exact; [lia|]. rewrite MP. exact PM. }
  assert (Al : shl_align m 0 (fexp 53 1024 (d + 0)) = (Z.to_pos M, (d - 53)%Z)).
  { rewrite F by lia. unfold shl_align. replace (d + 0 - 53 - 0)%Z with (- (53 - d))%Z by lia.
    destruct (53 - d)%Z as [|k|k] eqn:E; try lia.
    - cbn [Z.opp]. f_equal; [|lia]. unfold M. rewrite Z.pow_0_r, Z.mul_1_r. reflexivity.
    - cbn [Z.opp]. f_equal; try lia. assert (Q := Zpower.shift_pos_correct k m). unfold M.
      apply Pos2Z.inj. etransitivity; [exact Q|]. change (2 ^ Zpos k)%Z with (Z.pow_pos 2 k). rewrite Z2Pos.id; [lia|].
      rewrite Z.mul_comm. rewrite <- Q. lia. }
  unfold binary_round. fold d. rewrite Al. unfold binary_round_aux.
  assert (Sh : forall z, Zdigits2 z = 53%Z -> shr_fexp 53 1024 z (d - 53) loc_Exact = (shr_record_of_loc z loc_Exact, (d - 53)%Z)).
  { intros z Hz. unfold shr_fexp. rewrite Hz. replace (53 + (d - 53))%Z with d by lia. rewrite F by lia. rewrite Z.sub_diag. reflexivity. }
  rewrite Sh by exact MD. cbn [shr_record_of_loc shr_m loc_of_shr_record round_nearest_even].
  rewrite Sh by exact MD. cbn [shr_record_of_loc shr_m]. replace (Zle_bool (d - 53) (1024 - 53)) with true by (symmetry; apply Z.leb_le; lia). reflexivity.
Qed.

Lemma pos_compare m1 m2 : (Zpos m1 < 2 ^ 53)%Z -> (Zpos m2 < 2 ^ 53)%Z ->
  SFcompare (binary_round 53 1024 false m1 0) (binary_round 53 1024 false m2 0) = Some (Zpos m1 ?= Zpos m2)%Z /\
  SFcompare (binary_round 53 1024 true m1 0) (binary_round 53 1024 true m2 0) = Some (Zpos m2 ?= Zpos m1)%Z.
Proof.
  intros B1 B2. rewrite !int_shape by auto. assert (D1 := digits_bounds m1). assert (D2 := digits_bounds m2).
  set (d1 := Zpos (digits2_pos m1)) in *. set (d2 := Zpos (digits2_pos m2)) in *.
  assert (H1 : (1 <= d1 <= 53)%Z) by (split; [unfold d1; lia|]; assert (d1 - 1 < 53)%Z by (apply (Z.pow_lt_mono_r_iff 2); lia); lia).
  assert (H2 : (1 <= d2 <= 53)%Z) by (split; [unfold d2; lia|]; assert (d2 - 1 < 53)%Z by (apply (Z.pow_lt_mono_r_iff 2); lia); lia).
  assert (P1 : (0 < 2 ^ (53 - d1))%Z) by (apply Z.pow_pos_nonneg; lia). assert (P2 : (0 < 2 ^ (53 - d2))%Z) by (apply Z.pow_pos_nonneg; lia).
  assert (C : (Zpos m1 ?= Zpos m2)%Z = match (d1 - 53 ?= d2 - 53)%Z with Eq => (Z.to_pos (Zpos m1 * 2 ^ (53 - d1)) ?= Z.to_pos (Zpos m2 * 2 ^ (53 - d2)))%positive | c => c end).
  { destruct (Z.compare_spec (d1 - 53) (d2 - 53)) as [E|E|E].
    - rewrite to_pos_compare by nia. replace d2 with d1 by lia. symmetry. apply same_scale. lia.
    - apply Z.compare_lt_iff. assert (2 ^ d1 <= 2 ^ (d2 - 1))%Z by (apply Z.pow_le_mono_r; lia). lia.
    - apply Z.compare_gt_iff. assert (2 ^ d2 <= 2 ^ (d1 - 1))%Z by (apply Z.pow_le_mono_r; lia). lia. }
  unfold SFcompare. split.
  - rewrite C. destruct (d1 - 53 ?= d2 - 53)%Z; reflexivity.
  - rewrite (Z.compare_antisym (Zpos m1) (Zpos m2)), C. destruct (d1 - 53 ?= d2 - 53)%Z; reflexivity.
Qed.
Lemma of_int_compare a b : (Z.abs a < 2 ^ 53)%Z -> (Z.abs b < 2 ^ 53)%Z -> SFcompare (of_int a) (of_int b) = Some (a ?= b)%Z.
Proof.
  intros A B. unfold of_int, binary_normalize.
  destruct a as [|m1|m1], b as [|m2|m2]; try reflexivity;
    try (rewrite !int_shape by lia; reflexivity).
  - apply pos_compare; lia.
  - destruct (pos_compare m1 m2) as [_ E]; try lia. etransitivity; [exact E|]. cbn [Z.compare]. now rewrite <- Pos.compare_antisym.
Qed.
Lemma of_int_plus_zero a : (Z.abs a < 2 ^ 53)%Z -> fadd (of_int a) (S754_zero false) = of_int a.
Proof.
  intros A. unfold of_int, binary_normalize, fadd. destruct a as [|m|m]; [reflexivity| |]; rewrite int_shape by lia; reflexivity.
Qed.
Lemma seconds_whole d : sn_n d = 0%Z -> (Z.abs (sn_s d) < 2 ^ 53)%Z -> py_seconds d = of_int (sn_s d) /\ py_dur_lit d = of_int (sn_s d).
Proof.
  intros N A. unfold py_seconds, py_dur_lit. rewrite N.
  assert (Z0 : fmul nano (of_int 0) = S754_zero false) by reflexivity. rewrite Z0. cbn [round9]. split; now apply of_int_plus_zero.
Qed.
Lemma whole_tests a b : (Z.abs a < 2 ^ 53)%Z -> (Z.abs b < 2 ^ 53)%Z ->
  (SFeqb (of_int a) (of_int b) = true <-> a = b) /\ (SFltb (of_int a) (of_int b) = true <-> (a < b)%Z) /\ (SFleb (of_int a) (of_int b) = true <-> (a <= b)%Z).
Proof.
  intros A B. unfold SFeqb, SFltb, SFleb. rewrite of_int_compare by auto. destruct (Z.compare_spec a b); repeat split; intros; try discriminate; auto; lia.
Qed.

(** ** Durations and timestamps *)
Lemma whole_valid_dur d : valid_duration d -> (Z.abs (sn_s d) < 2 ^ 53)%Z.
Proof. unfold valid_duration. intros. lia. Qed.
Lemma whole_valid_ts d : valid_timestamp d -> (Z.abs (sn_s d) < 2 ^ 53)%Z.
Proof. unfold valid_timestamp. intros. lia. Qed.

Lemma dur_bounds_say d (EQ LT : sn -> sn -> Prop) lt lte gt gte : sn_n d = 0%Z -> (Z.abs (sn_s d) < 2 ^ 53)%Z ->
  (forall c, (lt = Some c \/ lte = Some c \/ gt = Some c \/ gte = Some c) -> whole_seconds c /\
     (LT d c <-> (sn_s d < sn_s c)%Z) /\ (LT c d <-> (sn_s c < sn_s d)%Z) /\ (EQ d c <-> sn_s d = sn_s c) /\ (EQ c d <-> sn_s d = sn_s c)) ->
  (forall a b, (lt = Some a \/ lte = Some a) -> (gt = Some b \/ gte = Some b) -> LT b a <-> (sn_s b < sn_s a)%Z) ->
  ~ (lt <> None /\ lte <> None) -> ~ (gt <> None /\ gte <> None) ->
  sayc (py_dur_bounds lt lte gt gte) (of_int (sn_s d)) (within_range LT EQ (bnd lt lte) (bnd gt gte) d).
Proof.
  intros Dn Ds H G X1 X2. unfold py_dur_bounds.
  assert (Lit : forall c, (lt = Some c \/ lte = Some c \/ gt = Some c \/ gte = Some c) -> py_dur_lit c = of_int (sn_s c)).
  { intros c Hc. destruct (H c Hc) as ((N & A) & _). apply seconds_whole; auto. }
  destruct (run_bounds (fun v b => Some (SFltb v (py_dur_lit b))) (fun v b => Some (SFleb v (py_dur_lit b)))
    (fun v b => Some (f_gt v (py_dur_lit b))) (fun v b => Some (f_ge v (py_dur_lit b))) (fun a b => f_gt (py_dur_lit a) (py_dur_lit b))
    (fun x b => SFltb (of_int (sn_s x)) (py_dur_lit b)) (fun x b => SFleb (of_int (sn_s x)) (py_dur_lit b))
    (fun x b => f_gt (of_int (sn_s x)) (py_dur_lit b)) (fun x b => f_ge (of_int (sn_s x)) (py_dur_lit b))
    (of_int (sn_s d)) d lt lte gt gte) as (l & El & R).
  { auto. }
  exists l. split; [exact El|]. rewrite R. clear R El l. apply says_ltgt; auto.
  - intros c Hc. destruct (H c Hc) as ((N & A) & L1 & L2 & E1 & E2). rewrite (Lit c Hc). unfold f_gt, f_ge.
    destruct (whole_tests (sn_s d) (sn_s c) Ds A) as (T1 & T2 & T3). destruct (whole_tests (sn_s c) (sn_s d) A Ds) as (U1 & U2 & U3).
    rewrite T2, T3, U2, U3, L1, L2, E1, E2. lia.
  - intros a b Ha Hb. rewrite (Lit a), (Lit b) by tauto. rewrite G by auto. unfold f_gt.
    destruct (H a ltac:(tauto)) as ((_ & A) & _). destruct (H b ltac:(tauto)) as ((_ & B) & _). now destruct (whole_tests (sn_s b) (sn_s a) B A).
Qed.

Lemma apart_glued r : dur_apart (RDuration r) -> py_dur_glued r = false.
Proof.
  unfold py_dur_glued. cbn [dur_apart]. intros [(-> & -> & ->)|[(-> & ->)|(u & l & U & L & (Nu & Au) & (Nl & Al) & Lt)]]; [reflexivity|apply andb_false_r|].
  assert (G : f_gt (py_dur_lit u) (py_dur_lit l) = true).
  { unfold f_gt. destruct (seconds_whole u Nu Au) as [_ ->], (seconds_whole l Nl Al) as [_ ->]. now apply whole_tests. }
  apply andb_false_iff. right. destruct U as [-> | [-> ->]], L as [-> | [-> ->]]; now rewrite G.
Qed.
Lemma bound_glued r u : (d_const r <> None \/ d_in r <> [] \/ d_not_in r <> []) -> (d_lt r = Some u \/ d_lt r = None /\ d_lte r = Some u) ->
  (d_gt r = None /\ d_gte r = None \/
   exists l, (d_gt r = Some l \/ d_gt r = None /\ d_gte r = Some l) /\ whole_seconds l /\ whole_seconds u /\ (sn_s u <= sn_s l)%Z) ->
  py_dur_glued r = true.
Proof.
  intros A U L. unfold py_dur_glued. apply andb_true_iff. split.
  { destruct (d_const r), (d_in r), (d_not_in r); cbn; auto; intuition congruence. }
  assert (L' : match d_gt r, d_gte r with Some l, _ | None, Some l => negb (f_gt (py_dur_lit u) (py_dur_lit l)) | None, None => true end = true).
  { destruct L as [[-> ->]|(l & L & (Nl & Al) & (Nu & Au) & Le)]; [reflexivity|].
    assert (G : f_gt (py_dur_lit u) (py_dur_lit l) = false).
    { unfold f_gt. destruct (seconds_whole u Nu Au) as [_ ->], (seconds_whole l Nl Al) as [_ ->].
      apply not_true_iff_false. intros K. destruct (whole_tests (sn_s l) (sn_s u) Al Au) as (_ & T & _).
      first [apply T in K|rewrite T in K]; lia. }
    destruct L as [-> | [-> ->]]; now rewrite G. }
  destruct U as [-> | [-> ->]]; exact L'.
Qed.
Lemma py_duration_says elem r o : (elem = true -> o <> None /\ d_required r <> Some true) -> py_rule_ok (RDuration r) -> dur_apart (RDuration r) ->
  check_duration r = true -> (forall d, o = Some d -> dur_constrained r -> valid_duration d /\ sn_n d = 0%Z) ->
  sayc (py_duration elem r) (VDur o) (dur_meaning r o).
Proof.
  intros Hel J Ap C Vo. cbn [py_rule_ok] in J. unfold py_duration, dur_meaning. rewrite (apart_glued r Ap).
  assert (T : py_there elem (VDur o) = is_some o).
  { rewrite there_some; [now destruct o|]. intros E. destruct (Hel E) as [H _]. exact H. }
  assert (NC := check_duration_sound r C).
  eapply sayc_iff; [|apply sayc_cons; [apply required_says; tauto|apply sayc_last]].
  2:{ apply sayc_block.
      - apply about_renders, seq_renders. repeat constructor; [eexists; reflexivity|apply set_renders|apply list_renders|apply list_renders|apply bounds_renders].
      - intros E. apply about_empty, seq_empty in E. inversion E. discriminate.
      - rewrite T. destruct o as [d|]; [intros _|discriminate]. eapply sayc_about; [reflexivity|].
        instantiate (1 := forall d, o = Some d -> dur_constrained r -> (forall c, d_const r = Some c -> go_duration d = go_duration c) /\
          listed (fun x => go_duration d = go_duration x) (d_in r) (d_not_in r) /\
          within_range (fun a b => (go_duration a < go_duration b)%Z) (fun a b => go_duration a = go_duration b)
            (bnd (d_lt r) (d_lte r)) (bnd (d_gt r) (d_gte r)) d).
        assert (Dec : dur_constrained r \/ ~ dur_constrained r).
        { destruct (negb (is_nil (d_in r)) || negb (is_nil (d_not_in r)) || is_some (d_lt r) || is_some (d_lte r) ||
            is_some (d_gt r) || is_some (d_gte r) || is_some (d_const r)) eqn:E; [left; now apply constrained_iff|right].
          intros H. apply constrained_iff in H. congruence. }
        destruct Dec as [Dc|Dc].
        + destruct (Vo d eq_refl Dc) as [Vd Nd]. assert (Sd := whole_valid_dur d Vd). destruct (seconds_whole d Nd Sd) as [-> _].
          assert (Near : forall c, (d_const r = Some c \/ d_lt r = Some c \/ d_lte r = Some c \/ d_gt r = Some c \/ d_gte r = Some c \/
             In c (d_in r) \/ In c (d_not_in r)) -> whole_seconds c /\ py_dur_lit c = of_int (sn_s c) /\
             ((go_duration d < go_duration c)%Z <-> (sn_s d < sn_s c)%Z) /\ ((go_duration c < go_duration d)%Z <-> (sn_s c < sn_s d)%Z) /\
             (go_duration d = go_duration c <-> sn_s d = sn_s c)).
          { intros c Hc. destruct (J c Hc) as [[Nc Sc] Bc]. split; [split; auto|]. split; [now apply seconds_whole|].
            destruct (clamp_cc d c Bc) as (-> & -> & ->). unfold nanos. rewrite Nd, Nc. lia. }
          eapply sayc_iff; cycle 1.
          { apply sayc_cons; [apply sayc_assign|]. apply sayc_cons.
            - apply (sayc_set _ _ _ (fun c => go_duration d = go_duration c)). intros c Hc. destruct (Near c ltac:(tauto)) as ((_ & Sc) & -> & _ & _ & Q).
              apply says_unless. rewrite Q. now destruct (whole_tests (sn_s d) (sn_s c) Sd Sc).
            - apply (sayc_lists (d_in r) (d_not_in r) (fun c x => SFeqb x (py_dur_lit c)) _ _ _ (fun x => go_duration d = go_duration x)).
              { intros c Hc. destruct (Near c ltac:(tauto)) as ((_ & Sc) & -> & _ & _ & ->). now destruct (whole_tests (sn_s d) (sn_s c) Sd Sc). }
              { now rewrite existsb_map. }
              { now rewrite existsb_map. }
              apply sayc_last. apply (dur_bounds_say d (fun a b => go_duration a = go_duration b) (fun a b => (go_duration a < go_duration b)%Z)); auto.
              + intros c Hc. destruct (Near c ltac:(tauto)) as (W & _ & L1 & L2 & E). split; auto. split; auto. split; auto. split; auto.
                rewrite <- E. split; auto.
              + intros a b Ha Hb. destruct (J a ltac:(tauto)) as [[Na _] Ba]. destruct (J b ltac:(tauto)) as [[Nb _] _].
                destruct (clamp_cc b a Ba) as (-> & _). unfold nanos. rewrite Na, Nb. lia.
              + intros [H1 H2]. apply NC, dc_range. now apply lt_with_lte.
              + intros [H1 H2]. apply NC, dc_range. now apply gt_with_gte. }
          clear - Dc. split; [intros (_ & H1 & H2 & H3) x [= <-] _; auto|]. intros H. specialize (H d eq_refl Dc). tauto.
        + assert (N1 : d_const r = None /\ d_in r = [] /\ d_not_in r = [] /\ d_lt r = None /\ d_lte r = None /\ d_gt r = None /\ d_gte r = None).
          { unfold dur_constrained in Dc. destruct (d_const r), (d_in r), (d_not_in r), (d_lt r), (d_lte r), (d_gt r), (d_gte r); try (exfalso; apply Dc; clear; repeat (first [left; discriminate|right]); discriminate); auto 10. }
          destruct N1 as (-> & -> & -> & -> & -> & -> & ->). eexists. split; [reflexivity|]. left. split; [reflexivity|]. intros x _ Hc. contradiction. }
  rewrite T. assert (R : (d_required r = Some true -> py_has (VDur o) = true) <-> (d_required r = Some true -> o <> None)).
  { destruct o; cbn; split; intros H Q; try discriminate; try reflexivity; specialize (H Q); congruence. }
  rewrite R. split.
  - intros [H1 H2]. split; auto. intros d Ed Dc. specialize (H2 ltac:(now rewrite Ed) d Ed Dc). destruct (Vo d Ed Dc). tauto.
  - intros [H1 H2]. split; auto. intros _ d Ed Dc. specialize (H2 d Ed Dc). tauto.
Qed.

Lemma ts_constrained_dec r : ts_constrained r \/ ~ ts_constrained r.
Proof.
  unfold ts_constrained.
  destruct (t_const r), (t_lt r), (t_lte r), (t_gt r), (t_gte r), (t_lt_now r), (t_gt_now r), (t_within r);
    try (left; clear; repeat (first [left; discriminate|right]); discriminate).
  right. clear. intuition congruence.
Qed.

Lemma now_renders pl a b c : renders (py_now pl a b c).
Proof. unfold py_now. destruct a, b, c; eexists; reflexivity. Qed.

Lemma py_timestamp_says orc pl elem r o : (elem = true -> o <> None /\ t_required r <> Some true) -> py_rule_ok (RTimestamp r) ->
  check_timestamp r = true -> py_ruled pl orc (RTimestamp r) (VTs o) ->
  sayc (py_timestamp pl elem r) (VTs o) (ts_meaning orc r o).
Proof.
  intros Hel [J W] C Vo. unfold py_timestamp, ts_meaning.
  assert (T : py_there elem (VTs o) = is_some o).
  { rewrite there_some; [now destruct o|]. intros E. destruct (Hel E) as [H _]. exact H. }
  assert (NC := check_timestamp_sound (fun _ => true) r C).
  eapply sayc_iff; [|apply sayc_cons; [apply required_says; tauto|apply sayc_last]].
  2:{ apply sayc_block.
      - apply about_renders, seq_renders. repeat constructor; [eexists; reflexivity|apply set_renders|].
        destruct (_ || _); [apply bounds_renders|apply now_renders].
      - intros E. apply about_empty, seq_empty in E. inversion E. discriminate.
      - rewrite T. destruct o as [d|]; [intros _|discriminate]. eapply sayc_about; [reflexivity|].
        instantiate (1 := forall d, o = Some d -> ts_constrained r -> (forall c, t_const r = Some c -> nanos d = nanos c) /\
          (within_range (fun a b => (nanos a < nanos b)%Z) (fun a b => nanos a = nanos b)
            (bnd (t_lt r) (t_lte r)) (bnd (t_gt r) (t_gte r)) d /\
           (t_lt_now r <> None -> (nanos d < o_now orc)%Z) /\ (t_gt_now r <> None -> (o_now orc < nanos d)%Z))).
        destruct (ts_constrained_dec r) as [Dc|Dc].
        + destruct (Vo Dc) as (Vd & Nd & Same). assert (Sd := whole_valid_ts d Vd). destruct (seconds_whole d Nd Sd) as [-> _].
          assert (Near : forall c, (t_const r = Some c \/ t_lt r = Some c \/ t_lte r = Some c \/ t_gt r = Some c \/ t_gte r = Some c) ->
             whole_seconds c /\ py_dur_lit c = of_int (sn_s c) /\
             ((nanos d < nanos c)%Z <-> (sn_s d < sn_s c)%Z) /\ ((nanos c < nanos d)%Z <-> (sn_s c < sn_s d)%Z) /\
             (nanos d = nanos c <-> sn_s d = sn_s c) /\ (nanos c = nanos d <-> sn_s d = sn_s c)).
          { intros c Hc. destruct (J c Hc) as [Nc Sc]. split; [split; auto|]. split; [now apply seconds_whole|]. unfold nanos. rewrite Nd, Nc. lia. }
          eapply sayc_iff; cycle 1.
          { apply sayc_cons; [apply sayc_assign|]. apply sayc_cons.
            - apply (sayc_set _ _ _ (fun c => nanos d = nanos c)). intros c Hc. destruct (Near c ltac:(tauto)) as ((_ & Sc) & -> & _ & _ & Q & _).
              apply says_unless. rewrite Q. now destruct (whole_tests (sn_s d) (sn_s c) Sd Sc).
            - apply sayc_last.
              instantiate (1 := within_range (fun a b => (nanos a < nanos b)%Z) (fun a b => nanos a = nanos b)
                (bnd (t_lt r) (t_lte r)) (bnd (t_gt r) (t_gte r)) d /\
                (t_lt_now r <> None -> (nanos d < o_now orc)%Z) /\ (t_gt_now r <> None -> (o_now orc < nanos d)%Z)).
              destruct (is_some (t_lt r) || is_some (t_lte r) || is_some (t_gt r) || is_some (t_gte r)) eqn:E.
              + assert (E' : t_lt r <> None \/ t_lte r <> None \/ t_gt r <> None \/ t_gte r <> None).
                { clear - E. destruct (t_lt r), (t_lte r), (t_gt r), (t_gte r); cbn in E; try discriminate; clear;
                    repeat (first [left; discriminate|right]); discriminate. }
                assert (N1 : t_lt_now r = None) by (destruct (t_lt_now r) eqn:X; auto; exfalso; apply NC, tc_now_absolute; auto; left; congruence).
                assert (N2 : t_gt_now r = None) by (destruct (t_gt_now r) eqn:X; auto; exfalso; apply NC, tc_now_absolute; auto; right; left; congruence).
                eapply sayc_iff; [|apply (dur_bounds_say d (fun a b => nanos a = nanos b) (fun a b => (nanos a < nanos b)%Z)); auto].
                * rewrite N1, N2. split; [intros H; split; [exact H|split; congruence]|tauto].
                * intros c Hc. destruct (Near c ltac:(tauto)) as (W' & _ & L1 & L2 & E1 & E2). auto.
                * intros a b Ha Hb. destruct (J a ltac:(tauto)) as [Na _]. destruct (J b ltac:(tauto)) as [Nb _]. unfold nanos. rewrite Na, Nb. lia.
                * intros [H1 H2]. apply NC, tc_range. now apply lt_with_lte.
                * intros [H1 H2]. apply NC, tc_range. now apply gt_with_gte.
              + assert (E' : t_lt r = None /\ t_lte r = None /\ t_gt r = None /\ t_gte r = None).
                { clear - E. destruct (t_lt r), (t_lte r), (t_gt r), (t_gte r); cbn in E; try discriminate; auto. }
                destruct E' as (-> & -> & -> & ->). unfold py_now. rewrite W.
                assert (K : forall k, (Z.abs k < 2 ^ 53)%Z -> o_now orc = (k * 1000000000)%Z ->
                   (f_ge (of_int (sn_s d)) (of_int k) = true <-> ~ (nanos d < o_now orc)%Z) /\ (SFleb (of_int (sn_s d)) (of_int k) = true <-> ~ (o_now orc < nanos d)%Z)).
                { intros k Ak Ek. destruct (whole_tests (sn_s d) k Sd Ak) as (_ & _ & T3). destruct (whole_tests k (sn_s d) Ak Sd) as (_ & _ & U3).
                  unfold f_ge. rewrite T3, U3, Ek. unfold nanos. rewrite Nd. lia. }
                assert (WR : within_range (fun a b => (nanos a < nanos b)%Z) (fun a b => nanos a = nanos b) (bnd None None) (bnd None None) d) by (cbn; auto).
                destruct (t_lt_now r) as [bl|] eqn:El, (t_gt_now r) as [bg|] eqn:Eg.
                * exfalso. apply NC, tc_now_now; congruence.
                * destruct (Same ltac:(left; discriminate)) as (k & -> & Ak & Ek). destruct (K k Ak Ek) as [K1 K2].
                  apply sayc_stmt. rewrite raise_if_unless. apply says_throw. rewrite (negb_iff _ _ K1).
                  split; [intros H; split; [exact WR|split; [intros _; lia|congruence]]|intros (_ & H & _) X; apply X, H; discriminate].
                * destruct (Same ltac:(right; discriminate)) as (k & -> & Ak & Ek). destruct (K k Ak Ek) as [K1 K2].
                  apply sayc_stmt. rewrite raise_if_unless. apply says_throw. rewrite (negb_iff _ _ K2).
                  split; [intros H; split; [exact WR|split; [congruence|intros _; lia]]|intros (_ & _ & H) X; apply X, H; discriminate].
                * apply sayc_nothing. split; [exact WR|split; congruence]. }
          clear - Dc. split; [intros (_ & H1 & H2 & H3) x [= <-] _; auto|]. intros H. specialize (H d eq_refl Dc). tauto.
        + assert (N1 : t_const r = None /\ t_lt r = None /\ t_lte r = None /\ t_gt r = None /\ t_gte r = None /\ t_lt_now r = None /\ t_gt_now r = None /\ t_within r = None).
          { unfold ts_constrained in Dc. destruct (t_const r), (t_lt r), (t_lte r), (t_gt r), (t_gte r), (t_lt_now r), (t_gt_now r), (t_within r);
              try (exfalso; apply Dc; clear; repeat (first [left; discriminate|right]); discriminate); auto 10. }
          destruct N1 as (-> & -> & -> & -> & -> & -> & -> & ->). eexists. split; [reflexivity|]. left. split; [reflexivity|]. intros x _ Hc. contradiction. }
  rewrite T. assert (R : (t_required r = Some true -> py_has (VTs o) = true) <-> (t_required r = Some true -> o <> None)).
  { destruct o; cbn; split; intros H Q; try discriminate; try reflexivity; specialize (H Q); congruence. }
  rewrite R. split.
  - intros [H1 H2]. split; auto. intros d Ed Dc. specialize (H2 ltac:(now rewrite Ed) d Ed Dc). rewrite Ed in Vo. destruct (Vo Dc) as (V1 & _).
    rewrite W. destruct H2 as (A1 & A2 & A3 & A4). repeat (split; auto). discriminate.
  - intros [H1 H2]. split; auto. intros _ d Ed Dc. specialize (H2 d Ed Dc). cbv zeta in H2. tauto.
Qed.
