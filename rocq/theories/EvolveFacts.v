(** Proofs for EvolveSpec.v. *)
From Coq Require Import Lia Floats.SpecFloat Sorting.Permutation.
From Verif Require Import Base Num Rules Types Iface Spec Meaning Wt Checker LangFacts ExecMsg GoCompile Setting GoSem FieldFacts EvolveSpec.

(** * Comparison of numbers *)

Lemma pos_lt_trans a b c : Pos.compare a b = Lt -> Pos.compare b c = Lt -> Pos.compare a c = Lt.
Proof. rewrite !Pos.compare_lt_iff. apply Pos.lt_trans. Qed.
Lemma z_cases a b : (Z.compare a b = Eq /\ a = b) \/ (Z.compare a b = Lt /\ (a < b)%Z) \/ (Z.compare a b = Gt /\ (b < a)%Z).
Proof. destruct (Z.compare_spec a b); auto. Qed.
Lemma p_cases a b : (Pos.compare a b = Eq /\ a = b) \/ (Pos.compare a b = Lt /\ (a < b)%positive) \/ (Pos.compare a b = Gt /\ (b < a)%positive).
Proof. destruct (Pos.compare_spec a b); auto. Qed.
Lemma pcc a b : Pos.compare_cont Eq a b = Pos.compare a b.
Proof. reflexivity. Qed.

Lemma SFcompare_eq_l a b c : SFcompare a b = Some Eq -> SFcompare a c = SFcompare b c.
Proof.
  destruct a as [sa|sa| |sa ma ea], b as [sb|sb| |sb mb eb], c as [sc|sc| |sc mc ec]; cbn; try discriminate; auto;
  repeat match goal with s : bool |- _ => destruct s end; cbn; try discriminate; auto;
  destruct (z_cases ea eb) as [[E1 ->]|[[E1 L]|[E1 L]]]; rewrite ?E1; try discriminate;
  rewrite ?Z.compare_refl in *; destruct (p_cases ma mb) as [[E2 ->]|[[E2 L]|[E2 L]]]; rewrite ?(pcc ma mb), ?E2; cbn; try discriminate; auto.
Qed.
Lemma SFcompare_lt_trans a b c : SFcompare a b = Some Lt -> SFcompare b c = Some Lt -> SFcompare a c = Some Lt.
Proof.
  destruct a as [sa|sa| |sa ma ea], b as [sb|sb| |sb mb eb], c as [sc|sc| |sc mc ec]; cbn; try discriminate; auto;
  repeat match goal with s : bool |- _ => destruct s end; cbn; try discriminate; auto;
  destruct (z_cases ea eb) as [[E1 X]|[[E1 X]|[E1 X]]], (z_cases eb ec) as [[E2 Y]|[[E2 Y]|[E2 Y]]], (z_cases ea ec) as [[E3 Z]|[[E3 Z]|[E3 Z]]];
  rewrite ?E1, ?E2, ?E3; try discriminate; auto; try lia; rewrite ?(pcc ma mb), ?(pcc mb mc), ?(pcc ma mc);
  destruct (p_cases ma mb) as [[F1 U]|[[F1 U]|[F1 U]]]; rewrite ?F1; cbn [CompOpp]; try discriminate;
  destruct (p_cases mb mc) as [[F2 V]|[[F2 V]|[F2 V]]]; rewrite ?F2; cbn [CompOpp]; try discriminate; auto;
  destruct (p_cases ma mc) as [[F3 W]|[[F3 W]|[F3 W]]]; rewrite ?F3; cbn [CompOpp]; try discriminate; auto; lia.
Qed.
Lemma SFcompare_eq_sym a b : SFcompare a b = Some Eq -> SFcompare b a = Some Eq.
Proof.
  destruct a as [sa|sa| |sa ma ea], b as [sb|sb| |sb mb eb]; cbn; try discriminate; auto;
  repeat match goal with s : bool |- _ => destruct s end; cbn; try discriminate; auto;
  destruct (z_cases ea eb) as [[E1 ->]|[[E1 L]|[E1 L]]]; rewrite ?E1; try discriminate;
  rewrite ?Z.compare_refl in *; destruct (p_cases ma mb) as [[E2 ->]|[[E2 L]|[E2 L]]]; rewrite ?(pcc ma mb), ?(pcc mb ma), ?(pcc mb mb); rewrite ?E2, ?Pos.compare_refl; cbn; try discriminate; auto.
Qed.
Lemma SFcompare_lt_eq a b c : SFcompare a b = Some Lt -> SFcompare b c = Some Eq -> SFcompare a c = Some Lt.
Proof.
  intros L E. destruct (SFcompare a c) as [[]|] eqn:C; auto.
  - rewrite (SFcompare_eq_l _ _ b C) in L. apply SFcompare_eq_sym in E. congruence.
  - destruct a as [sa|sa| |sa ma ea], b as [sb|sb| |sb mb eb], c as [sc|sc| |sc mc ec]; cbn in *; try discriminate;
    repeat match goal with s : bool |- _ => destruct s end; cbn in *; try discriminate;
    destruct (z_cases eb ec) as [[E1 ->]|[[E1 X]|[E1 X]]]; rewrite ?E1 in E; try discriminate;
    destruct (p_cases mb mc) as [[E2 ->]|[[E2 Y]|[E2 Y]]]; rewrite ?(pcc mb mc), ?E2 in E; cbn in E; try discriminate; congruence.
  - destruct a, b, c; cbn in *; try discriminate;
    repeat match goal with s : bool |- _ => destruct s end; cbn in *; try discriminate;
    repeat match type of C with context[Z.compare ?a ?b] => destruct (Z.compare a b) end; discriminate.
Qed.

Lemma nlt_trans a b c : nlt a b -> nlt b c -> nlt a c.
Proof. destruct a, b, c; cbn; try tauto; [lia|apply SFcompare_lt_trans]. Qed.
Lemma neq_nlt a b c : neq a b -> nlt b c -> nlt a c.
Proof. destruct a, b, c; cbn; try tauto; [lia|]. intros E. now rewrite (SFcompare_eq_l _ _ _ E). Qed.
Lemma nlt_neq a b c : nlt a b -> neq b c -> nlt a c.
Proof. destruct a, b, c; cbn; try tauto; [lia|apply SFcompare_lt_eq]. Qed.

(** * Rules *)

Section Ranges.
Context {T : Type} (lt eq : T -> T -> Prop).
Hypothesis tr : forall a b c, lt a b -> lt b c -> lt a c.
Hypothesis el : forall a b c, eq a b -> lt b c -> lt a c.
Hypothesis le : forall a b c, lt a b -> eq b c -> lt a c.
Lemma below_kept u u' v : up_kept lt u u' -> below lt eq u' v -> below lt eq u v.
Proof using tr el. intros [->|[L|(t & -> & ->)]]; auto; [|cbn; auto]. destruct u, u'; cbn in *; intuition eauto. Qed.
Lemma above_kept l l' v : lo_kept lt l l' -> above lt eq l' v -> above lt eq l v.
Proof using tr le. intros [->|[L|(t & -> & ->)]]; auto; [|cbn; auto]. destruct l, l'; cbn in *; intuition eauto. Qed.
Lemma ordered u l u' l' : up_kept lt u u' -> lo_kept lt l l' -> lt (bval l') (bval u') -> lt (bval l) (bval u).
Proof using tr. intros [->|[U|(t & -> & ->)]] [->|[L|(s & -> & ->)]] H; cbn in *; eauto. Qed.
Lemma range_holds up lo up' lo' v : range_kept lt up lo up' lo' -> within_range lt eq up' lo' v -> within_range lt eq up lo v.
Proof using tr el le.
  intros [[-> ->]|[[-> ->]|(U & L & P)]]; auto; [intros _; exact I|]. intros W.
  assert (A : forall u', up' = Some u' -> forall l', lo' = Some l' -> below lt eq u' v /\ above lt eq l' v).
  { intros u' -> l' ->. cbn in W. apply W. now apply P. }
  destruct up as [u|], lo as [l|]; cbn; auto.
  - destruct (U u eq_refl) as (u' & -> & KU), (L l eq_refl) as (l' & -> & KL). destruct (A u' eq_refl l' eq_refl) as [X Y].
    split; intros _; [split|left]; eauto using below_kept, above_kept.
  - destruct (U u eq_refl) as (u' & -> & KU). apply (below_kept u u'); auto. destruct lo' as [l'|]; [apply (A u' eq_refl l' eq_refl)|exact W].
  - destruct (L l eq_refl) as (l' & -> & KL). apply (above_kept l l'); auto. destruct up' as [u'|]; [apply (A u' eq_refl l' eq_refl)|exact W].
Qed.
End Ranges.

Lemma lists_hold {A} (eq : A -> Prop) l nl l' nl' : lists_kept l nl l' nl' -> listed eq l' nl' -> listed eq l nl.
Proof.
  intros [L N] [P Q]. split.
  - intros E. destruct (L E) as [E' I]. specialize (P E'). apply Exists_exists in P. destruct P as (x & H & X). apply Exists_exists. eauto.
  - intros X. apply Q. apply Exists_exists in X. destruct X as (x & H & X). apply Exists_exists. eauto.
Qed.
Lemma kept_all {A} (o o' : option A) (P : A -> Prop) : kept o o' -> (forall a, o' = Some a -> P a) -> forall a, o = Some a -> P a.
Proof. intros [-> | ->]; auto. discriminate. Qed.
Lemma min_all (count : N -> Prop) o o' : min_kept o o' -> (forall n, o' = Some n -> exists k, count k /\ (n <= k)%N) -> forall n, o = Some n -> exists k, count k /\ (n <= k)%N.
Proof. intros M H n E. destruct (M n E) as (n' & E' & L). destruct (H n' E') as (k & C & L'). exists k. split; auto. lia. Qed.
Lemma max_all (count : N -> Prop) o o' : max_kept o o' -> (forall n, o' = Some n -> exists k, count k /\ (k <= n)%N) -> forall n, o = Some n -> exists k, count k /\ (k <= n)%N.
Proof. intros M H n E. destruct (M n E) as (n' & E' & L). destruct (H n' E') as (k & C & L'). exists k. split; auto. lia. Qed.

Lemma num_holds r r' v : num_kept r r' -> num_meaning r' v -> num_meaning r v.
Proof.
  intros (I & C & R & L) [[E Z]|(HC & HR & HL)]; [left; auto|right]. split; [eapply kept_all; eauto|]. split.
  - destruct HR as [HR|HR]; auto. right. eapply range_holds; eauto using nlt_trans, neq_nlt, nlt_neq.
  - eapply lists_hold; eauto.
Qed.
Lemma str_holds orc r r' s : str_kept r r' -> str_meaning orc r' s -> str_meaning orc r s.
Proof.
  intros (I & C & L & K1 & K2 & K3 & K4 & K5 & K6 & K7 & K8 & K9 & K10 & K11 & W) [[E Z]|H]; [left; auto|right].
  destruct H as (HC & HL & H1 & H2 & H3 & H4 & H5 & H6 & H7 & H8 & H9 & H10 & H11 & HW).
  split; [eapply kept_all; eauto|]. split; [eapply lists_hold; eauto|]. split; [eapply kept_all; eauto|]. split; [eapply min_all; eauto|].
  split; [eapply max_all; eauto|]. split; [eapply kept_all; eauto|]. split; [eapply min_all; eauto|]. split; [eapply max_all; eauto|].
  do 5 (split; [eapply kept_all; eauto|]). intros w Ew. destruct W as [W|[W1 W2]]; [congruence|]. rewrite <- W2. apply HW. congruence.
Qed.
Lemma byt_holds orc r r' s : byt_kept r r' -> byt_meaning orc r' s -> byt_meaning orc r s.
Proof.
  intros (I & C & L & K1 & KL & KM & K7 & K8 & K9 & K11 & W) [[E Z]|H]; [left; auto|right].
  destruct H as (H1 & H2 & H3 & H7 & H8 & H9 & HL & HC & HW1 & HW2 & HW3 & H11).
  assert (WK : forall w, b_wk r = Some w -> b_wk r' = Some w) by (intros w Ew; destruct W as [W|W]; congruence).
  split; [eapply kept_all; eauto|].
  split; [|split].
  - intros n E M. destruct (KM E) as [KM1 _]. destruct (b_len r') as [x|] eqn:X; [destruct (KL E ltac:(discriminate)); congruence|].
    refine (min_all (bytes_count s) _ _ KM1 _ n M). auto.
  - intros n E M. destruct (KM E) as [_ KM1]. destruct (b_len r') as [x|] eqn:X; [destruct (KL E ltac:(discriminate)); congruence|].
    refine (max_all (bytes_count s) _ _ KM1 _ n M). auto.
  - do 3 (split; [eapply kept_all; eauto|]). split; [eapply lists_hold; eauto|]. split; [exact (kept_all _ _ (fun c => c <> [] -> s = c) C HC)|].
    split; [auto|]. split; [auto|]. split; [auto|]. eapply kept_all; eauto.
Qed.
Lemma enum_holds sc sc' e r r' z : (forall e z, defined sc' e z -> defined sc e z) -> enum_kept r r' -> enum_meaning sc' e r' z -> enum_meaning sc e r z.
Proof.
  intros D (C & L & F) (HC & HL & HD). split; [eapply kept_all; eauto|]. split; [eapply lists_hold; eauto|]. auto.
Qed.
Lemma any_holds r r' o : any_kept r r' -> any_meaning r' o -> any_meaning r o.
Proof. intros (F & L) (H1 & H2). split; auto. intros url E. eapply lists_hold; eauto. Qed.

Lemma bnd_none {T} (a b : option T) : bnd a b = None <-> a = None /\ b = None.
Proof. destruct a, b; cbn; intuition discriminate. Qed.
Lemma range_some {T} (lt : T -> T -> Prop) up lo up' lo' : range_kept lt up lo up' lo' -> (up <> None \/ lo <> None) -> up' <> None \/ lo' <> None.
Proof.
  intros [[-> ->]|[[-> ->]|(U & L & _)]] [H|H]; auto; try congruence.
  - left. destruct up as [u|]; [|congruence]. destruct (U u eq_refl) as (? & -> & _). discriminate.
  - right. destruct lo as [u|]; [|congruence]. destruct (L u eq_refl) as (? & -> & _). discriminate.
Qed.
Lemma bnd_some {T} (a b : option T) : a <> None \/ b <> None <-> bnd a b <> None.
Proof. destruct a, b; cbn; intuition congruence. Qed.
Lemma lists_some {A} (l nl l' nl' : list A) : lists_kept l nl l' nl' -> l <> [] \/ nl <> [] -> l' <> [] \/ nl' <> [].
Proof. intros [L N] [H|H]; [left; now apply L|right]. destruct nl as [|x nl]; [congruence|]. intros ->. apply (N x). now left. Qed.
Lemma dur_still r r' : dur_kept r r' -> dur_constrained r -> dur_constrained r'.
Proof.
  intros (_ & C & R & L). unfold dur_constrained. intros [H|[H|[H|[H|[H|H]]]]].
  - left. destruct C; congruence.
  - assert (X := range_some _ _ _ _ _ R). rewrite <- !bnd_some in X. destruct X as [[X|X]|[X|X]]; auto 10.
  - assert (X := range_some _ _ _ _ _ R). rewrite <- !bnd_some in X. destruct X as [[X|X]|[X|X]]; auto 10.
  - assert (X := range_some _ _ _ _ _ R). rewrite <- !bnd_some in X. destruct X as [[X|X]|[X|X]]; auto 10.
  - assert (X := range_some _ _ _ _ _ R). rewrite <- !bnd_some in X. destruct X as [[X|X]|[X|X]]; auto 10.
  - assert (X := lists_some _ _ _ _ L H). destruct X; auto 10.
Qed.
Lemma dur_holds r r' o : dur_kept r r' -> dur_meaning r' o -> dur_meaning r o.
Proof.
  intros K (H1 & H2). assert (S := dur_still r r' K). destruct K as (F & C & R & L). split; auto. intros d E D.
  destruct (H2 d E (S D)) as (V & HC & HR & HL). split; auto. split; [eapply kept_all; eauto|]. split; [|eapply lists_hold; eauto].
  eapply range_holds; eauto; cbn; intros; lia.
Qed.
Lemma ts_still r r' : ts_kept r r' -> ts_constrained r -> ts_constrained r'.
Proof.
  intros (_ & C & R & L & G & W). unfold ts_constrained. intros [H|[H|[H|[H|[H|[H|[H|H]]]]]]].
  - left. destruct C; congruence.
  - assert (X := range_some _ _ _ _ _ R). rewrite <- !bnd_some in X. destruct X as [[X|X]|[X|X]]; auto 10.
  - assert (X := range_some _ _ _ _ _ R). rewrite <- !bnd_some in X. destruct X as [[X|X]|[X|X]]; auto 10.
  - assert (X := range_some _ _ _ _ _ R). rewrite <- !bnd_some in X. destruct X as [[X|X]|[X|X]]; auto 10.
  - assert (X := range_some _ _ _ _ _ R). rewrite <- !bnd_some in X. destruct X as [[X|X]|[X|X]]; auto 10.
  - auto 10.
  - auto 10.
  - do 7 right. destruct W as [W|[W _]]; congruence.
Qed.
Lemma ts_holds orc r r' o : ts_kept r r' -> ts_meaning orc r' o -> ts_meaning orc r o.
Proof.
  intros K (H1 & H2). assert (S := ts_still r r' K). destruct K as (F & C & R & LN & GN & W). split; auto. intros t E D.
  destruct (H2 t E (S D)) as (V & HC & HR & HL & HG & HW). split; auto. split; [eapply kept_all; eauto|]. split; [|split; [auto|split; [auto|]]].
  - eapply range_holds; eauto; cbn; intros; lia.
  - intros w Ew. destruct W as [W|[W1 W2]]; [congruence|]. assert (X := HW w ltac:(congruence)).
    destruct (t_lt_now r) as [a|] eqn:E1, (t_gt_now r) as [b|] eqn:E2.
    1-3: destruct (t_lt_now r'), (t_gt_now r'); auto; lia.
    destruct (W2 eq_refl eq_refl) as [-> ->] in X. exact X.
Qed.

(** * Values *)

Lemma etype_eq_msg e : (exists n, e = TMsg n) \/ (forall n, e <> TMsg n).
Proof. destruct e; eauto; right; discriminate. Qed.

Section Two.
Variable orc : oracles.
Variables sc sc' : schema.
Hypothesis enums : forall e z, defined sc' e z -> defined sc e z.

Lemma rule_holds e r r' v : rule_kept r r' -> rule_meaning orc sc' e r' v -> rule_meaning orc sc e r v.
Proof using enums.
  destruct r, r'; cbn [rule_kept]; try discriminate; destruct v; cbn [rule_meaning]; auto.
  - intros [_ K]. now apply num_holds.
  - intros K H x E. eapply (kept_all _ _ (fun x => b = x)); eauto.
  - intros K. now apply str_holds.
  - intros K. now apply byt_holds.
  - intros K. now apply enum_holds.
  - intros K. now apply any_holds.
  - intros K. now apply dur_holds.
  - intros K. now apply ts_holds.
Qed.

(** A value without messages is seen as it is. *)
Lemma sees_plain s e v v' : wt_elem s e v -> (forall n, e <> TMsg n) -> sees_val sc e v v' -> v' = v.
Proof using. intros W N H. inversion H; subst; auto; inversion W; subst; exfalso; eapply N; reflexivity. Qed.
Lemma sees_set e v v' : sees_val sc e v v' -> is_set v' -> is_set v.
Proof. intros H. inversion H; subst; auto. intros _. discriminate. Qed.

Lemma elem_holds e fr fr' v v' : wt_elem sc e v -> elem_kept e fr fr' -> sees_val sc e v v' -> elem_meaning orc sc' e fr' v' -> elem_meaning orc sc e fr v.
Proof using enums.
  intros W (S & R & K) H. destruct fr as [mr [r|]], fr' as [mr' [r'|]]; cbn [fr_msg fr_typ elem_meaning] in *; try contradiction.
  - destruct (etype_eq_msg e) as [[n ->]|N].
    + destruct v, v'; inversion W; inversion H; subst; destruct r; cbn; auto.
    + rewrite (sees_plain _ _ _ _ W N H). destruct e; try (apply rule_holds; exact K). inversion W; subst.
      * intros Q. destruct (required mr); auto. rewrite R in Q by reflexivity. discriminate.
      * apply rule_holds. exact K.
  - intros M E Q. destruct (etype_eq_msg e) as [[n ->]|N]; [contradiction|]. rewrite (sees_plain _ _ _ _ W N H) in M. rewrite Q in R. specialize (R eq_refl).
    destruct e; try discriminate; try (elim (N m); reflexivity); try congruence. inversion W; subst; [congruence|cbn; discriminate].
  - intros M E Q. eapply sees_set; eauto.
Qed.

Lemma forall2_len {A B} (P : A -> B -> Prop) l l' : Forall2 P l l' -> List.length l = List.length l'.
Proof using. induction 1; cbn; auto. Qed.
Lemma forall2_nth {A B} (P : A -> B -> Prop) l l' i x : Forall2 P l l' -> nth_error l i = Some x -> exists x', nth_error l' i = Some x' /\ P x x'.
Proof using. intros F. revert i. induction F; intros [|i]; cbn; try discriminate; eauto. intros [= <-]. eauto. Qed.
Lemma forall2_in_l {A B} (P : A -> B -> Prop) l l' x : Forall2 P l l' -> In x l -> exists x', In x' l' /\ P x x'.
Proof using. induction 1; intros []; subst; eauto; [|destruct IHForall2 as (x' & I & H'); auto]; eexists; split; eauto; cbn; auto. Qed.
Lemma count_holds n mn mx mn' mx' : min_kept mn mn' -> max_kept mx mx' -> count_meaning n mn' mx' -> count_meaning n mn mx.
Proof using.
  intros A B [C D]. split; intros x E.
  - destruct (A x E) as (y & E' & L). specialize (C y E'). lia.
  - destruct (B x E) as (y & E' & L). specialize (D y E'). lia.
Qed.

Lemma rep_holds e r r' l l' : Forall (wt_elem sc e) l -> rep_kept e r r' -> Forall2 (sees_val sc e) l l' -> rep_meaning orc sc' e r' l' -> rep_meaning orc sc e r l.
Proof using enums.
  intros W (I & A & B & U & N & K) S [[E Z]|(C & UH & H)].
  - left. split; auto. subst l'. inversion S. reflexivity.
  - right. rewrite <- (forall2_len _ _ _ S) in C. split; [eapply count_holds; eauto|]. split.
    + intros E i j x y L Hi Hj. specialize (N E). destruct (forall2_nth _ _ _ _ _ S Hi) as (x' & Hi' & Sx), (forall2_nth _ _ _ _ _ S Hj) as (y' & Hj' & Sy).
      rewrite Forall_forall in W. rewrite (sees_plain sc e _ _ (W x (nth_error_In _ _ Hi)) N Sx) in Hi'.
      rewrite (sees_plain sc e _ _ (W y (nth_error_In _ _ Hj)) N Sy) in Hj'. eapply UH; eauto.
    + intros x Hx. destruct (forall2_in_l _ _ _ _ S Hx) as (x' & Hx' & Sx). rewrite Forall_forall in W. eapply elem_holds; eauto.
Qed.

Lemma map_holds k e r r' l l' : Forall (fun p => wt_elem sc k (fst p) /\ wt_elem sc e (snd p)) l -> map_kept k e r r' ->
  Forall2 (fun p p' => fst p = fst p' /\ sees_val sc e (snd p) (snd p')) l l' -> map_meaning orc sc' k e r' l' -> map_meaning orc sc k e r l.
Proof using enums.
  intros W (I & A & B & U & K1 & K2) S [[E Z]|(C & UH & H)].
  - left. split; auto. subst l'. inversion S. reflexivity.
  - right. rewrite <- (forall2_len _ _ _ S) in C. rewrite Forall_forall in W. split; [eapply count_holds; eauto|]. split.
    + intros E x y Hx. destruct (forall2_in_l _ _ _ _ S Hx) as ([x' y'] & Hx' & Ex & Sx). cbn in *. subst x'. eapply sees_set; eauto.
    + intros x y Hx. destruct (forall2_in_l _ _ _ _ S Hx) as ([x' y'] & Hx' & Ex & Sx). cbn in *. subst x'. destruct (W _ Hx) as [Wx Wy]. cbn in *.
      destruct (H _ _ Hx') as [H1 H2]. split; eapply elem_holds; eauto. constructor.
Qed.

Lemma field_holds f f' v v' : wt_field sc (f_type f) v -> field_kept f f' -> sees_field sc (f_type f) v v' -> field_meaning orc sc' f' v' -> field_meaning orc sc f v.
Proof using enums.
  intros W (_ & T & K) S. unfold field_meaning. rewrite T. destruct (f_type f) as [e|e|k e]; inversion W; subst.
  - inversion S; subst. now apply elem_holds.
  - inversion S; subst. now apply rep_holds.
  - inversion S; subst. now apply map_holds.
Qed.

(** * Messages *)

Hypothesis wf : wf_schema sc.
Hypothesis wf' : wf_schema sc'.
Hypothesis types : forall n, validated_type sc n = true -> validated_type sc' n = true.

Lemma wf_found s n d : wf_schema s -> find_msg s n = Some d -> wf_msg d.
Proof using. intros W E. apply find_some in E. apply (W d). apply E. Qed.
Lemma wf_names d : wf_msg d -> NoDup (map f_name (md_fields d)) /\ forall o, In o (md_oneofs d) -> NoDup (map f_name (o_fields o)).
Proof using.
  intros [ND _]. unfold all_fields in ND. rewrite map_app in ND. apply NoDup_app_iff in ND. destruct ND as (N1 & N2 & _). split; auto.
  intros o Ho. induction (md_oneofs d) as [|a l IH]; [contradiction|]. cbn in N2. rewrite map_app in N2. apply NoDup_app_iff in N2. destruct Ho as [->|Ho]; [apply N2|apply IH; [apply N2|auto]].
Qed.
Lemma no_field s fl fs x : Forall2 (wt_named s) fl fs -> ~ In x (map f_name fl) -> assoc x fs = None.
Proof using.
  induction 1 as [|g p fl fs H _ IH]; intros N; [reflexivity|]. inversion H; subst. cbn in *.
  destruct (String.eqb_spec x (f_name g)); [elim N; auto|auto].
Qed.
Lemma no_oneof s ol os x : Forall2 (wt_oneof s) ol os -> ~ In x (map o_name ol) -> assoc x os = None.
Proof using.
  induction 1 as [|g p ol os H _ IH]; intros N; [reflexivity|]. assert (X : exists c, p = (o_name g, c)) by (inversion H; eauto). destruct X as (c & ->). cbn in *.
  destruct (String.eqb_spec x (o_name g)); [elim N; auto|auto].
Qed.
Lemma sees_field_refl t v : wt_field sc t v -> sees_field sc t v v.
Proof using.
  intros W. inversion W; subst; constructor.
  - constructor.
  - clear. induction l; constructor; auto. constructor.
  - clear. induction l; constructor; auto. split; constructor.
Qed.
Lemma name_inj (l : list field) f g : NoDup (map f_name l) -> In f l -> In g l -> f_name f = f_name g -> f = g.
Proof using.
  induction l as [|a l IH]; cbn; [contradiction|]. intros N. apply NoDup_cons_iff in N. destruct N as [N1 N2]. intros [->|Hf] [->|Hg] E; auto.
  - elim N1. rewrite E. now apply in_map.
  - elim N1. rewrite <- E. now apply in_map.
Qed.
Lemma member_wt s d m o f v : wf_msg d -> wt_msg s d m -> In o (md_oneofs d) -> In f (o_fields o) -> assoc (o_name o) (mv_oneofs m) = Some (Some (f_name f, v)) ->
  wt_field s (f_type f) v.
Proof using.
  intros W M Ho Hf E. destruct (wt_parts _ _ _ M) as [_ Wo]. destruct (wt_assoc_oneof _ _ _ _ Wo (proj2 W) Ho) as (c & E' & Wc & _).
  rewrite E in E'. injection E' as <-. inversion Wc as [|o1 g v1 Hg Wv E1 E2]; subst.
  rewrite (name_inj (o_fields o) f g); auto. apply (wf_names d W). auto.
Qed.
Lemma sees_refl d m : wf_msg d -> wt_msg sc d m -> sees sc d m m.
Proof using.
  intros W M. destruct (wt_parts _ _ _ M) as [Wf Wo]. destruct (wf_names d W) as [ND1 ND2]. constructor.
  - intros f v Hf E. left. exists v. split; auto.
    destruct (wt_assoc _ _ _ _ Wf ND1 Hf) as (v' & E' & Wv & _). assert (v' = v) by congruence. subst v'. now apply sees_field_refl.
  - intros o f v Ho Hf E. exists v. split; auto. apply sees_field_refl. eapply member_wt; eauto.
  - auto.
Qed.

Definition both (n : string) (m m' : msgval) : Prop :=
  exists d d', find_msg sc n = Some d /\ find_msg sc' n = Some d' /\ wt_msg sc d m /\ wt_msg sc' d' m' /\ sees sc d m m'.

Lemma elem_embeds_holds e fr fr' v v' n m : wt_elem sc e v -> wt_elem sc' e v' -> elem_kept e fr fr' -> sees_val sc e v v' -> elem_embeds sc e fr v n m ->
  exists m', elem_embeds sc' e fr' v' n m' /\ both n m m'.
Proof using types wf.
  intros W W' (S & _ & K) H (-> & -> & T & SK & V). destruct fr as [mr tr], fr' as [mr' tr']. cbn in T. subst tr. cbn in *.
  assert (T' : tr' = None) by (destruct tr'; [contradiction|auto]). subst tr'.
  assert (SK' : skipped mr' = false) by (destruct (skipped mr'); auto; rewrite S in SK by auto; discriminate).
  inversion W as [| | | | | |n1 d m1 Ed Wd| | | | | | |]; subst. inversion H; subst.
  - inversion W'; subst. exists m. split; [repeat split; auto|]. exists d, d0. do 4 (split; [assumption|]). apply sees_refl; auto. exact (wf_found _ _ _ wf Ed).
  - inversion W'; subst. exists m'. split; [repeat split; auto|]. exists d0, d1. assert (d0 = d) by congruence. subst d0. do 4 (split; [assumption|]). assumption.
Qed.
Lemma field_embeds_holds f f' v v' n m : wt_field sc (f_type f) v -> wt_field sc' (f_type f) v' -> field_kept f f' -> sees_field sc (f_type f) v v' ->
  field_embeds sc f v n m -> exists m', field_embeds sc' f' v' n m' /\ both n m m'.
Proof using types wf.
  intros W W' (_ & T & K) S. unfold field_embeds. rewrite T. destruct S as [e v v' S|e l l' S|k e l l' S]; inversion W; inversion W'; subst.
  - now apply elem_embeds_holds.
  - intros (x & Hx & E). destruct (forall2_in_l _ _ _ _ S Hx) as (x' & Hx' & Sx). rewrite !Forall_forall in *.
    destruct K as (_ & _ & _ & _ & _ & K). destruct (elem_embeds_holds _ _ _ x x' _ _ ltac:(auto) ltac:(auto) K Sx E) as (m' & E' & B). exists m'. eauto.
  - intros (x & y & Hx & E). destruct (forall2_in_l _ _ _ _ S Hx) as ([x' y'] & Hx' & Ex & Sx). rewrite !Forall_forall in *.
    match goal with H : forall p, In p l -> _, H' : forall p, In p l' -> _ |- _ => destruct (H _ Hx) as [X1 X2], (H' _ Hx') as [Y1 Y2] end.
    cbn in *. subst x'. destruct K as (_ & _ & _ & _ & K1 & K2). destruct E as [E|E].
    + destruct (elem_embeds_holds _ _ _ _ _ _ _ X1 Y1 K1 (sees_same sc k x) E) as (m' & E' & Sm). exists m'. split; eauto 6.
    + destruct (elem_embeds_holds _ _ _ _ _ _ _ X2 Y2 K2 Sx E) as (m' & E' & Sm). exists m'. split; eauto 6.
Qed.
Lemma default_embeds f n m : ~ field_embeds sc f (default (f_type f)) n m.
Proof using.
  unfold field_embeds. destruct (f_type f) as [e|e|k e]; cbn.
  - intros (-> & H & _). discriminate.
  - intros (x & [] & _).
  - intros (x & y & [] & _).
Qed.

Section Msg.
Variables (d d' : msgdesc) (m m' : msgval).
Hypothesis (Wd : wf_msg d) (Wd' : wf_msg d') (M : wt_msg sc d m) (M' : wt_msg sc' d' m').
Hypothesis S : sees sc d m m'.
Hypothesis C : msg_covered orc sc d d'.

(** A field is seen as it was sent, or has the default. *)
Lemma field_seen f v : In f (md_fields d) -> assoc (f_name f) (mv_fields m) = Some v ->
  wt_field sc (f_type f) v /\
  ((exists f' v', In f' (md_fields d') /\ field_kept f f' /\ assoc (f_name f') (mv_fields m') = Some v' /\ wt_field sc' (f_type f) v' /\ sees_field sc (f_type f) v v') \/
   (v = default (f_type f) /\ field_meaning orc sc f v)).
Proof using Wd Wd' M M' S C.
  intros Hf E. destruct (wt_parts _ _ _ M) as [Wf _], (wt_parts _ _ _ M') as [Wf' _]. destruct (wf_names _ Wd) as [ND _], (wf_names _ Wd') as [ND' _].
  destruct (wt_assoc _ _ _ _ Wf ND Hf) as (v1 & E1 & Wv & _). assert (v1 = v) by congruence. subst v1. split; auto.
  destruct C as (_ & CF & _). rewrite Forall_forall in CF. inversion S as [a b c SF _ _]; subst. specialize (SF f v Hf E). destruct (CF f Hf) as [(f' & Hf' & K)|(N & DM)].
  - left. destruct (wt_assoc _ _ _ _ Wf' ND' Hf') as (v' & E' & Wv' & _). assert (X := K). destruct X as (EN & ET & _).
    exists f', v'. rewrite ET in Wv'. repeat split; auto; try apply K. rewrite EN in E'. destruct SF as [(v1 & E2 & SV)|[E2 _]]; [|congruence].
    assert (v1 = v') by congruence. now subst.
  - right. assert (E' : assoc (f_name f) (mv_fields m') = None) by (eapply no_field; eauto). destruct SF as [(v1 & E2 & _)|[_ ->]]; [congruence|]. auto.
Qed.
Lemma member_seen o f v : In o (md_oneofs d) -> In f (o_fields o) -> assoc (o_name o) (mv_oneofs m) = Some (Some (f_name f, v)) ->
  wt_field sc (f_type f) v /\
  exists o' f' v', In o' (md_oneofs d') /\ In f' (o_fields o') /\ field_kept f f' /\ assoc (o_name o') (mv_oneofs m') = Some (Some (f_name f', v')) /\
    wt_field sc' (f_type f) v' /\ sees_field sc (f_type f) v v'.
Proof using Wd Wd' M M' S C.
  intros Ho Hf E. split; [exact (member_wt sc d m o f v Wd M Ho Hf E)|]. inversion S as [a b c _ SO _]; subst. destruct (SO o f v Ho Hf E) as (v' & E' & SV).
  destruct C as (_ & _ & CO). rewrite Forall_forall in CO. destruct (CO o Ho) as [(o' & Ho' & EN & _ & KF)|(N & _)].
  - destruct (KF f Hf) as [(f' & Hf' & K)|NM].
    2:{ destruct (wt_parts _ _ _ M') as [_ Wo']. destruct (wt_assoc_oneof _ _ _ _ Wo' (proj2 Wd') Ho') as (c & E2 & Wc & _). rewrite EN, E' in E2. injection E2 as <-.
        elim NM. inversion Wc; subst. replace (f_name f) with (f_name f0) by congruence. now apply in_map. }
    exists o', f', v'. assert (X := K). destruct X as (FN & FT & _). split; [exact Ho'|]. split; [exact Hf'|]. split; [exact K|].
    split; [congruence|]. split; [|exact SV]. rewrite <- FT. apply (member_wt sc' d' m' o'); auto. congruence.
  - destruct (wt_parts _ _ _ M') as [_ Wo']. rewrite (no_oneof _ _ _ _ Wo' N) in E'. discriminate.
Qed.

Lemma msg_holds : msg_meaning orc sc' d' m' -> msg_meaning orc sc d m.
Proof using enums Wd Wd' M M' S C.
  intros (HF & HR & HM). split; [|split].
  - intros f v Hf E. destruct (field_seen f v Hf E) as [Wv [(f' & v' & Hf' & K & E' & Wv' & SV)|[_ X]]]; auto. eapply field_holds; eauto.
  - intros o Ho E R. inversion S as [a b c _ _ SN]; subst. destruct C as (_ & _ & CO). rewrite Forall_forall in CO.
    destruct (CO o Ho) as [(o' & Ho' & EN & RR & _)|(_ & NR)]; [|auto]. destruct (RR R) as [R' I]. destruct (wt_parts _ _ _ M') as [_ Wo'].
    destruct (wt_assoc_oneof _ _ _ _ Wo' (proj2 Wd') Ho') as (c & E' & Wc & _). rewrite EN in E'. destruct (SN o Ho E) as [X|[X|(g & v' & X & NI)]].
    + congruence.
    + apply (HR o' Ho'); congruence.
    + rewrite X in E'. injection E' as <-. apply NI, I. inversion Wc; subst. now apply in_map.
  - intros o f v Ho Hf E. destruct (member_seen o f v Ho Hf E) as [Wv (o' & f' & v' & Ho' & Hf' & K & E' & Wv' & SV)]. eapply field_holds; eauto.
Qed.
Lemma embeds_holds n1 m1 : msg_embeds sc d m n1 m1 -> exists m1', msg_embeds sc' d' m' n1 m1' /\ both n1 m1 m1'.
Proof using types wf Wd Wd' M M' S C.
  intros [(f & v & Hf & E & EM)|(o & f & v & Ho & Hf & E & EM)].
  - destruct (field_seen f v Hf E) as [Wv [(f' & v' & Hf' & K & E' & Wv' & SV)|[X _]]].
    + destruct (field_embeds_holds _ _ _ _ _ _ Wv Wv' K SV EM) as (m1' & E1 & B). exists m1'. split; auto. left. eauto 8.
    + subst v. elim (default_embeds f n1 m1 EM).
  - destruct (member_seen o f v Ho Hf E) as [Wv (o' & f' & v' & Ho' & Hf' & K & E' & Wv' & SV)].
    destruct (field_embeds_holds _ _ _ _ _ _ Wv Wv' K SV EM) as (m1' & E1 & B). exists m1'. split; auto. right. exists o', f', v'. auto.
Qed.
End Msg.
End Two.

Lemma covered_types orc sc sc' : covered orc sc sc' -> forall n, validated_type sc n = true -> validated_type sc' n = true.
Proof.
  intros [C _] n. unfold validated_type. destruct (find_msg sc n) as [d|] eqn:E; [|discriminate]. destruct (C n d E) as (d' & -> & X & _).
  intros H. assert (Y : md_methods d <> MNone) by (intros Q; rewrite Q in H; discriminate). specialize (X Y). destruct (md_methods d'); congruence.
Qed.

Lemma includes_holds orc sc sc' n m n1 m1 : covered orc sc sc' -> wf_schema sc -> wf_schema sc' -> includes sc n m n1 m1 -> forall m', both sc sc' n m m' ->
  exists m1', includes sc' n m' n1 m1' /\ both sc sc' n1 m1 m1'.
Proof.
  intros C W W'. induction 1 as [n m|n m d n1 m1 n2 m2 Ed DD E _ IH]; intros m' B.
  - exists m'. split; auto. constructor.
  - destruct B as (d1 & d' & E1 & E2 & M & M' & S). assert (d1 = d) by congruence. subst d1.
    destruct (proj1 C n d Ed) as (d2 & E3 & _ & MC). assert (d2 = d') by congruence. subst d2. specialize (MC DD).
    destruct (embeds_holds orc sc sc' W (covered_types _ _ _ C) d d' m m' (wf_found _ _ _ W Ed) (wf_found _ _ _ W' E2) M M' S MC n1 m1 E) as (m1' & EM & B).
    destruct (IH m1' B) as (m2' & I & B'). exists m2'. split; auto. eapply includes_down; eauto. apply MC.
Qed.

Lemma meant_holds orc sc sc' n m m' : covered orc sc sc' -> wf_schema sc -> wf_schema sc' -> both sc sc' n m m' -> meant orc sc' n m' -> meant orc sc n m.
Proof.
  intros C W W' B H n1 m1 d I Ed DD. destruct (includes_holds orc sc sc' n m n1 m1 C W W' I m' B) as (m1' & I' & (d1 & d' & E1 & E2 & M & M' & S)).
  assert (d1 = d) by congruence. subst d1. destruct (proj1 C n1 d Ed) as (d2 & E3 & _ & MC). assert (d2 = d') by congruence. subst d2. specialize (MC DD).
  eapply (msg_holds orc sc sc' (proj2 C)); eauto using wf_found. eapply H; eauto. apply MC.
Qed.

(** * Reordering *)

Lemma kept_refl {A} (a : option A) : kept a a.
Proof. right. reflexivity. Qed.
Lemma min_refl a : min_kept a a.
Proof. intros n E. exists n. split; auto. lia. Qed.
Lemma max_refl a : max_kept a a.
Proof. intros n E. exists n. split; auto. lia. Qed.
Lemma lists_refl {A} (l nl : list A) : lists_kept l nl l nl.
Proof. split; [intros H; split; auto|]; intros x; auto. Qed.
Lemma range_refl {T} (lt : T -> T -> Prop) up lo : range_kept lt up lo up lo.
Proof. right. left. auto. Qed.
Lemma flag_refl a : flag a a.
Proof. intros H. exact H. Qed.
#[local] Hint Resolve kept_refl min_refl max_refl lists_refl range_refl flag_refl : kept.
Ltac conjs := repeat match goal with |- _ /\ _ => split end; auto with kept.
Lemma rule_refl r : rule_kept r r.
Proof.
  destruct r; cbn; auto with kept.
  - split; auto. unfold num_kept. conjs.
  - unfold str_kept. conjs.
  - unfold byt_kept. conjs. congruence.
  - unfold enum_kept. conjs.
  - unfold any_kept. conjs.
  - unfold dur_kept. conjs.
  - unfold ts_kept. conjs.
Qed.
Lemma elem_refl e fr : elem_kept e fr fr.
Proof. split; auto. split; auto. destruct (fr_typ fr); auto. apply rule_refl. Qed.
Lemma field_refl re_ok sc f f1 : check_field re_ok sc f = Some f1 -> field_kept f f.
Proof.
  intros C. split; auto. split; auto. destruct (f_type f) as [e|e|k v] eqn:T.
  - apply elem_refl.
  - unfold rep_kept. conjs; try apply elem_refl.
    unfold check_field, guard in C. destruct (check_message (f_type f) (f_rules f)); [|discriminate]. rewrite T in C. unfold rep_of.
    destruct (f_rules f) as [mr [[]|]]; cbn [fr_typ]; try discriminate. intros U n ->. revert C. cbn. rewrite U. cbn. rewrite Bool.andb_false_r. discriminate.
  - unfold map_kept. conjs; apply elem_refl.
Qed.
Lemma oneof_back o o' : oneof_reordered o o' -> oneof_reordered o' o.
Proof. intros (A & B & C). split; [auto|split; [auto|]]. now apply Permutation_sym. Qed.
Lemma forall2_flip {A} (P : A -> A -> Prop) l l' : (forall x y, P x y -> P y x) -> Forall2 P l l' -> Forall2 P l' l.
Proof. intros H. induction 1; constructor; auto. Qed.
Lemma forall2_perm {A} (P : A -> A -> Prop) l os os' : Forall2 P l os -> Permutation os os' -> exists l', Permutation l l' /\ Forall2 P l' os'.
Proof.
  intros F Q. revert l F. induction Q as [|x os os' Q IH|x y os|os1 os2 os3 Q1 IH1 Q2 IH2]; intros l F.
  - inversion F; subst. exists []. auto.
  - inversion F as [|a b l1 l2 H F1]; subst. destruct (IH _ F1) as (l' & Q' & F'). exists (a :: l'). auto.
  - inversion F as [|a b l1 l2 H F1]; subst. inversion F1 as [|a' b' l1' l2' H' F1']; subst. exists (a' :: a :: l1'). split; [apply perm_swap|auto].
  - destruct (IH1 _ F) as (l1 & Q3 & F1). destruct (IH2 _ F1) as (l2 & Q4 & F2). exists l2. split; auto. etransitivity; eauto.
Qed.
Lemma msg_back d d' : msg_reordered d d' -> msg_reordered d' d.
Proof.
  intros (A & B & C & os & F & Q). split; [auto|]. split; [auto|]. split; [now apply Permutation_sym|].
  destruct (forall2_perm _ _ _ _ F Q) as (l' & Q' & F'). exists l'. split; [|now apply Permutation_sym].
  apply (forall2_flip oneof_reordered); auto using oneof_back.
Qed.
Lemma reordered_back sc sc' : reordered sc sc' -> reordered sc' sc.
Proof.
  intros [M E]. split; [|intros e z; symmetry; apply E]. intros n. specialize (M n). destruct (find_msg sc n), (find_msg sc' n); auto. now apply msg_back.
Qed.
Lemma reordered_covered orc re_ok sc0 sc sc0' : check_schema re_ok sc0 = Some sc -> reordered sc0 sc0' -> covered orc sc0 sc0'.
Proof.
  intros CK [RM RE]. split; [|intros e z; apply RE]. intros n d Ed. specialize (RM n). rewrite Ed in RM. destruct (find_msg sc0' n) as [d'|]; [|contradiction].
  exists d'. split; auto. destruct RM as (DD & MM & PF & os & FO & PO). split; [congruence|]. intros D.
  assert (X : exists d1, check_msg re_ok sc0 d = Some d1).
  { apply find_some in Ed. destruct Ed as [Ed _]. unfold check_schema in CK. destruct (map_opt (check_msg re_ok sc0) (sc_msgs sc0)) as [ms|] eqn:EM; [|discriminate].
    apply map_opt_forall2 in EM. destruct (forall2_in_l _ _ _ _ EM Ed) as (d1 & _ & H). eauto. }
  destruct X as (d1 & X). assert (FC := fields_checked re_ok sc0 d d1 D X).
  assert (K : forall f, In f (all_fields d) -> field_kept f f).
  { intros f Hf. destruct (forall2_in_l _ _ _ _ FC Hf) as (f1 & _ & H). eapply field_refl; eauto. }
  split; [congruence|]. split; apply Forall_forall.
  - intros f Hf. left. exists f. split; [eapply Permutation_in; eauto|]. apply K. apply in_app_iff. auto.
  - intros o Ho. left. destruct (forall2_in_l _ _ _ _ FO Ho) as (o' & Ho' & EN & ER & EP). exists o'. split; [eapply Permutation_in; eauto|].
    split; [auto|]. split.
    + intros R. split; [congruence|]. intros x I. eapply Permutation_in; [|exact I]. apply Permutation_map. now apply Permutation_sym.
    + intros f Hf. left. exists f. split; [eapply Permutation_in; eauto|]. apply K. apply in_app_iff. right. apply in_flat_map. eauto.
Qed.

(** * Defaults *)

Lemma default_none orc sc x t : field_meaning orc sc (mkField x t (FR None None)) (default t).
Proof.
  unfold field_meaning. cbn [f_type f_rules]. destruct t as [e|e|k v]; cbn [default].
  - cbn. discriminate.
  - right. split; [split; cbn; discriminate|]. split; [cbn; discriminate|]. intros x0 [].
  - right. split; [split; cbn; discriminate|]. split; [cbn; discriminate|]. intros x0 y [].
Qed.

Lemma default_message orc sc x e mr : is_embed e = true -> (field_meaning orc sc (mkField x (FOne e) (FR mr None)) (default (FOne e)) <-> required mr = false).
Proof.
  intros E. unfold field_meaning. cbn [f_type f_rules elem_meaning]. split.
  - intros H. destruct (required mr); auto. specialize (H E eq_refl). destruct e; try discriminate E; cbn in H; congruence.
  - intros H _ Q. congruence.
Qed.
Lemma default_wrapper orc sc x w mr r : field_meaning orc sc (mkField x (FOne (TWrap w)) (FR mr (Some r))) (default (FOne (TWrap w))) <-> required mr = false.
Proof. reflexivity. Qed.
Lemma default_any orc sc x mr r : field_meaning orc sc (mkField x (FOne TAny) (FR mr (Some (RAny r)))) (default (FOne TAny)) <-> a_required r <> Some true.
Proof. unfold field_meaning. cbn. unfold any_meaning. split; [intros [H _] Q; elim (H Q); auto|intros H; split; [intros Q; elim (H Q)|discriminate]]. Qed.
Lemma default_dur orc sc x mr r : field_meaning orc sc (mkField x (FOne TDur) (FR mr (Some (RDuration r)))) (default (FOne TDur)) <-> d_required r <> Some true.
Proof. unfold field_meaning. cbn. unfold dur_meaning. split; [intros [H _] Q; elim (H Q); auto|intros H; split; [intros Q; elim (H Q)|discriminate]]. Qed.
Lemma default_ts orc sc x mr r : field_meaning orc sc (mkField x (FOne TTs) (FR mr (Some (RTimestamp r)))) (default (FOne TTs)) <-> t_required r <> Some true.
Proof. unfold field_meaning. cbn. unfold ts_meaning. split; [intros [H _] Q; elim (H Q); auto|intros H; split; [intros Q; elim (H Q)|discriminate]]. Qed.
Lemma default_rep orc sc x e mr r : field_meaning orc sc (mkField x (FRep e) (FR mr (Some (RRepeated r)))) (default (FRep e)) <->
  r_ignore_empty r = Some true \/ (forall n, r_min r = Some n -> n = 0%N).
Proof.
  unfold field_meaning. cbn. unfold rep_meaning, count_meaning. cbn. split.
  - intros [[H _]|((H & _) & _)]; auto. right. intros n E. specialize (H n E). lia.
  - intros [H|H]; auto. right. split; [split; intros n E; [assert (X := H n E)|]; lia|]. split; [|contradiction]. intros _ [|i] j y z _ Q; discriminate Q.
Qed.
Lemma default_map orc sc x k e mr r : field_meaning orc sc (mkField x (FMap k e) (FR mr (Some (RMap r)))) (default (FMap k e)) <->
  p_ignore_empty r = Some true \/ (forall n, p_min r = Some n -> n = 0%N).
Proof.
  unfold field_meaning. cbn. unfold map_meaning, count_meaning. cbn. split.
  - intros [[H _]|((H & _) & _)]; auto. right. intros n E. specialize (H n E). lia.
  - intros [H|H]; auto. right. split; [split; intros n E; [assert (X := H n E)|]; lia|]. split; contradiction.
Qed.
Lemma default_num orc sc x k mr r : n_ignore_empty r = Some true -> field_meaning orc sc (mkField x (FOne (TNum k)) (FR mr (Some (RNum k r)))) (default (FOne (TNum k))).
Proof. intros E. unfold field_meaning. cbn. left. split; auto. unfold nzero; destruct (is_float k); eauto. Qed.
Lemma default_str orc sc x mr r : s_ignore_empty r = Some true -> field_meaning orc sc (mkField x (FOne TString) (FR mr (Some (RString r)))) (default (FOne TString)).
Proof. intros E. unfold field_meaning. cbn. left. auto. Qed.
Lemma default_byt orc sc x mr r : b_ignore_empty r = Some true -> field_meaning orc sc (mkField x (FOne TBytes) (FR mr (Some (RBytes r)))) (default (FOne TBytes)).
Proof. intros E. unfold field_meaning. cbn. left. auto. Qed.

(** * What Go's Validate returns *)

Section Run.
Variables (re_ok : bytes -> bool) (sc0 sc : schema) (orc : oracles).
Hypothesis st : setting re_ok sc0 sc orc.

Lemma run_evolve sc0' sc' : setting re_ok sc0' sc' orc -> covered orc sc0 sc0' -> forall all all' n d d' m m',
  message sc0 n d m -> message sc0' n d' m' -> sees sc0 d m m' -> validate sc' orc all' n m' = VNil -> validate sc orc all n m = VNil.
Proof.
  intros st' C all all' n d d' m m' M M' S H. apply (run_meant _ _ _ _ st' _ _ _ _ M') in H. apply (run_meant _ _ _ _ st _ _ _ _ M).
  eapply meant_holds; eauto; [apply st|apply st'|]. exists d, d'. destruct M, M'. auto.
Qed.
Lemma run_same sc0' sc' : setting re_ok sc0' sc' orc -> covered orc sc0 sc0' -> forall all all' n d d' m,
  message sc0 n d m -> message sc0' n d' m -> validate sc' orc all' n m = VNil -> validate sc orc all n m = VNil.
Proof.
  intros st' C all all' n d d' m M M'. eapply run_evolve; eauto. apply sees_refl; [|apply M]. eapply wf_found; [apply st|apply M].
Qed.
Lemma run_new_field all n d m m' f : message sc0 n d m -> md_disabled d = false -> In f (md_fields d) -> sees sc0 d m m' ->
  assoc (f_name f) (mv_fields m') = None -> ~ field_meaning orc sc0 f (default (f_type f)) -> validate sc orc all n m <> VNil.
Proof.
  intros M D Hf S E NM H. apply (run_meant _ _ _ _ st _ _ _ _ M) in H. destruct M as [Ed _ W].
  destruct (H n m d (includes_here _ _ _) Ed D) as (HF & _). destruct (wt_parts _ _ _ W) as [Wf _].
  destruct (wf_names d (wf_found _ _ _ (set_wf _ _ _ _ st) Ed)) as [ND _].
  destruct (wt_assoc _ _ _ _ Wf ND Hf) as (v & Ev & _). inversion S as [a b c SF _ _]; subst.
  destruct (SF f v Hf Ev) as [(v' & E' & _)|[_ ->]]; [congruence|]. apply NM. now apply HF.
Qed.
Lemma run_new_member all n d m m' o g v : message sc0 n d m -> md_disabled d = false -> In o (md_oneofs d) -> o_required o = Some true -> sees sc0 d m m' ->
  assoc (o_name o) (mv_oneofs m') = Some (Some (g, v)) -> ~ In g (map f_name (o_fields o)) -> validate sc orc all n m <> VNil.
Proof.
  intros M D Ho R S E NI H. apply (run_meant _ _ _ _ st _ _ _ _ M) in H. destruct M as [Ed _ W].
  destruct (H n m d (includes_here _ _ _) Ed D) as (_ & HR & _). destruct (wt_parts _ _ _ W) as [_ Wo].
  destruct (wt_assoc_oneof _ _ _ _ Wo (proj2 (wf_found _ _ _ (set_wf _ _ _ _ st) Ed)) Ho) as (c & Ec & Wc & _).
  inversion S as [a b c0 _ SO _]; subst. inversion Wc as [o1 E1 E2|o1 f w Hf Wf E1 E2]; subst.
  - now apply (HR o Ho).
  - destruct (SO o f w Ho Hf Ec) as (v' & E' & _). apply NI. replace g with (f_name f) by congruence. now apply in_map.
Qed.
End Run.
Lemma run_reordered re_ok sc0 sc sc0' sc' orc : setting re_ok sc0 sc orc -> setting re_ok sc0' sc' orc -> reordered sc0 sc0' ->
  forall all all' n d d' m m', message sc0 n d m -> message sc0' n d' m' -> sees sc0 d m m' -> sees sc0' d' m' m ->
  (validate sc orc all n m = VNil <-> validate sc' orc all' n m' = VNil).
Proof.
  intros st st' R all all' n d d' m m' M M' S S'. split.
  - eapply run_evolve; eauto. eapply reordered_covered; [apply st'|]. now apply reordered_back.
  - eapply run_evolve; eauto. eapply reordered_covered; [apply st|]. exact R.
Qed.
