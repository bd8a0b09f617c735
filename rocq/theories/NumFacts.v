(** Comparisons of numbers. *)
From Coq Require Import Lia ZifyBool Floats.SpecFloat.
From Verif Require Import Base Num Rules Spec GoGen.

Lemma num_ltb_spec a b : num_ltb a b = true <-> nlt a b.
Proof.
  destruct a, b; simpl; try (split; [discriminate|tauto]).
  - lia.
  - unfold SFltb. destruct (SFcompare _ _) as [[]|]; split; congruence.
Qed.

Lemma num_eqb_spec a b : num_eqb a b = true <-> neq a b.
Proof.
  destruct a, b; simpl; try (split; [discriminate|tauto]).
  - lia.
  - unfold SFeqb. destruct (SFcompare _ _) as [[]|]; split; congruence.
Qed.

Lemma num_leb_spec a b : num_leb a b = true <-> nlt a b \/ neq a b.
Proof.
  destruct a, b; simpl; try (split; [discriminate|tauto]).
  - lia.
  - unfold SFleb. destruct (SFcompare _ _) as [[]|]; split; intuition congruence.
Qed.

Lemma nltb_num a b : nltb a b = num_ltb a b.
Proof. destruct a, b; reflexivity. Qed.

(** Comparison is antisymmetric. *)
Lemma SFcompare_swap a b : SFcompare b a = match SFcompare a b with Some c => Some (CompOpp c) | None => None end.
Proof.
  destruct a as [sa|sa| |sa ma ea], b as [sb|sb| |sb mb eb]; simpl; auto;
    try (destruct sa; reflexivity); try (destruct sb; reflexivity); try (destruct sa, sb; reflexivity).
  destruct sa, sb; auto; rewrite (Z.compare_antisym ea eb); destruct (ea ?= eb)%Z; simpl; auto;
    change (Pos.compare_cont Eq ma mb) with (Pos.compare ma mb);
    change (Pos.compare_cont Eq mb ma) with (Pos.compare mb ma);
    rewrite (Pos.compare_antisym ma mb); destruct (ma ?= mb)%positive; reflexivity.
Qed.

(** The two numbers are both integers or both floats. *)
Definition same_kind (a b : num) : Prop :=
  match a, b with NI _, NI _ => True | NF _, NF _ => True | _, _ => False end.

Lemma SFcompare_none a b : SFcompare a b = None -> a = S754_nan \/ b = S754_nan.
Proof.
  destruct a as [sa|sa| |sa ma ea], b as [sb|sb| |sb mb eb]; simpl; auto; try discriminate;
    try (destruct sa; discriminate); try (destruct sb; discriminate); try (destruct sa, sb; discriminate).
  all: destruct sa, sb; try discriminate; destruct (_ ?= _)%Z; discriminate.
Qed.

Lemma trichotomy a b : same_kind a b -> ~ nan a -> ~ nan b ->
  (nlt a b /\ ~ neq a b /\ ~ nlt b a) \/ (neq a b /\ ~ nlt a b /\ ~ nlt b a) \/
  (nlt b a /\ ~ nlt a b /\ ~ neq a b).
Proof.
  unfold nan. destruct a as [x|x], b as [y|y]; simpl; try tauto.
  - intros _ _ _. lia.
  - intros _ Ha Hb. rewrite (SFcompare_swap x y). destruct (SFcompare x y) as [c|] eqn:E.
    + destruct c; simpl; intuition congruence.
    + apply SFcompare_none in E. destruct E; subst; tauto.
Qed.

Lemma neq_sym a b : neq a b -> neq b a.
Proof.
  destruct a, b; simpl; auto. rewrite (SFcompare_swap f f0). intros ->. reflexivity.
Qed.

Lemma num_eqb_sym a b : num_eqb a b = num_eqb b a.
Proof.
  destruct (num_eqb b a) eqn:E.
  - apply num_eqb_spec. apply neq_sym. now apply num_eqb_spec.
  - destruct (num_eqb a b) eqn:E2; auto. apply num_eqb_spec in E2. apply neq_sym in E2.
    apply num_eqb_spec in E2. congruence.
Qed.

Lemma nan_ltb_l a b : nan a -> num_ltb a b = false.
Proof. intros ->. destruct b; reflexivity. Qed.
Lemma nan_ltb_r a b : nan a -> num_ltb b a = false.
Proof. intros ->. destruct b as [|[]]; reflexivity. Qed.
Lemma nan_leb_l a b : nan a -> num_leb a b = false.
Proof. intros ->. destruct b; reflexivity. Qed.
Lemma nan_leb_r a b : nan a -> num_leb b a = false.
Proof. intros ->. destruct b as [|[]]; reflexivity. Qed.

Lemma is_nan_dec a : {nan a} + {~ nan a}.
Proof. unfold nan. destruct a as [z|[]]; try (right; congruence); left; reflexivity. Qed.

(** The literal denotes the same number, up to the sign of zero. *)
Lemma lit_num_cmp a n :
  num_ltb a (lit_num n) = num_ltb a n /\ num_leb a (lit_num n) = num_leb a n /\
  num_eqb a (lit_num n) = num_eqb a n /\
  num_ltb (lit_num n) a = num_ltb n a /\ num_leb (lit_num n) a = num_leb n a /\
  num_eqb (lit_num n) a = num_eqb n a.
Proof.
  destruct n as [z|[s|s| |s m e]]; cbn [lit_num]; auto 10;
    destruct a as [y|[s'|s'| |s' m' e']]; cbn; auto 10.
Qed.

Lemma lit_num_same a n : same_kind a (lit_num n) <-> same_kind a n.
Proof. destruct n as [z|[]], a; simpl; tauto. Qed.

Lemma num_lit_ok_nan n : num_lit_ok n = true -> ~ nan n.
Proof. unfold nan. intros H ->. discriminate. Qed.

Lemma num_lit_ok_lit n : num_lit_ok (lit_num n) = num_lit_ok n.
Proof. destruct n as [z|[]]; reflexivity. Qed.
