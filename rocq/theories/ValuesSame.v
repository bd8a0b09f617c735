(** Conditions on all the values of a message do not depend on the order of its maps. *)
From Coq Require Import Sorting.Permutation.
From Verif Require Import Base Rules Types Iface GoSem SpecErr Values LitSpec Spec Java JavaSpec Cc CcSpec Py PySpec AllSpec.

Section Same.
Variable sc : schema.
Variable leaf : bool -> bool -> etype -> field_rules -> value -> Prop.
Hypothesis leaf_same : forall b u e fr v v', same v v' -> leaf b u e fr v -> leaf b u e fr v'.

Lemma field_back fs fs' : Forall2 same_field fs fs' -> forall k v', assoc k fs' = Some v' -> exists v, assoc k fs = Some v /\ same v v'.
Proof.
  induction 1 as [|x y t t' Hx _ IH]; intros k v' A; [discriminate|]. destruct Hx as [f w w' Hw].
  cbn [assoc] in A |- *. destruct (String.eqb _ _); [|auto]. injection A as <-. eauto.
Qed.
Lemma oneof_back os os' : Forall2 same_oneof os os' -> forall k f v', assoc k os' = Some (Some (f, v')) ->
  exists v, assoc k os = Some (Some (f, v)) /\ same v v'.
Proof.
  induction 1 as [|x y t t' Hx _ IH]; intros k f v' A; [discriminate|]. destruct Hx as [o|o g w w' Hw];
    cbn [assoc] in A |- *; (destruct (String.eqb _ _); [|auto]); [discriminate|]. injection A as <- <-. eauto.
Qed.

Lemma list_back l l' : Forall2 same l l' -> forall x', In x' l' -> exists x, In x l /\ same x x'.
Proof.
  induction 1 as [|a b t t' Hx _ IH]; intros x' I; [destruct I|]. destruct I as [<-|I].
  - exists a. split; [now left|exact Hx].
  - destruct (IH x' I) as (x & J & S). exists x. split; [now right|exact S].
Qed.
Lemma map_back l l' : Forall2 same_entry l l' -> forall x y', In (x, y') l' -> exists y, In (x, y) l /\ same y y'.
Proof.
  induction 1 as [|a b t t' Hx _ IH]; intros x y' I; [destruct I|]. destruct I as [E|I].
  - destruct Hx as [k w w' Hw]. injection E as <- <-. exists w. split; [now left|exact Hw].
  - destruct (IH x y' I) as (y & J & S). exists y. split; [now right|exact S].
Qed.

Fixpoint elem_kept b u e fr v (H : all_elem sc leaf b u e fr v) {struct H} : forall v', same v v' -> all_elem sc leaf b u e fr v'
with field_kept t fr v (H : all_field sc leaf t fr v) {struct H} : forall v', same v v' -> all_field sc leaf t fr v'
with values_kept n m (H : all_values sc leaf n m) {struct H} : forall m', same_msg m m' -> all_values sc leaf n m'.
Proof.
  - destruct H as [b u e fr v L K]. intros v' S. apply ev_leaf; [exact (leaf_same _ _ _ _ _ _ S L)|].
    intros n m' En Em D. destruct S as [v|m m1 S| |]; [exact (K n m' En Em D)| |discriminate Em|discriminate Em].
    injection Em as ->. exact (values_kept n m (K n m En eq_refl D) m' S).
  - destruct H as [e fr v K|e fr l K|k w fr l K].
    + intros v' S. apply ev_one. exact (elem_kept _ _ _ _ _ K v' S).
    + intros v' S. inversion S as [v0 E0|m m' S1|l0 l' S1|l0 l1 l' P S1]; subst; apply ev_rep.
      * exact K.
      * intros x' I. destruct (list_back _ _ S1 x' I) as (x & J & Sx). exact (elem_kept _ _ _ _ _ (K x J) x' Sx).
    + intros v' S. inversion S as [v0 E0|m m' S1|l0 l' S1|l0 l1 l' P S1]; subst; apply ev_map.
      * exact K.
      * intros x y' I. destruct (map_back _ _ S1 x y' I) as (y & J & Sy).
        assert (J' : In (x, y) l) by (apply (Permutation_in _ (Permutation_sym P) J)).
        destruct (K x y J') as [Kx Ky]. split; [exact Kx|]. exact (elem_kept _ _ _ _ _ Ky y' Sy).
  - destruct H as [n m d F A|n d m F K1 K2]; intros m' S.
    + exact (ev_inactive _ _ n m' d F A).
    + destruct S as [fs fs' os os' S1 S2]. cbn [mv_fields mv_oneofs] in K1, K2. apply ev_active with d; [exact F| |]; cbn [mv_fields mv_oneofs].
      * intros f v' I E. destruct (field_back _ _ S1 _ _ E) as (v & Ev & Sv). exact (field_kept _ _ _ (K1 f v I Ev) v' Sv).
      * intros o f v' I J E. destruct (oneof_back _ _ S2 _ _ _ E) as (v & Ev & Sv). exact (field_kept _ _ _ (K2 o f v I J Ev) v' Sv).
Qed.
End Same.

Lemma set_kept v v' : same v v' -> is_set v -> is_set v'.
Proof. intros S. destruct S; auto; intros _; discriminate. Qed.

Lemma java_value_same sc orc jl b u e fr v v' : same v v' -> java_value sc orc jl b u e fr v -> java_value sc orc jl b u e fr v'.
Proof.
  intros S (A & B & C). destruct S as [v|m m' S|l l' S|l l1 l' P S]; [split; auto| | |].
  all: split; [intros _; exact I || discriminate|]; split; [intros _; destruct e; exact I|]; intros mr r _; destruct r; exact I.
Qed.
Lemma cc_value_same cl orc b u e fr v v' : same v v' -> cc_value cl orc b u e fr v -> cc_value cl orc b u e fr v'.
Proof.
  intros S (A & C). destruct S as [v|m m' S|l l' S|l l1 l' P S]; [split; auto| | |].
  all: split; [intros _; exact I || discriminate|]; intros mr r _; destruct r; exact I.
Qed.
Lemma py_value_same pl orc b u e fr v v' : same v v' -> py_value pl orc b u e fr v -> py_value pl orc b u e fr v'.
Proof.
  intros S (A & B & C). destruct S as [v|m m' S|l l' S|l l1 l' P S]; [split; auto| | |].
  all: split; [intros _; exact I || discriminate|]; split; [intros; discriminate|]; intros mr r _; destruct r; exact I.
Qed.
Lemma common_value_same b u e fr v v' : same v v' -> common_value b u e fr v -> common_value b u e fr v'.
Proof.
  intros S (A & B & C). destruct S as [v|m m' S|l l' S|l l1 l' P S]; [split; auto| | |].
  all: split; [intros _; exact I || discriminate|]; split; [intros E; destruct (B E) as (s & K & _); discriminate|];
    intros k E Sg; destruct (C k E Sg) as (z & K); discriminate.
Qed.
