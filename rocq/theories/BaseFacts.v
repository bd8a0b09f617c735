(** Facts about byte strings. *)
From Coq Require Import Lia ZifyBool ZifyN ZifyNat.
From Verif Require Import Base Spec.

Lemma bytes_eqb_eq a b : bytes_eqb a b = true <-> a = b.
Proof.
  revert b; induction a as [|x a IH]; destruct b as [|y b]; simpl; try (split; congruence).
  rewrite andb_true_iff, N.eqb_eq, IH. split; [intros [-> ->]; auto | intros H; inversion H; auto].
Qed.

Lemma bytes_eqb_refl a : bytes_eqb a a = true.
Proof. now apply bytes_eqb_eq. Qed.

Lemma bytes_eqb_neq a b : bytes_eqb a b = false <-> a <> b.
Proof. rewrite <- bytes_eqb_eq. destruct (bytes_eqb a b); split; congruence. Qed.

Lemma bytes_eqb_sym a b : bytes_eqb a b = bytes_eqb b a.
Proof.
  destruct (bytes_eqb b a) eqn:E.
  - apply bytes_eqb_eq in E. subst. apply bytes_eqb_refl.
  - apply bytes_eqb_neq in E. apply bytes_eqb_neq. congruence.
Qed.

Lemma has_prefix_spec s p : has_prefix s p = true <-> starts_with s p.
Proof.
  unfold has_prefix, starts_with. rewrite andb_true_iff, Nat.leb_le, bytes_eqb_eq. split.
  - intros [_ H]. exists (skipn (List.length p) s).
    rewrite <- H at 1. now rewrite firstn_skipn.
  - intros [t ->]. rewrite app_length. split; [lia|].
    rewrite firstn_app, firstn_all, Nat.sub_diag. simpl. now rewrite app_nil_r.
Qed.

Lemma has_suffix_spec s p : has_suffix s p = true <-> ends_with s p.
Proof.
  unfold has_suffix, ends_with. rewrite andb_true_iff, Nat.leb_le, bytes_eqb_eq. split.
  - intros [_ H]. exists (firstn (List.length s - List.length p) s).
    rewrite <- H at 2. now rewrite firstn_skipn.
  - intros [t ->]. rewrite app_length. split; [lia|].
    replace (List.length t + List.length p - List.length p) with (List.length t) by lia.
    rewrite skipn_app, skipn_all, Nat.sub_diag. reflexivity.
Qed.

Lemma contains_spec s p : contains s p = true <-> has_inside s p.
Proof.
  unfold has_inside. induction s as [|c s IH]; cbn [contains].
  - rewrite orb_false_r, has_prefix_spec. unfold starts_with. split.
    + intros [t H]. exists [], t. exact H.
    + intros (a & b & H). symmetry in H. apply app_eq_nil in H. destruct H as [-> H].
      exists b. now rewrite H.
  - rewrite orb_true_iff, has_prefix_spec, IH. split.
    + intros [[t H]|(a & b & ->)].
      * exists [], t. exact H.
      * exists (c :: a), b. reflexivity.
    + intros (a & b & H). destruct a as [|x a].
      * left. exists b. exact H.
      * right. inversion H. exists a, b. reflexivity.
Qed.

Lemma existsb_Exists {A} (f : A -> bool) (P : A -> Prop) l :
  (forall x, f x = true <-> P x) -> (existsb f l = true <-> Exists P l).
Proof.
  intros H. rewrite existsb_exists, Exists_exists.
  split; intros (x & Hx & Hp); exists x; split; auto; apply H; auto.
Qed.

Lemma is_nil_true {A} (l : list A) : is_nil l = true <-> l = [].
Proof. destruct l; simpl; split; congruence. Qed.

Lemma assoc_In {A} k (v : A) l : assoc k l = Some v -> In (k, v) l.
Proof.
  induction l as [|[k' w] l IH]; simpl; [discriminate|].
  destruct (String.eqb_spec k k').
  - intros H; inversion H; subst; auto.
  - auto.
Qed.

Lemma assoc_NoDup {A} k (v : A) l :
  NoDup (map fst l) -> In (k, v) l -> assoc k l = Some v.
Proof.
  induction l as [|[k' w] l IH]; simpl; [tauto|]. intros H. inversion H; subst.
  intros [E|E].
  - inversion E; subst. now rewrite String.eqb_refl.
  - destruct (String.eqb_spec k k').
    + subst. elim H2. apply in_map_iff. exists (k', v). auto.
    + auto.
Qed.

Lemma assoc_None {A} k (l : list (string * A)) : assoc k l = None <-> ~ In k (map fst l).
Proof.
  induction l as [|[k' w] l IH]; simpl; [tauto|].
  destruct (String.eqb_spec k k').
  - subst. split; [discriminate|]. intros H. elim H. auto.
  - rewrite IH. split; intros H; [intros [E|E]; [congruence|auto] | auto].
Qed.
