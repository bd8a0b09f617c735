(** Which accepted rule sets can be satisfied at all. *)
From Coq Require Import Lia Floats.SpecFloat.
From Verif Require Import Base Num Rules Types Iface Spec Meaning Conflict.
Local Open Scope Z_scope.

(** Least and greatest value of an integer kind. *)
Definition kind_min (k : numkind) : Z :=
  match k with
  | KInt32 | KSInt32 | KSFixed32 => - 2^31
  | KInt64 | KSInt64 | KSFixed64 => - 2^63
  | _ => 0
  end.
Definition kind_max (k : numkind) : Z :=
  match k with
  | KInt32 | KSInt32 | KSFixed32 => 2^31 - 1
  | KInt64 | KSInt64 | KSFixed64 => 2^63 - 1
  | KUInt32 | KFixed32 => 2^32 - 1
  | _ => 2^64 - 1
  end.

(** The constants of a rule set. *)
Definition constants (r : num_rules) : list num :=
  (match n_const r with Some c => [c] | None => [] end) ++
  (match n_lt r with Some c => [c] | None => [] end) ++ (match n_lte r with Some c => [c] | None => [] end) ++
  (match n_gt r with Some c => [c] | None => [] end) ++ (match n_gte r with Some c => [c] | None => [] end) ++
  n_in r ++ n_not_in r.

(** No integer of the kind satisfies the bounds. *)
Definition hopeless (k : numkind) (r : num_rules) : Prop :=
  (* below the least value *)
  (n_lt r = Some (NI (kind_min k)) /\ n_gt r = None /\ n_gte r = None) \/
  (* above the greatest value *)
  (n_gt r = Some (NI (kind_max k)) /\ n_lt r = None /\ n_lte r = None) \/
  (* strictly between neighbours *)
  (exists l, n_gt r = Some (NI l) /\ n_lt r = Some (NI (l + 1))) \/
  (* outside everything *)
  (n_lt r = Some (NI (kind_min k)) /\ n_gt r = Some (NI (kind_max k))).

Lemma of_kind k z : is_float k = false -> (num_of_kind k (NI z) = true <-> kind_min k <= z <= kind_max k).
Proof. destruct k; cbn [is_float]; intros H; try discriminate; cbn [num_of_kind is_float negb andb in_kind kind_min kind_max]; lia. Qed.

Lemma kind_bounds k : kind_min k <= 0 < kind_max k.
Proof. destruct k; cbn [kind_min kind_max]; lia. Qed.

Lemma of_kind_int k n : is_float k = false -> num_of_kind k n = true -> exists z, n = NI z /\ kind_min k <= z <= kind_max k.
Proof.
  intros F. destruct n as [z|f].
  - intros H. exists z. split; auto. now apply of_kind.
  - cbn. rewrite F. discriminate.
Qed.

Definition satisfiable (k : numkind) (r : num_rules) : Prop :=
  exists v, num_of_kind k v = true /\ num_meaning r v.

Lemma not_nan_int z : ~ nan (NI z).
Proof. discriminate. Qed.

Lemma integer_sat k r : is_float k = false ->
  Forall (fun c => num_of_kind k c = true) (constants r) ->
  ~ range_conflict neq (n_const r) (n_lt r) (n_lte r) (n_gt r) (n_gte r) (n_in r) (n_not_in r) ->
  n_not_in r = [] -> n_ignore_empty r <> Some true ->
  (satisfiable k r <-> ~ hopeless k r).
Proof.
  intros F W C NI0 IE. pose proof (kind_bounds k) as KB.
  assert (Cs : forall c, In c (constants r) -> exists z, c = NI z /\ kind_min k <= z <= kind_max k).
  { intros c I. rewrite Forall_forall in W. apply of_kind_int; auto. }
  destruct r as [c lt lte gt gte l nl ie]. unfold constants in Cs.
  unfold satisfiable, num_meaning, hopeless, listed. cbn [n_const n_lt n_lte n_gt n_gte n_in n_not_in n_ignore_empty] in *.
  subst nl.
  assert (IE' : forall P, (ie = Some true /\ P) -> False) by tauto.
  assert (NE : forall v, ~ Exists (neq v) []) by (intros v H; inversion H).
  destruct c as [c|].
  { assert (lt = None /\ lte = None /\ gt = None /\ gte = None /\ l = []) as (-> & -> & -> & -> & ->).
    { repeat split; match goal with |- ?x = _ => destruct x; auto; exfalso; apply C; apply const_with_other; [discriminate|];
        repeat (first [left; discriminate|right]); discriminate end. }
    destruct (Cs c) as (z & -> & Hz); [cbn; auto|].
    split.
    - intros _ H. decompose [or and ex] H; discriminate.
    - intros _. exists (NI z). split; [now apply of_kind|]. right. cbn [bnd within_range].
      repeat split; auto.
      + intros c' E. injection E as <-. reflexivity.
      + congruence. }
  destruct l as [|x l].
  2:{ assert (lt = None /\ lte = None /\ gt = None /\ gte = None) as (-> & -> & -> & ->).
    { repeat split; match goal with |- ?x = _ => destruct x; auto; exfalso; apply C; apply in_with_range; [discriminate|];
        repeat (first [left; discriminate|right]); discriminate end. }
    destruct (Cs x) as (z & -> & Hz); [cbn; auto|].
    split.
    - intros _ H. decompose [or and ex] H; discriminate.
    - intros _. exists (NI z). split; [now apply of_kind|]. right. cbn [bnd within_range].
      repeat split; auto; try discriminate. intros _. constructor. reflexivity. }
  assert (L1 : lt = None \/ lte = None).
  { destruct lt, lte; auto. exfalso. apply C. apply lt_with_lte; discriminate. }
  assert (G1 : gt = None \/ gte = None).
  { destruct gt, gte; auto. exfalso. apply C. apply gt_with_gte; discriminate. }
  assert (Ex : (exists v, num_of_kind k v = true /\
     ((ie = Some true /\ nzero v) \/
      (forall c, None = Some c -> neq v c) /\
      (nan v \/ within_range nlt neq (bnd lt lte) (bnd gt gte) v) /\
      (@nil num <> [] -> Exists (neq v) []) /\ ~ Exists (neq v) [])) <->
     exists z, kind_min k <= z <= kind_max k /\ within_range nlt neq (bnd lt lte) (bnd gt gte) (NI z)).
  { split.
    - intros (v & K & [H|(_ & H & _)]); [tauto|]. apply of_kind_int in K; auto. destruct K as (z & -> & Hz).
      exists z. split; auto. destruct H as [H|H]; auto. discriminate.
    - intros (z & Hz & H). exists (NI z). split; [now apply of_kind|]. right.
      split; [intros c; discriminate|]. split; [auto|]. split; [congruence|auto]. }
  rewrite Ex. clear Ex IE IE' NE.
  assert (Eq : forall a b, (lt = Some (NI a) \/ lte = Some (NI a)) -> (gt = Some (NI b) \/ gte = Some (NI b)) -> a <> b).
  { intros a b Ha Hb E. apply C. apply (equal_bounds _ _ _ _ _ _ _ _ (NI a) (NI b)); auto. }
  assert (Clt : forall c, lt = Some c -> exists z, c = NI z /\ kind_min k <= z <= kind_max k)
    by (intros c ->; apply Cs; rewrite ?in_app_iff; cbn; tauto).
  assert (Clte : forall c, lte = Some c -> exists z, c = NI z /\ kind_min k <= z <= kind_max k)
    by (intros c ->; apply Cs; rewrite ?in_app_iff; cbn; tauto).
  assert (Cgt : forall c, gt = Some c -> exists z, c = NI z /\ kind_min k <= z <= kind_max k)
    by (intros c ->; apply Cs; rewrite ?in_app_iff; cbn; tauto).
  assert (Cgte : forall c, gte = Some c -> exists z, c = NI z /\ kind_min k <= z <= kind_max k)
    by (intros c ->; apply Cs; rewrite ?in_app_iff; cbn; tauto).
  clear Cs W C.
  destruct lt as [u|]; [destruct L1 as [L1|L1]; [discriminate|subst lte; clear Clte];
    destruct (Clt u eq_refl) as (u0 & -> & Hu); clear Clt
   |clear Clt L1; destruct lte as [u|]; [destruct (Clte u eq_refl) as (u0 & -> & Hu)|]; clear Clte];
  (destruct gt as [b|]; [destruct G1 as [G1|G1]; [discriminate|subst gte; clear Cgte];
    destruct (Cgt b eq_refl) as (b0 & -> & Hb); clear Cgt
   |clear Cgt G1; destruct gte as [b|]; [destruct (Cgte b eq_refl) as (b0 & -> & Hb)|]; clear Cgte]);
  try (assert (Q : u0 <> b0) by (apply Eq; auto)); clear Eq;
  cbn [bnd within_range below above bval nlt neq]; split.
  - intros (z & Hz & H1 & H2) [H|[H|[(l' & H & H')|[H H']]]]; try (destruct H as (_ & H & _); discriminate H).
    + injection H as ->. injection H' as ->. lia.
    + injection H as ->. injection H' as ->. lia.
  - intros H. assert (N1 : u0 <> b0 + 1) by (intros ->; apply H; eauto 8).
    assert (N2 : ~ (u0 = kind_min k /\ b0 = kind_max k)) by (intros [-> ->]; apply H; auto).
    destruct (Z.lt_ge_cases b0 u0); [exists (b0 + 1); lia|].
    destruct (Z.eq_dec u0 (kind_min k)); [exists (b0 + 1)|exists (u0 - 1)]; lia.
  - intros _ H. decompose [or and ex] H; discriminate.
  - intros _. exists b0. lia.
  - intros (z & Hz & H1) [H|[H|[(l' & H & H')|[H H']]]]; try discriminate.
    + destruct H as (H & _). injection H as ->. lia.
    + decompose [and] H. discriminate.
  - intros H. assert (u0 <> kind_min k) by (intros ->; apply H; auto). exists (u0 - 1). lia.
  - intros _ H. decompose [or and ex] H; discriminate.
  - intros _. exists u0. lia.
  - intros _ H. decompose [or and ex] H; discriminate.
  - intros _. destruct (Z.lt_ge_cases b0 u0); [exists b0|exists b0]; lia.
  - intros _ H. decompose [or and ex] H; discriminate.
  - intros _. exists u0. lia.
  - intros (z & Hz & H1) [H|[H|[(l' & H & H')|[H H']]]]; try discriminate; decompose [and] H; try discriminate.
    injection H0 as ->. lia.
  - intros H. assert (b0 <> kind_max k) by (intros ->; apply H; auto). exists (b0 + 1). lia.
  - intros _ H. decompose [or and ex] H; discriminate.
  - intros _. exists b0. lia.
  - intros _ H. decompose [or and ex] H; discriminate.
  - intros _. exists 0. split; [lia|exact I].
Qed.

(** Floats: NaN passes every range and every [not_in]. *)
Lemma nan_neq v : ~ neq (NF S754_nan) v.
Proof. destruct v as [z|f]; cbn; auto. destruct f; discriminate. Qed.
Lemma neq_refl_float f : f <> S754_nan -> neq (NF f) (NF f).
Proof.
  intros H. cbn. destruct f as [s|s| |s m e]; cbn; auto; try congruence.
  - now destruct s.
  - destruct s.
    + rewrite Z.compare_refl, Pos.compare_refl. reflexivity.
    + rewrite Z.compare_refl, Pos.compare_refl. reflexivity.
Qed.

Lemma float_sat k r : is_float k = true ->
  Forall (fun c => num_of_kind k c = true) (constants r) ->
  ~ range_conflict neq (n_const r) (n_lt r) (n_lte r) (n_gt r) (n_gte r) (n_in r) (n_not_in r) ->
  n_ignore_empty r <> Some true ->
  (satisfiable k r <->
   n_const r <> Some (NF S754_nan) /\ ~ (n_in r <> [] /\ Forall nan (n_in r))).
Proof.
  intros F W C IE.
  destruct r as [c lt lte gt gte l nl ie]. unfold constants in W.
  unfold satisfiable, num_meaning, listed. cbn [n_const n_lt n_lte n_gt n_gte n_in n_not_in n_ignore_empty] in *.
  assert (D : forall c, num_of_kind k c = true -> exists f, c = NF f).
  { intros [z|f]; cbn; rewrite F; [discriminate|eauto]. }
  rewrite Forall_forall in W.
  split.
  - intros (v & K & [H|(H1 & H2 & H3 & H4)]); [tauto|]. split.
    + intros E. specialize (H1 _ E). destruct v as [z|f]; cbn in H1; auto. now destruct f.
    + intros [E A]. specialize (H3 E). apply Exists_exists in H3. destruct H3 as (x & I & Q).
      rewrite Forall_forall in A. rewrite (A x I) in Q. destruct v as [z|f]; cbn in Q; auto. now destruct f.
  - intros [H1 H2].
    destruct c as [c|].
    { assert (lt = None /\ lte = None /\ gt = None /\ gte = None /\ l = [] /\ nl = []) as (-> & -> & -> & -> & -> & ->).
      { repeat split; match goal with |- ?x = _ => destruct x; auto; exfalso; apply C; apply const_with_other; [discriminate|];
        repeat (first [left; discriminate|right]); discriminate end. }
      assert (K : num_of_kind k c = true) by (apply W; cbn; auto).
      destruct (D c K) as (f & ->). exists (NF f). split; auto. right. cbn [bnd within_range].
      repeat split; auto.
      - intros c' E. injection E as <-. apply neq_refl_float. congruence.
      - congruence.
      - intros Q. inversion Q. }
    destruct l as [|x l].
    { exists (NF S754_nan). split; [cbn; now rewrite F|]. right.
      split; [intros c; discriminate|]. split; [left; reflexivity|]. split; [congruence|].
      intros Q. apply Exists_exists in Q. destruct Q as (y & _ & Q). now apply nan_neq in Q. }
    assert (lt = None /\ lte = None /\ gt = None /\ gte = None) as (-> & -> & -> & ->).
    { repeat split; match goal with |- ?x = _ => destruct x; auto; exfalso; apply C; apply in_with_range; [discriminate|];
        repeat (first [left; discriminate|right]); discriminate end. }
    assert (nl = []) as ->.
    { destruct nl; auto. exfalso. apply C. apply in_with_not_in; discriminate. }
    assert (exists y, In y (x :: l) /\ ~ nan y) as (y & Iy & Ny).
    { assert (Dn : forall y, nan y \/ ~ nan y)
        by (intros [z|[s|s| |s m e]]; unfold nan; first [left; reflexivity|right; discriminate]).
      clear - H2 Dn. assert (~ Forall nan (x :: l)) as G by (intros Q; apply H2; split; [discriminate|auto]).
      clear H2. induction (x :: l) as [|y t IH]; [exfalso; auto|].
      destruct (Dn y) as [Y|Y]; [|exists y; split; [now left|auto]].
      destruct IH as (z & I & Nz); [intros Q; apply G; now constructor|]. exists z. split; [now right|auto]. }
    assert (K : num_of_kind k y = true) by (apply W; cbn [app]; rewrite app_nil_r; auto).
    destruct (D y K) as (f & ->). exists (NF f). split; auto. right. cbn [bnd within_range].
    repeat split; auto.
    + intros c; discriminate.
    + intros _. apply Exists_exists. exists (NF f). split; auto. apply neq_refl_float. intros ->. now apply Ny.
    + intros Q. inversion Q.
Qed.
