(** [runes] is UTF-8 decoding. *)
From Coq Require Import Lia ZifyBool ZifyN ZifyNat.
From Verif Require Import Base Utf8 Spec.
Local Open Scope N_scope.
Ltac Zify.zify_post_hook ::= Z.div_mod_to_equations.

Lemma runes_char c t : scalar_value c -> runes (utf8_bytes c ++ t) = c :: runes t.
Proof.
  unfold scalar_value, utf8_bytes. intros H.
  destruct (c <? 0x80) eqn:E1; [simpl; now rewrite E1|].
  destruct (c <? 0x800) eqn:E2.
  { cbn [app runes].
    replace (0xC0 + c / 64 <? 0x80) with false by lia.
    unfold Utf8.in_range, cont, cp2.
    replace (_ && _) with true by lia.
    replace (_ && _) with true by lia.
    f_equal. lia. }
  destruct (c <? 0x10000) eqn:E3.
  { cbn [app runes].
    replace (0xE0 + c / 4096 <? 0x80) with false by lia.
    unfold Utf8.in_range at 1.
    replace (_ && _) with false by lia.
    unfold Utf8.in_range at 1.
    replace (_ && (0xE0 + c / 4096 <=? 0xEF)) with true by lia.
    replace (acc3 _ _ && _) with true.
    - f_equal. unfold cp3. lia.
    - unfold acc3, cont, Utf8.in_range.
      destruct (0xE0 + c / 4096 =? 0xE0) eqn:?; destruct (0xE0 + c / 4096 =? 0xED) eqn:?; lia. }
  cbn [app runes].
  replace (0xF0 + c / 262144 <? 0x80) with false by lia.
  unfold Utf8.in_range at 1.
  replace (_ && _) with false by lia.
  unfold Utf8.in_range at 1.
  replace (_ && _) with false by lia.
  unfold Utf8.in_range at 1.
  replace (_ && (0xF0 + c / 262144 <=? 0xF4)) with true by lia.
  replace (acc4 _ _ && _ && _) with true.
  - f_equal. unfold cp4. lia.
  - unfold acc4, cont, Utf8.in_range.
    destruct (0xF0 + c / 262144 =? 0xF0) eqn:?; destruct (0xF0 + c / 262144 =? 0xF4) eqn:?; lia.
Qed.

Lemma cons_eq {A} (a b : A) l m : a = b -> l = m -> a :: l = b :: m.
Proof. congruence. Qed.

Lemma cons_inv {A} (a b : A) l m : a :: l = b :: m -> a = b /\ l = m.
Proof. intros H. injection H. auto. Qed.

Ltac no_seq Hbad := apply Hbad; [|reflexivity];
    let c := fresh "c" in let u := fresh "u" in let H := fresh "H" in let E := fresh "E" in
    intros c u H E; unfold scalar_value in H; unfold utf8_bytes in E;
    destruct (c <? 0x80) eqn:?; [|destruct (c <? 0x800) eqn:?; [|destruct (c <? 0x10000) eqn:?]];
    cbn [app] in E; repeat (apply cons_inv in E; let E' := fresh "E" in destruct E as [E' E]); try discriminate E; try lia.

(** Every non-empty string starts with a well-formed sequence or with a bad byte. *)
Lemma runes_step b t :
  (exists c u, scalar_value c /\ b :: t = utf8_bytes c ++ u /\ runes (b :: t) = c :: runes u) \/
  ((forall c u, scalar_value c -> b :: t <> utf8_bytes c ++ u) /\
   runes (b :: t) = rune_error :: runes t).
Proof.
  assert (Hgood : forall c u, scalar_value c -> b :: t = utf8_bytes c ++ u ->
     exists c u, scalar_value c /\ b :: t = utf8_bytes c ++ u /\ runes (b :: t) = c :: runes u).
  { intros c u H E. exists c, u. repeat split; auto. rewrite E. now apply runes_char. }
  destruct (b <? 0x80) eqn:E0.
  { left. apply (Hgood b t); [unfold scalar_value; lia|]. unfold utf8_bytes. now rewrite E0. }
  cbn [runes]. rewrite E0.
  assert (Hbad : forall r : list rune,
    (forall c u, scalar_value c -> b :: t <> utf8_bytes c ++ u) ->
    r = rune_error :: runes t ->
    (exists c u, scalar_value c /\ b :: t = utf8_bytes c ++ u /\ r = c :: runes u) \/
    ((forall c u, scalar_value c -> b :: t <> utf8_bytes c ++ u) /\ r = rune_error :: runes t)) by auto.
  assert (Hok : forall c u, scalar_value c -> b :: t = utf8_bytes c ++ u -> forall r, r = c :: runes u ->
    (exists c u, scalar_value c /\ b :: t = utf8_bytes c ++ u /\ r = c :: runes u) \/
    ((forall c u, scalar_value c -> b :: t <> utf8_bytes c ++ u) /\ r = rune_error :: runes t)).
  { intros. left. exists c, u. auto. }
  destruct (Utf8.in_range 0xC2 0xDF b) eqn:E1; unfold Utf8.in_range in E1.
  { destruct t as [|b1 t1]; [no_seq Hbad|].
    destruct (cont b1) eqn:C1; unfold cont in C1; [|no_seq Hbad].
    apply (Hok (cp2 b b1) t1); [unfold scalar_value, cp2; lia| |reflexivity].
    unfold utf8_bytes, cp2.
    replace (_ <? 0x80) with false by lia. replace (_ <? 0x800) with true by lia.
    cbn [app]. apply cons_eq; [lia|]. apply cons_eq; [lia|reflexivity]. }
  destruct (Utf8.in_range 0xE0 0xEF b) eqn:E2; unfold Utf8.in_range in E2.
  { destruct t as [|b1 [|b2 t2]]; [no_seq Hbad|no_seq Hbad|].
    destruct (acc3 b b1 && cont b2) eqn:C1.
    - unfold acc3, cont, Utf8.in_range in C1.
      assert (scalar_value (cp3 b b1 b2) /\ 0x800 <= cp3 b b1 b2 < 0x10000 /\ 0x80 <= b1 <= 0xBF /\ 0x80 <= b2 <= 0xBF) as (S1 & S2 & S3 & S4).
      { unfold scalar_value, cp3. destruct (b =? 0xE0) eqn:?; destruct (b =? 0xED) eqn:?; lia. }
      apply (Hok (cp3 b b1 b2) t2); [exact S1| |reflexivity].
      unfold utf8_bytes.
      replace (_ <? 0x80) with false by lia. replace (_ <? 0x800) with false by lia.
      replace (_ <? 0x10000) with true by lia. unfold cp3 in *.
      cbn [app]. apply cons_eq; [lia|]. apply cons_eq; [lia|]. apply cons_eq; [lia|reflexivity].
    - no_seq Hbad. unfold acc3, cont, Utf8.in_range in C1.
      destruct (b =? 0xE0) eqn:?; destruct (b =? 0xED) eqn:?; lia. }
  destruct (Utf8.in_range 0xF0 0xF4 b) eqn:E3; unfold Utf8.in_range in E3.
  { destruct t as [|b1 [|b2 [|b3 t3]]]; [no_seq Hbad|no_seq Hbad|no_seq Hbad|].
    destruct (acc4 b b1 && cont b2 && cont b3) eqn:C1.
    - unfold acc4, cont, Utf8.in_range in C1.
      assert (scalar_value (cp4 b b1 b2 b3) /\ 0x10000 <= cp4 b b1 b2 b3 /\ 0x80 <= b1 <= 0xBF /\ 0x80 <= b2 <= 0xBF /\ 0x80 <= b3 <= 0xBF) as (S1 & S2 & S3 & S4 & S5).
      { unfold scalar_value, cp4. destruct (b =? 0xF0) eqn:?; destruct (b =? 0xF4) eqn:?; lia. }
      apply (Hok (cp4 b b1 b2 b3) t3); [exact S1| |reflexivity].
      unfold utf8_bytes.
      replace (_ <? 0x80) with false by lia. replace (_ <? 0x800) with false by lia.
      replace (_ <? 0x10000) with false by lia. unfold cp4 in *.
      cbn [app]. apply cons_eq; [lia|]. apply cons_eq; [lia|]. apply cons_eq; [lia|]. apply cons_eq; [lia|reflexivity].
    - no_seq Hbad. unfold acc4, cont, Utf8.in_range in C1.
      destruct (b =? 0xF0) eqn:?; destruct (b =? 0xF4) eqn:?; lia. }
  no_seq Hbad.
Qed.

Lemma utf8_bytes_ne c : utf8_bytes c <> [].
Proof. unfold utf8_bytes. repeat (destruct (_ <? _)); discriminate. Qed.

Lemma decodes_runes s : decodes s (runes s).
Proof.
  remember (List.length s) as n eqn:E. assert (H : (List.length s <= n)%nat) by lia. clear E.
  revert s H. induction n as [|n IH]; intros [|b t] H; try (simpl in H; lia); try constructor.
  destruct (runes_step b t) as [(c & u & S & E & R)|(S & R)].
  - rewrite R, E. apply dec_char; auto. apply IH.
    assert (List.length (b :: t) = List.length (utf8_bytes c ++ u)) by now rewrite E.
    rewrite app_length in *. assert (X := utf8_bytes_ne c).
    destruct (utf8_bytes c); [congruence|]. simpl in *. lia.
  - rewrite R. apply dec_bad; auto. apply IH. simpl in H. lia.
Qed.

Lemma decodes_unique s l : decodes s l -> l = runes s.
Proof.
  induction 1.
  - reflexivity.
  - rewrite runes_char by auto. congruence.
  - destruct (runes_step b t) as [(c & u & S & E & R)|(S & R)].
    + elim (H c u); auto.
    + rewrite R. apply cons_eq; auto.
Qed.

Lemma decodes_iff s l : decodes s l <-> runes s = l.
Proof. split; [intros H; symmetry; now apply decodes_unique | intros <-; apply decodes_runes]. Qed.

Lemma chars_count_iff s n : chars_count s n <-> rune_count s = n.
Proof.
  unfold chars_count, rune_count. split.
  - intros (l & D & <-). apply decodes_iff in D. now subst.
  - intros <-. exists (runes s). split; auto. apply decodes_runes.
Qed.

(** ASCII strings decode to themselves. *)
Lemma runes_ascii s : is_ascii s = true -> runes s = s.
Proof.
  induction s as [|b s IH]; [reflexivity|]. unfold is_ascii. cbn [forallb].
  rewrite andb_true_iff. intros [H1 H2]. cbn [runes]. rewrite H1. f_equal. now apply IH.
Qed.

Lemma runes_app_char_list l t : Forall scalar_value l -> runes (flat_map utf8_bytes l ++ t) = l ++ runes t.
Proof.
  induction 1; [reflexivity|]. cbn [flat_map]. rewrite <- app_assoc, runes_char by auto.
  cbn [app]. now rewrite IHForall.
Qed.

Lemma utf8_enc_bytes c : scalar_value c -> utf8_enc c = utf8_bytes c.
Proof.
  unfold scalar_value, utf8_enc, utf8_bytes, Utf8.in_range. intros H.
  destruct (c <? 0x80) eqn:?; auto. destruct (c <? 0x800) eqn:?; auto.
  replace (_ || _) with false by lia. reflexivity.
Qed.
