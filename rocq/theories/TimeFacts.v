(** Durations and timestamps. *)
From Coq Require Import Lia ZifyBool.
From Verif Require Import Base Rules Time Spec.
Local Open Scope Z_scope.
Ltac Zify.zify_post_hook ::= Z.div_mod_to_equations.

Ltac dif := match goal with |- context [if ?b then _ else _] => destruct b eqn:? end.

Lemma dur_check_spec d : dur_check d = None <-> valid_duration d.
Proof.
  unfold dur_check, valid_duration.
  repeat (dif; [split; [discriminate|intros H; exfalso; lia]|]).
  split; auto. intros _. lia.
Qed.

Lemma ts_check_spec t : ts_check t = None <-> valid_timestamp t.
Proof.
  unfold ts_check, valid_timestamp.
  repeat (dif; [split; [discriminate|intros H; exfalso; lia]|]).
  split; auto. intros _. lia.
Qed.

Lemma wrap64_id z : fits_int64 z = true -> wrap64 z = z.
Proof. unfold fits_int64, wrap64, min_int64, max_int64. intros H. lia. Qed.

Lemma wrap64_range z : min_int64 <= wrap64 z <= max_int64.
Proof. unfold wrap64, min_int64, max_int64. lia. Qed.

(** On valid durations AsDuration is the exact value clamped to int64. *)
Lemma as_duration_spec d : valid_duration d -> as_duration d = go_duration d.
Proof.
  destruct d as [s n]. unfold valid_duration, as_duration, go_duration, nanos, clamp64. cbn [sn_s sn_n].
  intros (Hs & Hn & Hp & Hm).
  destruct (Z_le_gt_dec min_int64 (s * second)) as [H1|H1];
  destruct (Z_le_gt_dec (s * second) max_int64) as [H2|H2]; unfold min_int64, max_int64 in *;
  try (exfalso; unfold second in *; lia).
  - (* the product fits *)
    assert (Hw : wrap64 (s * second) = s * second) by (apply wrap64_id; unfold fits_int64, min_int64, max_int64; lia).
    rewrite Hw. rewrite Z.quot_mul by (unfold second; lia).
    rewrite Z.eqb_refl. cbn [negb orb].
    unfold second in *.
    destruct (Z_le_gt_dec (- 2 ^ 63) (s * 1000000000 + n)) as [H3|H3].
    + destruct (Z_le_gt_dec (s * 1000000000 + n) (2 ^ 63 - 1)) as [H4|H4].
      * rewrite wrap64_id by (unfold fits_int64, min_int64, max_int64; lia).
        destruct (_ || _) eqn:E; lia.
      * assert (Hx : wrap64 (s * 1000000000 + n) = s * 1000000000 + n - 2^64) by (unfold wrap64; lia).
        rewrite Hx. replace (_ || _) with true by lia.
        destruct (s <? 0) eqn:?; [lia|]. destruct (0 <? s) eqn:?; lia.
    + assert (Hx : wrap64 (s * 1000000000 + n) = s * 1000000000 + n + 2^64) by (unfold wrap64; lia).
      rewrite Hx. replace (_ || _) with true by lia.
      destruct (s <? 0) eqn:?; lia.
  - (* too large *)
    assert (Hq : (Z.quot (wrap64 (s * second)) second =? s) = false).
    { assert (Hb := wrap64_range (s * second)). unfold min_int64, max_int64 in Hb.
      apply Z.eqb_neq. intros E. unfold second in *.
      assert (Hl : Z.quot (wrap64 (s * 1000000000)) 1000000000 <= Z.quot (2^63-1) 1000000000)
        by (apply Z.quot_le_mono; lia).
      change (Z.quot (2^63-1) 1000000000) with 9223372036 in Hl. lia. }
    rewrite Hq. cbn [negb orb]. unfold second in *.
    destruct (s <? 0) eqn:?; [lia|]. destruct (0 <? s) eqn:?; lia.
  - (* too small *)
    assert (Hq : (Z.quot (wrap64 (s * second)) second =? s) = false).
    { assert (Hb := wrap64_range (s * second)). unfold min_int64, max_int64 in Hb.
      apply Z.eqb_neq. intros E. unfold second in *.
      assert (Hl : Z.quot (-2^63) 1000000000 <= Z.quot (wrap64 (s * 1000000000)) 1000000000)
        by (apply Z.quot_le_mono; lia).
      change (Z.quot (-2^63) 1000000000) with (-9223372036) in Hl. lia. }
    rewrite Hq. cbn [negb orb]. unfold second in *.
    destruct (s <? 0) eqn:?; lia.
Qed.

Lemma dur_lit_spec d z : dur_lit d = Some z -> z = nanos d /\ go_duration d = z /\ - 2^63 <= z <= 2^63 - 1.
Proof.
  unfold dur_lit, go_duration, clamp64, nanos, fits_int64, min_int64, max_int64, second.
  destruct (_ && _) eqn:E; [|discriminate]. intros H. inversion H; subst. lia.
Qed.

Lemma instant_nanos t : instant t = nanos t.
Proof. reflexivity. Qed.

(** The sign of a difference is exact. *)
Lemma time_sub_sign a b : (time_sub a b ?= 0) = (a ?= b).
Proof.
  unfold time_sub. destruct (b + wrap64 (a - b) =? a) eqn:E.
  - destruct (Z.compare_spec a b); destruct (Z.compare_spec (wrap64 (a - b)) 0); auto; lia.
  - assert (a <> b).
    { intros ->. rewrite Z.sub_diag in E. change (wrap64 0) with 0 in E. lia. }
    unfold min_int64, max_int64. destruct (a <? b) eqn:?.
    + destruct (Z.compare_spec a b); auto; lia.
    + destruct (Z.compare_spec a b); auto; lia.
Qed.

Lemma time_sub_lt a b : (time_sub a b <? 0) = (a <? b).
Proof. unfold Z.ltb. now rewrite time_sub_sign. Qed.
Lemma time_sub_le a b : (time_sub a b <=? 0) = (a <=? b).
Proof. unfold Z.leb. now rewrite time_sub_sign. Qed.
Lemma time_sub_gt a b : (0 <? time_sub a b) = (b <? a).
Proof. rewrite !Z.ltb_antisym, time_sub_le. reflexivity. Qed.
Lemma time_sub_ge a b : (0 <=? time_sub a b) = (b <=? a).
Proof. rewrite !Z.leb_antisym, time_sub_lt. reflexivity. Qed.
