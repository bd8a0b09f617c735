(** Proofs about the executor. *)
From Coq Require Import Lia Permutation.
From Verif Require Import Base Harness HarnessSpec.

(** ** Sharding *)
Section Shard.
Local Open Scope Z_scope.

Lemma round_even_le a b c : 0 < b -> a <= c * b -> round_even a b <= c.
Proof.
  intros B H. unfold round_even. pose proof (Z.div_mod a b ltac:(lia)) as D. pose proof (Z.mod_pos_bound a b B) as R.
  assert (a / b <= c) by (apply Z.div_le_upper_bound; lia).
  assert (a / b = c -> a mod b = 0) by nia.
  destruct (Z.ltb_spec (2 * (a mod b)) b); [auto|]. assert (a mod b <> 0) by lia.
  assert (a / b <> c) by auto. destruct (b <? 2 * (a mod b)); [lia|]. destruct (Z.even (a / b)); lia.
Qed.

Lemma round_even_gt a b c : 0 < b -> 2 * c * b + b < 2 * a -> c < round_even a b.
Proof.
  intros B H. unfold round_even. pose proof (Z.div_mod a b ltac:(lia)) as D. pose proof (Z.mod_pos_bound a b B) as R.
  assert (c <= a / b) by (apply Z.div_le_lower_bound; lia).
  destruct (Z.ltb_spec (2 * (a mod b)) b).
  - assert (a / b <> c) by nia. lia.
  - destruct (Z.ltb_spec b (2 * (a mod b))); [lia|].
    assert (a / b <> c) by nia. destruct (Z.even (a / b)); lia.
Qed.

(** The exponent is as in the comment of [quotient_exp]. *)
Lemma quotient_exp_low n k : 0 < n < 2 ^ 53 -> 0 < k < 2 ^ 53 -> 0 <= quotient_exp n k /\ 2 ^ 52 * k <= n * 2 ^ quotient_exp n k.
Proof.
  intros N K. unfold quotient_exp.
  pose proof (Z.log2_spec n (proj1 N)) as LN. pose proof (Z.log2_spec k (proj1 K)) as LK.
  pose proof (Z.log2_nonneg n). pose proof (Z.log2_nonneg k).
  assert (Z.log2 n <= 52) by (pose proof (proj1 (Z.log2_lt_pow2 n 53 (proj1 N)) (proj2 N)); lia).
  set (a := Z.log2 n) in *. set (b := Z.log2 k) in *. clearbody a b.
  rewrite !Z.pow_succ_r in LN, LK by lia.
  destruct (Z.ltb_spec (2 ^ b * n) (2 ^ a * k)) as [C|C].
  - split; [lia|].
    replace (52 - (a - b - 1)) with (53 - a + b) by lia. rewrite Z.pow_add_r by lia.
    assert (E : 2 ^ 53 = 2 ^ (53 - a) * 2 ^ a) by (rewrite <- Z.pow_add_r by lia; f_equal; lia).
    assert (E' : 2 ^ 53 = 2 * 2 ^ 52) by reflexivity.
    set (x := 2 ^ (53 - a)) in *. set (y := 2 ^ a) in *. set (z := 2 ^ b) in *. set (v := 2 ^ 52) in *.
    assert (0 < x) by (apply Z.pow_pos_nonneg; lia).
    (* v*k <= n*x*z with 2v = x*y, y <= n, k < 2z *)
    assert (x * y * k <= 2 * (n * (x * z))) by nia. nia.
  - split; [lia|].
    replace (52 - (a - b)) with (52 - a + b) by lia. rewrite Z.pow_add_r by lia.
    assert (E : 2 ^ 52 = 2 ^ (52 - a) * 2 ^ a) by (rewrite <- Z.pow_add_r by lia; f_equal; lia).
    rewrite E. set (x := 2 ^ (52 - a)) in *. assert (0 < x) by (apply Z.pow_pos_nonneg; lia). nia.
Qed.

(** [ceil(n / k)] *)
Lemma shard_length_ceil n k : 0 <= n < 2 ^ 53 -> 0 < k < 2 ^ 53 -> shard_length n k = (n + k - 1) / k.
Proof.
  intros N K. unfold shard_length. destruct (Z.eqb_spec n 0) as [->|NZ].
  - symmetry. apply Z.div_small. lia.
  - destruct (quotient_exp_low n k ltac:(lia) K) as [E0 E]. set (e := quotient_exp n k) in *. clearbody e.
    assert (P : 0 < 2 ^ e) by (apply Z.pow_pos_nonneg; lia). set (p := 2 ^ e) in *. clearbody p.
    pose proof (Z.div_mod n k ltac:(lia)) as D. pose proof (Z.mod_pos_bound n k ltac:(lia)) as R.
    set (q := n / k) in *. set (r := n mod k) in *. clearbody q r.
    destruct (Z.eq_dec r 0) as [Z0|Z0].
    + assert (round_even (n * p) k = q * p) as ->.
      { apply Z.le_antisymm; [apply round_even_le; nia|].
        assert (q * p - 1 < round_even (n * p) k) by (apply round_even_gt; nia). lia. }
      replace (- (q * p)) with ((- q) * p) by ring. rewrite Z.div_mul by lia.
      apply Z.div_unique with (k - 1); lia.
    + assert (U : round_even (n * p) k <= (q + 1) * p) by (apply round_even_le; nia).
      assert (L : q * p < round_even (n * p) k).
      { apply round_even_gt; [lia|]. change (2 ^ 53) with (2 * 2 ^ 52) in N. set (v := 2 ^ 52) in *. clearbody v.
        assert (k < 2 * p) by nia. nia. }
      set (m := round_even (n * p) k) in *. clearbody m.
      rewrite <- (Z.div_unique (- m) p (- (q + 1)) ((q + 1) * p - m)); try lia.
      assert ((n + k - 1) / k = q + 1) as ->. { symmetry. apply Z.div_unique with (r - 1); lia. }
      lia.
Qed.

Lemma ceil_bounds n k : 0 <= n -> 0 < k -> let L := (n + k - 1) / k in 0 <= L /\ n <= k * L.
Proof.
  intros N K L. pose proof (Z.div_mod (n + k - 1) k ltac:(lia)) as D.
  pose proof (Z.mod_pos_bound (n + k - 1) k K) as R. fold L in D. split; [|nia].
  apply Z.div_pos; lia.
Qed.

Definition small {A} (l : list A) : Prop := Z.of_nat (List.length l) < 2 ^ 53.

(** Shard [i] panics iff the shards before it are already longer than the list. *)
Lemma shard_panics {A} (l : list A) k i : small l -> 0 < k < 2 ^ 53 -> 0 <= i ->
  let n := Z.of_nat (List.length l) in
  shard l k i = None <-> n < i * ((n + k - 1) / k).
Proof.
  intros S K I n. unfold shard. fold n. rewrite shard_length_ceil by (unfold small in S; lia).
  destruct (ceil_bounds n k ltac:(lia) ltac:(lia)) as [B1 B2]. set (L := (n + k - 1) / k) in *. clearbody L.
  destruct (Z.leb_spec 0 (i * L)); [|nia].
  destruct (Z.leb_spec n ((i + 1) * L)); cbn [andb].
  - destruct (Z.leb_spec (i * L) n); split; intros; try discriminate; try lia; auto.
  - destruct (Z.leb_spec (i * L) ((i + 1) * L)); split; intros; try discriminate; try lia; nia.
Qed.

Lemma firstn_more {A} (l : list A) a b : firstn a l ++ firstn b (skipn a l) = firstn (a + b) l.
Proof.
  revert a; induction l as [|x l IH]; intros [|a]; cbn; auto.
  - now rewrite firstn_nil.
  - f_equal. apply IH.
Qed.

Lemma shards_prefix {A} (l : list A) k : small l -> 0 < k < 2 ^ 53 -> forall j : nat,
  let n := Z.of_nat (List.length l) in
  flat_map (fun i => match shard l k (Z.of_nat i) with Some s => s | None => [] end) (seq 0 j) =
  firstn (Z.to_nat (Z.of_nat j * ((n + k - 1) / k))) l.
Proof.
  intros S K j n. induction j as [|j IH].
  - reflexivity.
  - rewrite seq_S, flat_map_app, IH. cbn [flat_map plus]. rewrite app_nil_r.
    unfold shard. fold n. rewrite shard_length_ceil by (unfold small in S; lia).
    destruct (ceil_bounds n k ltac:(lia) ltac:(lia)) as [B1 B2]. set (L := (n + k - 1) / k) in *. clearbody L.
    assert (A0 : 0 <= Z.of_nat j * L) by nia.
    replace (Z.of_nat (Datatypes.S j) * L) with (Z.of_nat j * L + L) by nia.
    replace ((Z.of_nat j + 1) * L) with (Z.of_nat j * L + L) by ring.
    set (a := Z.of_nat j * L) in *. clearbody a.
    destruct (Z.leb_spec 0 a); [|lia]. cbn [andb].
    destruct (Z.leb_spec n (a + L)).
    + destruct (Z.leb_spec a n).
      * rewrite firstn_more. rewrite !firstn_all2 by lia. reflexivity.
      * rewrite app_nil_r. rewrite !firstn_all2 by lia. reflexivity.
    + destruct (Z.leb_spec a (a + L)); [|lia].
      rewrite firstn_more. f_equal. lia.
Qed.

(** All shards together are the list, in order. *)
Lemma shards_all {A} (l : list A) k : small l -> 0 < k < 2 ^ 53 ->
  flat_map (fun i => match shard l k (Z.of_nat i) with Some s => s | None => [] end) (seq 0 (Z.to_nat k)) = l.
Proof.
  intros S K. rewrite shards_prefix by auto.
  destruct (ceil_bounds (Z.of_nat (List.length l)) k ltac:(lia) ltac:(lia)) as [B1 B2].
  apply firstn_all2. lia.
Qed.
End Shard.

(** ** The verdict *)
Lemma verdict_right failures x c : counts_as (verdict failures x) c <-> should_count failures x c.
Proof.
  destruct x as [a|]; [|destruct c; cbn; split; intros H; auto; try discriminate; decompose [ex and or] H; discriminate].
  destruct a as [v e n al mu].
  assert (D : forall P : Prop, (exists a, Some (Answer v e n al mu) = Some a /\ P) <-> P).
  { intros P. split; [now intros (? & _ & ?)|]. intros p. exists (Answer v e n al mu). auto. }
  unfold should_count, verdict, agrees. cbn.
  assert (E : forall (Q : answer -> Prop), (exists a, Some (Answer v e n al mu) = Some a /\ Q a) <-> Q (Answer v e n al mu)).
  { intros Q. split; [now intros (? & [= <-] & ?)|]. intros q. eexists. split; [reflexivity|auto]. }
  destruct c; rewrite E; cbn.
  all: destruct e, mu; cbn.
  all: try (destruct (Z.eqb_spec n failures)); try (destruct (Z.eqb_spec failures 0)); destruct v, al; cbn.
  all: intuition (try discriminate; try congruence).
Qed.
