(** The checker accepts exactly the consistent schemas. *)
From Coq Require Import Lia.
From Verif Require Import Base Utf8 Num Rules Types Time Iface Checker Spec Conflict NumFacts TimeFacts Utf8Facts.

Lemma none_dec {A} (o : option A) : is_none o = true <-> o = None.
Proof. destruct o; cbn; split; congruence. Qed.
Lemma some_dec {A} (o : option A) : is_none o = false <-> o <> None.
Proof. destruct o; cbn; split; congruence. Qed.
Lemma len0 {A} (l : list A) : (List.length l =? 0)%nat = true <-> l = [].
Proof. destruct l; cbn; split; congruence. Qed.

Lemma check_ins_ok {A B} (l : list A) (nl : list B) :
  check_ins (List.length l) (List.length nl) = true <-> ~ (l <> [] /\ nl <> []).
Proof.
  unfold check_ins. destruct l, nl; cbn; split; intros H; try tauto; try discriminate;
    try (intros [? ?]; congruence). exfalso. apply H. split; discriminate.
Qed.

Lemma check_min_max_ok mn mx : check_min_max mn mx = true <-> ~ min_above_max mn mx.
Proof.
  unfold check_min_max, min_above_max. destruct mn as [a|], mx as [b|];
    try (split; [intros _ (?&?&?&?&?); congruence|auto]).
  rewrite N.leb_le. split.
  - intros H (a'&b'&Ea&Eb&L). injection Ea as <-. injection Eb as <-. lia.
  - intros H. destruct (N.le_gt_cases a b); auto. exfalso. apply H. eauto 6.
Qed.

Lemma check_len_ok l mn mx : check_len l mn mx = true <-> ~ (l <> None /\ (mn <> None \/ mx <> None)).
Proof.
  unfold check_len. destruct l; cbn; [|split; [intros _ [H _]; congruence|auto]].
  destruct mn, mx; cbn; split; intros H; auto; try discriminate;
    try (exfalso; apply H; split; [discriminate|first [left; discriminate|right; discriminate]]).
  intros [_ [?|?]]; congruence.
Qed.

(** checkNums. *)
Lemma check_nums_ok {A} (eqA : A -> A -> bool) (same : A -> A -> Prop) c lt lte gt gte (l nl : list A) :
  (forall a b, (lt = Some a \/ lte = Some a) -> (gt = Some b \/ gte = Some b) -> eqA a b = true <-> same a b) ->
  check_nums eqA (List.length l) (List.length nl) c lt lte gt gte = true <->
  ~ range_conflict same c lt lte gt gte l nl.
Proof.
  intros E. unfold check_nums. rewrite !andb_true_iff. split.
  - intros (((((H1 & H2) & H3) & H4) & H5) & H6) K. destruct K as [C D|D1 D2|D1 D2|D1 D2|D1 D2|a b Da Db S].
    + destruct c; [|congruence]. cbn in H2. rewrite !andb_true_iff, !none_dec, !len0 in H2. tauto.
    + rewrite check_ins_ok in H1. tauto.
    + rewrite orb_true_iff, !andb_true_iff, !none_dec, len0 in H3. tauto.
    + rewrite orb_true_iff, !none_dec in H4. tauto.
    + rewrite orb_true_iff, !none_dec in H5. tauto.
    + pose proof (proj2 (E a b Da Db) S) as Q.
      destruct Da as [-> | ->]; [|destruct lt; [cbn in H4; congruence|]]; rewrite andb_true_iff in H6;
        destruct Db as [-> | ->]; destruct H6 as [H6 H7]; rewrite Q in *; discriminate.
  - intros K.
    assert (K1 : ~ (l <> [] /\ nl <> [])) by (intros [? ?]; apply K; now apply in_with_not_in).
    repeat split.
    + now apply check_ins_ok.
    + destruct c as [c|]; auto. cbn.
      assert (Q : ~ (l <> [] \/ nl <> [] \/ lt <> None \/ lte <> None \/ gt <> None \/ gte <> None))
        by (intros D; apply K; apply const_with_other; [discriminate|exact D]).
      destruct l, nl, lt, lte, gt, gte; auto; exfalso; apply Q;
        repeat (first [left; discriminate|right]); discriminate.
    + destruct l as [|x l]; auto. cbn.
      assert (Q : ~ (lt <> None \/ lte <> None \/ gt <> None \/ gte <> None))
        by (intros D; apply K; apply in_with_range; [discriminate|exact D]).
      destruct lt, lte, gt, gte; auto; exfalso; apply Q;
        repeat (first [left; discriminate|right]); discriminate.
    + destruct lt, lte; auto. exfalso. apply K. apply lt_with_lte; discriminate.
    + destruct gt, gte; auto. exfalso. apply K. apply gt_with_gte; discriminate.
    + assert (Q : forall a b, (lt = Some a \/ lte = Some a) -> (gt = Some b \/ gte = Some b) -> negb (eqA a b) = true).
      { intros a b Da Db. destruct (eqA a b) eqn:Eab; auto. exfalso. apply K.
        apply (equal_bounds _ _ _ _ _ _ _ _ a b); auto. now apply E. }
      destruct lt as [a|]; [|destruct lte as [a|]]; auto; rewrite andb_true_iff; split;
        match goal with |- match ?x with _ => _ end = true => destruct x; auto end.
Qed.

Lemma check_num_ok r : check_num r = true <->
  ~ range_conflict neq (n_const r) (n_lt r) (n_lte r) (n_gt r) (n_gte r) (n_in r) (n_not_in r).
Proof. apply check_nums_ok. intros. apply num_eqb_spec. Qed.

Section WithRegex.
Variable re_ok : bytes -> bool.
Hypothesis re_name : re_ok re_header_name = true.
Hypothesis re_value : re_ok re_header_value = true.
Hypothesis re_string : re_ok re_header_string = true.

Lemma check_pattern_ok {A} p (l : list A) : check_pattern re_ok p (List.length l) = true <->
  ~ (p <> None /\ l <> []) /\ ~ (exists q, p = Some q /\ re_ok q = false).
Proof.
  unfold check_pattern. destruct p as [p|]; [|split; auto; intros _; split; [intros [? _]; congruence|intros (?&?&_); discriminate]].
  rewrite andb_true_iff, len0. split.
  - intros [-> H]. split; [intros [_ ?]; congruence|]. intros (q & Q & B). injection Q as <-. congruence.
  - intros [H1 H2]. split.
    + destruct l; auto. exfalso. apply H1. split; discriminate.
    + destruct (re_ok p) eqn:E; auto. exfalso. eauto.
Qed.

Lemma to_int_small m : (m < 2^63)%N -> to_int m = Z.of_N m.
Proof. intros H. unfold to_int. apply wrap64_id. unfold fits_int64, min_int64, max_int64. lia. Qed.

Lemma part_ok (cnt : bytes -> N) (count : bytes -> N -> Prop) (part : option bytes) m :
  (forall s n, count s n <-> cnt s = n) -> cnt [] = 0%N -> (m < 2^63)%N ->
  (Z.of_N (cnt (getbs part)) <=? to_int m)%Z = true <-> ~ part_too_long count part (Some m).
Proof.
  intros C C0 M. rewrite to_int_small by auto. rewrite Z.leb_le. unfold part_too_long.
  destruct part as [p|]; cbn [getbs].
  - split.
    + intros H (p' & n & m' & P & Q & R & L). injection P as <-. injection R as <-. apply C in Q. lia.
    + intros H. destruct (N.le_gt_cases (cnt p) m); [lia|]. exfalso. apply H.
      exists p, (cnt p), m. repeat split; auto. now apply C.
  - rewrite C0. split; [intros _ (?&?&?&?&_); discriminate|lia].
Qed.

Lemma bytes_count_iff s n : bytes_count s n <-> blen s = n.
Proof. reflexivity. Qed.

Lemma neg_or (P Q : Prop) : ~ (P \/ Q) <-> ~ P /\ ~ Q.
Proof. tauto. Qed.

Lemma wkr_ok r : exists r', (s_max_len r' = s_max_len r /\ s_max_bytes r' = s_max_bytes r /\ s_prefix r' = s_prefix r /\
                s_suffix r' = s_suffix r /\ s_contains r' = s_contains r) /\
     (match check_wkr r with
      | Some r'' => check_pattern re_ok (s_pattern r'') (List.length (s_in r'')) = true /\ r'' = r'
      | None => False
      end <->
      ~ (exists k, s_wk r = Some (WRegex k) /\ k <> KRUnknown /\ s_pattern r <> None) /\
      ~ (exists k, s_wk r = Some (WRegex k) /\ (k = KRHeaderName \/ k = KRHeaderValue) /\ s_in r <> []) /\
      ~ (s_pattern r <> None /\ s_in r <> []) /\ ~ (exists p, s_pattern r = Some p /\ re_ok p = false)) /\
     (check_wkr r = None \/ check_wkr r = Some r').
Proof.
  assert (S0 : forall p, s_max_len (set_pattern r p) = s_max_len r /\ s_max_bytes (set_pattern r p) = s_max_bytes r /\
              s_prefix (set_pattern r p) = s_prefix r /\
              s_suffix (set_pattern r p) = s_suffix r /\ s_contains (set_pattern r p) = s_contains r)
       by (intros p; destruct r; cbn; auto).
    unfold check_wkr, get_wkr, guard.
    destruct (s_wk r) as [[b|b|b|b|b|b|b|b|b|k]|] eqn:EW;
      try (exists r; split; [auto|]; split; [|auto]; rewrite check_pattern_ok; split;
           [intros [[H1 H2] _]; repeat split; auto; intros (k & Q & _); discriminate
           |intros (_ & _ & H1 & H2); auto]).
    destruct k.
    - exists r. split; [auto|]. split; [|auto]. rewrite check_pattern_ok. split.
      + intros [[H1 H2] _]. repeat split; auto; intros (k & Q & R & _); injection Q as <-.
        * congruence.
        * destruct R; discriminate.
      + intros (_ & _ & H1 & H2); auto.
    - destruct (is_none (s_pattern r)) eqn:EP.
      + apply none_dec in EP. rewrite EP.
        eexists (set_pattern r _). split; [apply S0|]. split; [|right; reflexivity].
        replace (s_in (set_pattern r _)) with (s_in r) by (destruct r; reflexivity).
        replace (s_pattern (set_pattern r _)) with
          (Some (match s_strict r with Some false => re_header_string | _ => re_header_name end))
          by (destruct r as [? ? ? ? ? ? ? ? ? ? ? ? ? ? ? [[]|] ?]; reflexivity).
        rewrite check_pattern_ok. split.
        * intros [[H1 H2] _]. repeat split.
          -- intros (k & _ & _ & Q). congruence.
          -- intros (k & _ & _ & Q). apply H1. split; [discriminate|auto].
          -- intros [Q _]. congruence.
          -- intros (p & Q & _). discriminate.
        * intros (_ & H & _). split; [|reflexivity]. split.
          -- intros [_ Q]. apply H. exists KRHeaderName. repeat split; auto.
          -- intros (q & Q & Bad). injection Q as <-.
             destruct (s_strict r) as [[]|]; congruence.
      + apply some_dec in EP. exists r. split; [auto|]. split; [|auto]. split; [tauto|].
        intros [H _]. apply H. exists KRHeaderName. repeat split; auto; discriminate.
    - destruct (is_none (s_pattern r)) eqn:EP.
      + apply none_dec in EP. rewrite EP.
        eexists (set_pattern r _). split; [apply S0|]. split; [|right; reflexivity].
        replace (s_in (set_pattern r _)) with (s_in r) by (destruct r; reflexivity).
        replace (s_pattern (set_pattern r _)) with
          (Some (match s_strict r with Some false => re_header_string | _ => re_header_value end))
          by (destruct r as [? ? ? ? ? ? ? ? ? ? ? ? ? ? ? [[]|] ?]; reflexivity).
        rewrite check_pattern_ok. split.
        * intros [[H1 H2] _]. repeat split.
          -- intros (k & _ & _ & Q). congruence.
          -- intros (k & _ & _ & Q). apply H1. split; [discriminate|auto].
          -- intros [Q _]. congruence.
          -- intros (p & Q & _). discriminate.
        * intros (_ & H & _). split; [|reflexivity]. split.
          -- intros [_ Q]. apply H. exists KRHeaderValue. repeat split; auto.
          -- intros (q & Q & Bad). injection Q as <-.
             destruct (s_strict r) as [[]|]; congruence.
      + apply some_dec in EP. exists r. split; [auto|]. split; [|auto]. split; [tauto|].
        intros [H _]. apply H. exists KRHeaderValue. repeat split; auto; discriminate.
    - destruct (is_none (s_pattern r)) eqn:EP.
      + apply none_dec in EP. rewrite EP.
        eexists (set_pattern r _). split; [apply S0|]. split; [|right; reflexivity].
        replace (s_pattern (set_pattern r None)) with (@None bytes) by (destruct r; reflexivity).
        cbn [check_pattern]. split; [|auto]. intros _. repeat split.
        * intros (k & _ & _ & Q). congruence.
        * intros (k & Q & R & _). injection Q as <-. destruct R; discriminate.
        * intros [Q _]. congruence.
        * intros (p & Q & _). discriminate.
      + apply some_dec in EP. exists r. split; [auto|]. split; [|auto]. split; [tauto|].
        intros [H _]. apply H. exists KROther. repeat split; auto; discriminate. 
Qed.

Lemma check_string_ok r : small_max (s_max_len r) -> small_max (s_max_bytes r) ->
  check_string re_ok r <> None <-> ~ string_conflict re_ok r.
Proof.
  intros M1 M2. unfold check_string, guard.
  pose proof (check_len_ok (s_len r) (s_min_len r) (s_max_len r)) as A1.
  pose proof (check_len_ok (s_len_bytes r) (s_min_bytes r) (s_max_bytes r)) as A2.
  pose proof (check_min_max_ok (s_min_len r) (s_max_len r)) as A3.
  pose proof (check_min_max_ok (s_min_bytes r) (s_max_bytes r)) as A4.
  pose proof (check_ins_ok (s_in r) (s_not_in r)) as A5.
  assert (A6 : forall m, s_max_len r = Some m -> (m < 2^63)%N) by exact M1.
  assert (A7 : forall m, s_max_bytes r = Some m -> (m < 2^63)%N) by exact M2.
  match goal with |- context [if ?b then _ else None] => destruct b eqn:B end.
  2:{ split; [congruence|]. intros K. exfalso. apply not_true_iff_false in B. apply B. clear B.
      rewrite !andb_true_iff, A1, A2, A3, A4, A5. repeat split.
      - intros [? ?]. apply K. now apply sc_len.
      - intros [? ?]. apply K. now apply sc_len_bytes.
      - intros ?. apply K. now apply sc_min_max.
      - intros ?. apply K. now apply sc_min_max_bytes.
      - intros [? ?]. apply K. now apply sc_in_not_in. }
  rewrite !andb_true_iff, A1, A2, A3, A4, A5 in B. destruct B as ((((B1 & B2) & B3) & B4) & B5).
  clear A1 A2 A3 A4 A5.
  (* the sizes of parts *)
  assert (PL : match s_max_len r with
          | None => true
          | Some mx =>
              let m := to_int mx in
              (Z.of_N (rune_count (getbs (s_prefix r))) <=? m)%Z
              && (Z.of_N (rune_count (getbs (s_suffix r))) <=? m)%Z
              && (Z.of_N (rune_count (getbs (s_contains r))) <=? m)%Z
              && match s_max_bytes r with None => true | Some mb => (mx <=? mb)%N end
          end = true <->
     ~ (exists p, (p = s_prefix r \/ p = s_suffix r \/ p = s_contains r) /\
                  part_too_long chars_count p (s_max_len r)) /\
     ~ min_above_max (s_max_len r) (s_max_bytes r)).
  { destruct (s_max_len r) as [m|].
    - cbn zeta. pose proof (A6 m eq_refl) as Hm.
      rewrite !andb_true_iff,
        !(part_ok rune_count chars_count _ m chars_count_iff eq_refl Hm).
      rewrite <- check_min_max_ok. cbn [check_min_max]. split.
      + intros (((H1 & H2) & H3) & H4). split; auto. intros (p & [->|[->| ->]] & H); tauto.
      + intros [H H4]. repeat split; auto; intros P; apply H; eauto.
    - split; auto. intros _. split; [intros (p & _ & (?&?&?&_&_&?&_)); discriminate|].
      intros (?&?&?&_); discriminate. }
  assert (PB : match s_max_bytes r with
          | None => true
          | Some mx =>
              let m := to_int mx in
              (Z.of_N (blen (getbs (s_prefix r))) <=? m)%Z
              && (Z.of_N (blen (getbs (s_suffix r))) <=? m)%Z
              && (Z.of_N (blen (getbs (s_contains r))) <=? m)%Z
          end = true <->
     ~ (exists p, (p = s_prefix r \/ p = s_suffix r \/ p = s_contains r) /\
                  part_too_long bytes_count p (s_max_bytes r))).
  { destruct (s_max_bytes r) as [m|].
    - cbn zeta. pose proof (A7 m eq_refl) as Hm.
      rewrite !andb_true_iff, !(part_ok blen bytes_count _ m bytes_count_iff eq_refl Hm). split.
      + intros ((H1 & H2) & H3). intros (p & [->|[->| ->]] & H); tauto.
      + intros H. repeat split; auto; intros P; apply H; eauto.
    - split; auto. intros _ (p & _ & (?&?&?&_&_&?&_)); discriminate. }
  pose proof (wkr_ok r) as W.
  destruct W as (r' & (E1 & E2 & E3 & E4 & E5) & W & WE).
  assert (G : match check_wkr r with
     | Some r0 => if check_pattern re_ok (s_pattern r0) (List.length (s_in r0)) &&
         match s_max_len r0 with
         | None => true
         | Some mx => let m := to_int mx in
              (Z.of_N (rune_count (getbs (s_prefix r0))) <=? m)%Z
              && (Z.of_N (rune_count (getbs (s_suffix r0))) <=? m)%Z
              && (Z.of_N (rune_count (getbs (s_contains r0))) <=? m)%Z
              && match s_max_bytes r0 with None => true | Some mb => (mx <=? mb)%N end
         end && match s_max_bytes r0 with
         | None => true
         | Some mx => let m := to_int mx in
              (Z.of_N (blen (getbs (s_prefix r0))) <=? m)%Z
              && (Z.of_N (blen (getbs (s_suffix r0))) <=? m)%Z
              && (Z.of_N (blen (getbs (s_contains r0))) <=? m)%Z
         end then Some r0 else None
     | None => None end <> None <->
     (match check_wkr r with
      | Some r'' => check_pattern re_ok (s_pattern r'') (List.length (s_in r'')) = true /\ r'' = r'
      | None => False
      end) /\ 
      (~ (exists p, (p = s_prefix r \/ p = s_suffix r \/ p = s_contains r) /\
                  part_too_long chars_count p (s_max_len r)) /\
       ~ min_above_max (s_max_len r) (s_max_bytes r)) /\
      ~ (exists p, (p = s_prefix r \/ p = s_suffix r \/ p = s_contains r) /\
                  part_too_long bytes_count p (s_max_bytes r))).
  { rewrite <- PL, <- PB. destruct WE as [WE|WE]; rewrite WE; [intuition congruence|].
    rewrite E1, E2, E3, E4, E5.
    match goal with |- context [if ?b then _ else None] => destruct b eqn:B end.
    - rewrite !andb_true_iff in B. destruct B as ((X & Y) & Z). split; [intros _; auto|discriminate].
    - split; [congruence|]. intros ((X & _) & Y & Z). exfalso. apply not_true_iff_false in B. apply B.
      rewrite !andb_true_iff. auto. }
  match goal with |- ?x <> None <-> _ => change (x <> None) with
     (match check_wkr r with
     | Some r0 => if check_pattern re_ok (s_pattern r0) (List.length (s_in r0)) &&
         match s_max_len r0 with
         | None => true
         | Some mx => let m := to_int mx in
              (Z.of_N (rune_count (getbs (s_prefix r0))) <=? m)%Z
              && (Z.of_N (rune_count (getbs (s_suffix r0))) <=? m)%Z
              && (Z.of_N (rune_count (getbs (s_contains r0))) <=? m)%Z
              && match s_max_bytes r0 with None => true | Some mb => (mx <=? mb)%N end
         end && match s_max_bytes r0 with
         | None => true
         | Some mx => let m := to_int mx in
              (Z.of_N (blen (getbs (s_prefix r0))) <=? m)%Z
              && (Z.of_N (blen (getbs (s_suffix r0))) <=? m)%Z
              && (Z.of_N (blen (getbs (s_contains r0))) <=? m)%Z
         end then Some r0 else None
     | None => None end <> None) end.
  rewrite G, W. clear G W WE PL PB.
  split.
  - intros ((C1 & C2 & C3 & C4) & (C5 & C6) & C7) K. destruct K; eauto 8.
  - intros K. repeat split.
    + intros (k & ? & ? & ?). apply K. eapply sc_pattern_known; eauto.
    + intros (k & ? & ? & ?). apply K. eapply sc_known_in; eauto.
    + intros [? ?]. apply K. now apply sc_pattern_in.
    + intros (p & ? & ?). apply K. eapply sc_pattern_bad; eauto.
    + intros (p & ? & ?). apply K. eapply sc_part_chars; eauto.
    + intros ?. apply K. now apply sc_max_len_bytes.
    + intros (p & ? & ?). apply K. eapply sc_part_bytes; eauto.
Qed.

Lemma check_bytes_ok r : small_max (b_max_len r) ->
  check_bytes re_ok r = true <-> ~ bytes_conflict re_ok r.
Proof.
  intros M. unfold check_bytes. rewrite !andb_true_iff, check_min_max_ok, check_ins_ok, check_pattern_ok.
  assert (PB : match b_max_len r with
          | None => true
          | Some mx =>
              let m := to_int mx in
              (Z.of_N (blen (getbs (b_prefix r))) <=? m)%Z
              && (Z.of_N (blen (getbs (b_suffix r))) <=? m)%Z
              && (Z.of_N (blen (getbs (b_contains r))) <=? m)%Z
          end = true <->
     ~ (exists p, (p = b_prefix r \/ p = b_suffix r \/ p = b_contains r) /\
                  part_too_long bytes_count p (b_max_len r))).
  { destruct (b_max_len r) as [m|].
    - cbn zeta. pose proof (M m eq_refl) as Hm.
      rewrite !andb_true_iff, !(part_ok blen bytes_count _ m bytes_count_iff eq_refl Hm). split.
      + intros ((H1 & H2) & H3). intros (p & [->|[->| ->]] & H); tauto.
      + intros H. repeat split; auto; intros P; apply H; eauto.
    - split; auto. intros _ (p & _ & (?&?&?&_&_&?&_)); discriminate. }
  rewrite PB. clear PB. split.
  - intros (((C1 & C2) & (C3 & C4)) & C5) K. destruct K; eauto 6.
  - intros K. repeat split.
    + intros ?. apply K. now apply bc_min_max.
    + intros [? ?]. apply K. now apply bc_in_not_in.
    + intros [? ?]. apply K. now apply bc_pattern_in.
    + intros (p & ? & ?). apply K. eapply bc_pattern_bad; eauto.
    + intros (p & ? & ?). apply K. eapply bc_part; eauto.
Qed.

Lemma valid_duration_dec d : {valid_duration d} + {~ valid_duration d}.
Proof. destruct (dur_check d) eqn:E; [right|left]; rewrite <- dur_check_spec; congruence. Qed.
Lemma valid_timestamp_dec d : {valid_timestamp d} + {~ valid_timestamp d}.
Proof. destruct (ts_check d) eqn:E; [right|left]; rewrite <- ts_check_spec; congruence. Qed.

Lemma check_dur_ok_iff o : check_dur_ok o = true <-> (forall d, o = Some d -> valid_duration d).
Proof.
  unfold check_dur_ok. destruct o as [d|].
  - rewrite none_dec, dur_check_spec. split; [intros H d' E; now injection E as <-|auto].
  - split; [discriminate|auto].
Qed.
Lemma check_ts_ok_iff o : check_ts_ok o = true <-> (forall d, o = Some d -> valid_timestamp d).
Proof.
  unfold check_ts_ok. destruct o as [d|].
  - rewrite none_dec, ts_check_spec. split; [intros H d' E; now injection E as <-|auto].
  - split; [discriminate|auto].
Qed.
Lemma all_dur_iff l : forallb (fun d => is_none (dur_check d)) l = true <-> (forall d, In d l -> valid_duration d).
Proof.
  rewrite forallb_forall. split; intros H d I; specialize (H d I); [rewrite none_dec, dur_check_spec in H|rewrite none_dec, dur_check_spec]; auto.
Qed.

(** checkNums over the images of constants. *)
Lemma range_conflict_map {A B} (f : A -> B) same same' c lt lte gt gte l nl (l' nl' : list B) :
  (forall a b, (lt = Some a \/ lte = Some a) -> (gt = Some b \/ gte = Some b) -> same' (f a) (f b) <-> same a b) ->
  List.length l' = List.length l -> List.length nl' = List.length nl ->
  range_conflict same' (option_map f c) (option_map f lt) (option_map f lte) (option_map f gt)
    (option_map f gte) l' nl' <->
  range_conflict same c lt lte gt gte l nl.
Proof.
  intros E L NL.
  assert (N : forall o : option A, option_map f o <> None <-> o <> None) by (intros [o|]; cbn; split; congruence).
  assert (N1 : l' <> [] <-> l <> []) by (destruct l, l'; try discriminate; split; congruence).
  assert (N2 : nl' <> [] <-> nl <> []) by (destruct nl, nl'; try discriminate; split; congruence).
  split; intros K; destruct K as [C D|D1 D2|D1 D2|D1 D2|D1 D2|a b Da Db S].
  - apply const_with_other; [now apply N|]. rewrite !N, N1, N2 in D. auto.
  - apply in_with_not_in; tauto.
  - apply in_with_range; [tauto|]. rewrite !N in D2. auto.
  - apply lt_with_lte; now apply N.
  - apply gt_with_gte; now apply N.
  - assert (exists a', (lt = Some a' \/ lte = Some a') /\ a = f a') as (a' & Ea & ->).
    { destruct Da as [Da|Da]; [destruct lt|destruct lte]; cbn in Da; try discriminate; injection Da as <-; eauto. }
    assert (exists b', (gt = Some b' \/ gte = Some b') /\ b = f b') as (b' & Eb & ->).
    { destruct Db as [Db|Db]; [destruct gt|destruct gte]; cbn in Db; try discriminate; injection Db as <-; eauto. }
    apply (equal_bounds _ _ _ _ _ _ _ _ a' b'); auto. now apply E.
  - apply const_with_other; [now apply N|]. rewrite !N, N1, N2. auto.
  - apply in_with_not_in; tauto.
  - apply in_with_range; [tauto|]. rewrite !N. auto.
  - apply lt_with_lte; now apply N.
  - apply gt_with_gte; now apply N.
  - apply (equal_bounds _ _ _ _ _ _ _ _ (f a) (f b)).
    + destruct Da as [-> | ->]; cbn; auto.
    + destruct Db as [-> | ->]; cbn; auto.
    + now apply E.
Qed.

Lemma check_duration_ok r :
  small_time (d_const r) -> small_time (d_lt r) -> small_time (d_lte r) ->
  small_time (d_gt r) -> small_time (d_gte r) ->
  check_duration r = true <-> ~ duration_conflict r.
Proof.
  intros S1 S2 S3 S4 S5. unfold check_duration.
  rewrite !andb_true_iff, !check_dur_ok_iff, !all_dur_iff.
  assert (CN : (forall d, In (Some d) [d_const r; d_lt r; d_lte r; d_gt r; d_gte r] -> valid_duration d) ->
    check_nums Z.eqb (List.length (d_in r)) (List.length (d_not_in r))
       (option_map as_duration (d_const r)) (option_map as_duration (d_lt r))
       (option_map as_duration (d_lte r)) (option_map as_duration (d_gt r))
       (option_map as_duration (d_gte r)) = true <->
    ~ range_conflict (fun a b => nanos a = nanos b)
      (d_const r) (d_lt r) (d_lte r) (d_gt r) (d_gte r) (d_in r) (d_not_in r)).
  { intros V.
    rewrite <- (map_length as_duration (d_in r)), <- (map_length as_duration (d_not_in r)).
    rewrite (check_nums_ok Z.eqb eq) by (intros; apply Z.eqb_eq).
    rewrite (range_conflict_map as_duration (fun a b => nanos a = nanos b)); try apply map_length; [reflexivity|].
    assert (G : forall d, In (Some d) [d_const r; d_lt r; d_lte r; d_gt r; d_gte r] -> as_duration d = nanos d).
    { intros d I. rewrite as_duration_spec by auto. unfold go_duration, clamp64.
      assert (- 2^63 < nanos d < 2^63 - 1)%Z
        by (cbn [In] in I; destruct I as [I|[I|[I|[I|[I|[]]]]]]; auto).
      lia. }
    intros a b Da Db. rewrite !G; [reflexivity| |]; cbn; tauto. }
  split.
  - intros (((((((V1 & V2) & V3) & V4) & V5) & C) & I1) & I2) K.
    assert (V : forall d, In (Some d) [d_const r; d_lt r; d_lte r; d_gt r; d_gte r] -> valid_duration d)
      by (intros d I; cbn [In] in I; destruct I as [I|[I|[I|[I|[I|[]]]]]]; auto).
    apply CN in C; auto. destruct K as [d ND [I|[I|I]]|K]; auto.
  - intros K.
    assert (V : forall d, In d (d_in r) \/ In d (d_not_in r) \/ In (Some d) [d_const r; d_lt r; d_lte r; d_gt r; d_gte r] -> valid_duration d).
    { intros d I. destruct (valid_duration_dec d) as [Y|Y]; auto. exfalso. apply K. eapply dc_invalid; eauto. }
    assert (V' : forall d, In (Some d) [d_const r; d_lt r; d_lte r; d_gt r; d_gte r] -> valid_duration d) by auto.
    pose proof V' as V''. cbn [In] in V''.
    repeat match goal with |- _ /\ _ => split end; try (intros d E; apply V''; tauto).
    + apply CN; auto. intros R. apply K. now apply dc_range.
    + auto.
    + auto.
Qed.

Lemma check_timestamp_ok r :
  small_time (t_const r) -> small_time (t_lt r) -> small_time (t_lte r) ->
  small_time (t_gt r) -> small_time (t_gte r) ->
  check_timestamp r = true <-> ~ timestamp_conflict r.
Proof.
  intros S1 S2 S3 S4 S5. unfold check_timestamp. cbn zeta.
  rewrite !andb_true_iff, !check_ts_ok_iff, !orb_true_iff, !andb_true_iff, !none_dec.
  assert (CN : 
    check_nums Z.eqb 0 0
       (option_map ts_nano (t_const r)) (option_map ts_nano (t_lt r))
       (option_map ts_nano (t_lte r)) (option_map ts_nano (t_gt r))
       (option_map ts_nano (t_gte r)) = true <->
    ~ range_conflict (fun a b => nanos a = nanos b)
      (t_const r) (t_lt r) (t_lte r) (t_gt r) (t_gte r) [] []).
  { change 0%nat with (List.length (@nil Z)).
    rewrite (check_nums_ok Z.eqb eq) by (intros; apply Z.eqb_eq).
    rewrite (range_conflict_map ts_nano (fun a b => nanos a = nanos b)); try reflexivity.
    assert (G : forall d, In (Some d) [t_const r; t_lt r; t_lte r; t_gt r; t_gte r] -> ts_nano d = nanos d).
    { intros d I. unfold ts_nano, unix_nano. rewrite instant_nanos. apply wrap64_id.
      assert (- 2^63 < nanos d < 2^63 - 1)%Z
        by (cbn [In] in I; destruct I as [I|[I|[I|[I|[I|[]]]]]]; auto).
      unfold fits_int64, min_int64, max_int64. lia. }
    intros a b Da Db. rewrite !G; [reflexivity| |]; cbn; tauto. }
  rewrite CN. clear CN.
  assert (CW : match t_within r with
     | None => true
     | Some d => is_none (dur_check d) && (0 <? as_duration d)%Z
     end = true <-> ~ (exists d, t_within r = Some d /\ (~ valid_duration d \/ nanos d <= 0)%Z)).
  { destruct (t_within r) as [d|].
    - rewrite andb_true_iff, none_dec, dur_check_spec, Z.ltb_lt. split.
      + intros [V P] (d' & E & Q). injection E as <-. rewrite as_duration_spec in P by auto.
        unfold go_duration, clamp64 in P. destruct Q as [Q|Q]; [tauto|]. lia.
      + intros H. assert (V : valid_duration d).
        { destruct (valid_duration_dec d) as [V|V]; auto. exfalso. apply H. eauto. }
        split; auto. rewrite as_duration_spec by auto. unfold go_duration, clamp64.
        assert (~ nanos d <= 0)%Z by (intros Q; apply H; eauto). lia.
    - split; auto. intros _ (? & ? & _). discriminate. }
  rewrite CW. clear CW.
  assert (D : forall o : option bool, o = None \/ o <> None) by (intros [|]; [right; discriminate|auto]).
  assert (D' : forall o : option sn, o = None \/ o <> None) by (intros [|]; [right; discriminate|auto]).
  split.
  - intros (((((((((V1 & V2) & V3) & V4) & V5) & C) & N1) & N2) & N3) & W) K.
    destruct K as [t NV I|d E Q|R|A B|A B].
    + cbn [In] in I; destruct I as [I|[I|[I|[I|[I|[]]]]]]; auto.
    + eauto.
    + auto.
    + tauto.
    + tauto.
  - intros K.
    assert (V : forall d, In (Some d) [t_const r; t_lt r; t_lte r; t_gt r; t_gte r] -> valid_timestamp d).
    { intros d I. destruct (valid_timestamp_dec d) as [Y|Y]; auto. exfalso. apply K. eapply tc_invalid; eauto. }
    pose proof V as V'. cbn [In] in V'.
    assert (N : ~ ((t_lt_now r <> None \/ t_gt_now r <> None \/ t_within r <> None) /\
       (t_lt r <> None \/ t_lte r <> None \/ t_gt r <> None \/ t_gte r <> None)))
      by (intros [? ?]; apply K; now apply tc_now_absolute).
    assert (M : ~ (t_lt_now r <> None /\ t_gt_now r <> None)) by (intros [? ?]; apply K; now apply tc_now_now).
    assert (A : (((t_lt r = None /\ t_lte r = None) /\ t_gt r = None) /\ t_gte r = None) \/
                (t_lt r <> None \/ t_lte r <> None \/ t_gt r <> None \/ t_gte r <> None)).
    { destruct (D' (t_lt r)); [|auto]. destruct (D' (t_lte r)); [|auto]. destruct (D' (t_gt r)); [|auto].
      destruct (D' (t_gte r)); auto 6. }
    repeat match goal with |- _ /\ _ => split end; try (intros d E; apply V'; clear -E; tauto).
    + intros R. apply K. now apply tc_range.
    + destruct A as [A|A]; [now right|left]. clear -N A D.
      destruct (D (t_lt_now r)); [|tauto]. destruct (D (t_gt_now r)); tauto.
    + destruct A as [A|A]; [now right|left]. clear -N A D'. destruct (D' (t_within r)); tauto.
    + clear -M D. destruct (D (t_lt_now r)); [auto|]. destruct (D (t_gt_now r)); tauto.
    + intros (d & E & Q). apply K. eapply tc_within; eauto.
Qed.

(** Soundness needs no bound on the numbers. *)
Lemma to_int_le m : (to_int m <= Z.of_N m)%Z.
Proof.
  unfold to_int, wrap64.
  pose proof (Z.mod_le (Z.of_N m + 2^63) (2^64) ltac:(lia) ltac:(lia)). lia.
Qed.

Lemma part_sound (cnt : bytes -> N) (count : bytes -> N -> Prop) (part : option bytes) m :
  (forall s n, count s n <-> cnt s = n) ->
  (Z.of_N (cnt (getbs part)) <=? to_int m)%Z = true -> ~ part_too_long count part (Some m).
Proof.
  intros C H (p & n & m' & -> & Q & E & L). injection E as <-. apply C in Q. cbn in H.
  pose proof (to_int_le m). lia.
Qed.

Lemma check_string_sound r : check_string re_ok r <> None -> ~ string_conflict re_ok r.
Proof.
  unfold check_string, guard.
  destruct (check_len (s_len r) (s_min_len r) (s_max_len r)) eqn:A1; [|cbn; congruence].
  destruct (check_len (s_len_bytes r) (s_min_bytes r) (s_max_bytes r)) eqn:A2; [|cbn; congruence].
  destruct (check_min_max (s_min_len r) (s_max_len r)) eqn:A3; [|cbn; congruence].
  destruct (check_min_max (s_min_bytes r) (s_max_bytes r)) eqn:A4; [|cbn; congruence].
  destruct (check_ins (List.length (s_in r)) (List.length (s_not_in r))) eqn:A5; [|cbn; congruence].
  apply check_len_ok in A1, A2. apply check_min_max_ok in A3, A4. apply check_ins_ok in A5. cbn [andb].
  destruct (wkr_ok r) as (r' & (E1 & E2 & E3 & E4 & E5) & W & [WE|WE]); rewrite WE in *; [congruence|].
  match goal with |- context [if ?b then _ else None] => destruct b eqn:B end; [|congruence].
  intros _. rewrite !andb_true_iff in B. destruct B as ((X & Y) & Z).
  destruct (proj1 W (conj X eq_refl)) as (C1 & C2 & C3 & C4). rewrite E1, E2, E3, E4, E5 in Y. rewrite E2, E3, E4, E5 in Z.
  clear W WE X E1 E2 E3 E4 E5.
  intros K. destruct K as [ | | | |K| | | | | |p P K|p P K]; eauto 6.
  - apply (proj1 (check_min_max_ok (s_max_len r) (s_max_bytes r))); auto.
    destruct (s_max_len r) as [m|]; auto. rewrite !andb_true_iff in Y. apply Y.
  - destruct K as (q & n & m & Eq & Cn & Em & L). rewrite Em in Y. cbn zeta in Y. rewrite !andb_true_iff in Y.
    destruct Y as (((Y1 & Y2) & Y3) & _). subst p.
    assert (T : part_too_long chars_count (Some q) (Some m)) by (exists q, n, m; auto).
    destruct P as [P|[P|P]]; rewrite P in T; revert T; now apply (part_sound rune_count _ _ _ chars_count_iff).
  - destruct K as (q & n & m & Eq & Cn & Em & L). rewrite Em in Z. cbn zeta in Z. rewrite !andb_true_iff in Z.
    destruct Z as ((Y1 & Y2) & Y3). subst p.
    assert (T : part_too_long bytes_count (Some q) (Some m)) by (exists q, n, m; auto).
    destruct P as [P|[P|P]]; rewrite P in T; revert T; now apply (part_sound blen _ _ _ bytes_count_iff).
Qed.

Lemma check_bytes_sound r : check_bytes re_ok r = true -> ~ bytes_conflict re_ok r.
Proof.
  unfold check_bytes. rewrite !andb_true_iff, check_min_max_ok, check_ins_ok, check_pattern_ok.
  intros (((C1 & C2) & (C3 & C4)) & Z) K. destruct K as [ | | | |p P K]; eauto 6.
  destruct K as (q & n & m & Eq & Cn & Em & L). rewrite Em in Z. cbn zeta in Z. rewrite !andb_true_iff in Z.
  destruct Z as ((Y1 & Y2) & Y3). subst p.
  assert (T : part_too_long bytes_count (Some q) (Some m)) by (exists q, n, m; auto).
  destruct P as [P|[P|P]]; rewrite P in T; revert T; now apply (part_sound blen _ _ _ bytes_count_iff).
Qed.

Lemma range_conflict_weaken {A} (same same' : A -> A -> Prop) c lt lte gt gte l nl :
  (forall a b, (lt = Some a \/ lte = Some a) -> (gt = Some b \/ gte = Some b) -> same a b -> same' a b) ->
  range_conflict same c lt lte gt gte l nl -> range_conflict same' c lt lte gt gte l nl.
Proof.
  intros H K. destruct K as [C D|D1 D2|D1 D2|D1 D2|D1 D2|a b Da Db S].
  - now apply const_with_other.
  - now apply in_with_not_in.
  - now apply in_with_range.
  - now apply lt_with_lte.
  - now apply gt_with_gte.
  - apply (equal_bounds _ _ _ _ _ _ _ _ a b); auto.
Qed.

Lemma check_duration_sound r : check_duration r = true -> ~ duration_conflict r.
Proof.
  unfold check_duration. rewrite !andb_true_iff, !check_dur_ok_iff, !all_dur_iff.
  intros (((((((V1 & V2) & V3) & V4) & V5) & C) & I1) & I2) K.
  assert (V : forall d, In (Some d) [d_const r; d_lt r; d_lte r; d_gt r; d_gte r] -> valid_duration d)
    by (intros d I; cbn [In] in I; destruct I as [I|[I|[I|[I|[I|[]]]]]]; auto).
  destruct K as [d ND [I|[I|I]]|K]; auto.
  rewrite <- (map_length as_duration (d_in r)), <- (map_length as_duration (d_not_in r)) in C.
  rewrite (check_nums_ok Z.eqb eq) in C by (intros; apply Z.eqb_eq).
  apply C. clear C.
  apply (range_conflict_map as_duration (fun a b => as_duration a = as_duration b) eq _ _ _ _ _ (d_in r) (d_not_in r));
    try apply map_length; [reflexivity|].
  revert K. apply range_conflict_weaken. intros a b Da Db E.
  rewrite !as_duration_spec by (apply V; cbn; tauto). unfold go_duration. now rewrite E.
Qed.

Lemma check_timestamp_sound r : check_timestamp r = true -> ~ timestamp_conflict r.
Proof.
  unfold check_timestamp. cbn zeta.
  rewrite !andb_true_iff, !check_ts_ok_iff, !orb_true_iff, !andb_true_iff, !none_dec.
  intros (((((((((V1 & V2) & V3) & V4) & V5) & C) & N1) & N2) & N3) & W) K.
  destruct K as [t NV I|d E Q|R|A B|A B].
  - cbn [In] in I; destruct I as [I|[I|[I|[I|[I|[]]]]]]; auto.
  - rewrite E in W. rewrite andb_true_iff, none_dec, dur_check_spec, Z.ltb_lt in W. destruct W as [V P].
    rewrite as_duration_spec in P by auto. unfold go_duration, clamp64 in P. destruct Q as [Q|Q]; [tauto|]. lia.
  - change 0%nat with (List.length (@nil Z)) in C.
    rewrite (check_nums_ok Z.eqb eq) in C by (intros; apply Z.eqb_eq).
    apply C. clear C.
    apply (range_conflict_map ts_nano (fun a b => ts_nano a = ts_nano b) eq _ _ _ _ _ [] []); try reflexivity.
    revert R. apply range_conflict_weaken. intros a b Da Db E.
    unfold ts_nano. now rewrite !instant_nanos, E.
  - clear -A B N1 N2. tauto.
  - clear -A B N3. tauto.
Qed.

Variable sc : schema.

Definition site_of (c : ctype) : site :=
  match c with CField f => On_field f | CElem e => On_elem e end.
Definition ctype_of (s : site) : ctype :=
  match s with On_field f => CField f | On_elem e => CElem e end.

Lemma embed_message e : is_embed e = true <-> message_type e.
Proof. destruct e; cbn; split; auto; try discriminate; tauto. Qed.

Definition scalar (t : etype) : Prop :=
  match t with TNum _ | TBool | TString | TBytes => True | _ => False end.

Lemma must_type_scalar s t : scalar t -> must_type_c (ctype_of s) t = true <-> holds_scalar s t.
Proof.
  intros T.
  assert (E : forall e, must_type e t = true <-> e = t \/ exists w, e = TWrap w /\ wrapped_type w = t).
  { intros e. split.
    - destruct e as [k| | | |n|n|w| | |], t as [k'| | | | | | | | |]; try destruct T; intros H; try discriminate H; auto;
        cbn in H; try (destruct k'; discriminate H).
      + left. destruct k, k'; try discriminate H; reflexivity.
      + right. exists w. split; auto. destruct w, k'; try discriminate H; reflexivity.
      + right. exists w. split; auto. destruct w; try discriminate H; reflexivity.
      + right. exists w. split; auto. destruct w; try discriminate H; reflexivity.
      + right. exists w. split; auto. destruct w; try discriminate H; reflexivity.
    - intros [->|(w & -> & W)].
      + destruct t as [k'| | | | | | | | |]; try destruct T; try reflexivity. destruct k'; reflexivity.
      + subst t. destruct w; reflexivity. }
  unfold holds_scalar, holds. destruct s as [[e|e|k v]|e]; cbn [ctype_of must_type_c].
  - rewrite E. split.
    + intros [->|(w & -> & W)]; eauto 6.
    + intros [[H|H]|(w & [H|H] & W)]; try discriminate; injection H as ->; eauto.
  - split; [discriminate|]. intros [[H|H]|(w & [H|H] & W)]; discriminate.
  - split.
    + intros H. exfalso. destruct t as [k'| | | | | | | | |]; try destruct T; discriminate H.
    + intros [[H|H]|(w & [H|H] & W)]; discriminate.
  - rewrite E. split.
    + intros [->|(w & -> & W)]; eauto 6.
    + intros [[H|H]|(w & [H|H] & W)]; try discriminate; injection H as ->; eauto.
Qed.

Lemma must_type_enum s : must_type_c (ctype_of s) (TEnum "") = true <-> exists e, holds s (TEnum e).
Proof.
  unfold holds. destruct s as [[e|e|k v]|e]; cbn [ctype_of must_type_c].
  - destruct e as [k| | | |n|n|w| | |]; cbn; split; intros H; try discriminate; eauto;
      destruct H as (e & [H|H]); discriminate.
  - split; [discriminate|]. intros (? & [H|H]); discriminate.
  - split; [discriminate|]. intros (? & [H|H]); discriminate.
  - destruct e as [k| | | |n|n|w| | |]; cbn; split; intros H; try discriminate; eauto;
      destruct H as (e & [H|H]); discriminate.
Qed.

Lemma enum_vals_defined s e z : holds s (TEnum e) -> existsb (Z.eqb z) (enum_vals sc (ctype_of s)) = true <-> defined sc e z.
Proof.
  unfold defined. intros [-> | ->]; cbn [ctype_of enum_vals];
    (destruct (find_enum sc e) as [d|]; [|split; [discriminate|intros (d & H & _); discriminate]]);
    rewrite existsb_exists; (split;
    [intros (x & I & Q); apply Z.eqb_eq in Q; subst; eauto
    |intros (d' & H & I); injection H as <-; exists z; split; [auto|apply Z.eqb_refl]]).
Qed.

Lemma check_enum_ok s r : (exists e, holds s (TEnum e)) ->
  check_enum (enum_vals sc (ctype_of s)) r = true <-> ~ (exists e, holds s (TEnum e) /\ enum_conflict sc e r).
Proof.
  intros (e & He). unfold check_enum. rewrite andb_true_iff, check_ins_ok.
  assert (U : forall e', holds s (TEnum e') -> e' = e).
  { intros e' H. unfold holds in *. destruct He as [He|He], H as [H|H]; congruence. }
  assert (P : (if getb (e_defined_only r) && negb (is_nil (e_in r))
      then forallb (fun z => existsb (Z.eqb z) (enum_vals sc (ctype_of s))) (e_in r) else true) = true <->
      ~ (exists z, e_defined_only r = Some true /\ In z (e_in r) /\ ~ defined sc e z)).
  { destruct (e_defined_only r) as [[]|]; cbn [getb andb];
      [|split; auto; intros _ (z & H & _); discriminate|split; auto; intros _ (z & H & _); discriminate].
    destruct (e_in r) as [|x l] eqn:El; cbn [is_nil negb].
    - split; auto. intros _ (z & _ & [] & _).
    - rewrite forallb_forall. split.
      + intros H (z & _ & I & ND). apply ND. apply (enum_vals_defined s); auto.
      + intros H z I. destruct (existsb (Z.eqb z) (enum_vals sc (ctype_of s))) eqn:Q; auto.
        exfalso. apply H. exists z. repeat split; auto. intros D.
        apply (enum_vals_defined s) in D; auto. congruence. }
  rewrite P. clear P. split.
  - intros [H1 H2] (e' & He' & K). apply U in He'. subst e'. destruct K; eauto 6.
  - intros K. split.
    + intros [? ?]. apply K. exists e. split; auto. now apply ec_in_not_in.
    + intros (z & ? & ? & ?). apply K. exists e. split; auto. eapply ec_undefined; eauto.
Qed.

(** The rules of one field. *)
Section FrInd.
Variable P : field_rules -> Prop.
Hypothesis P_all : forall m t,
  (forall r it, t = Some (RRepeated r) -> r_items r = Some it -> P it) ->
  (forall r it, t = Some (RMap r) -> p_keys r = Some it -> P it) ->
  (forall r it, t = Some (RMap r) -> p_values r = Some it -> P it) -> P (FR m t).
Fixpoint fr_ind' (fr : field_rules) : P fr.
Proof.
  destruct fr as [m t]. apply P_all.
  - intros r it E I. destruct t as [t|]; [|discriminate]. destruct t; try discriminate.
    injection E as E. destruct r0 as [mn mx u [it'|] ie]; [|subst; discriminate].
    subst r. injection I as <-. apply fr_ind'.
  - intros r it E I. destruct t as [t|]; [|discriminate]. destruct t; try discriminate.
    injection E as E. destruct r0 as [mn mx u [it'|] vs ie]; [|subst; discriminate].
    subst r. injection I as <-. apply fr_ind'.
  - intros r it E I. destruct t as [t|]; [|discriminate]. destruct t; try discriminate.
    injection E as E. destruct r0 as [mn mx u ks [it'|] ie]; [|subst; discriminate].
    subst r. injection I as <-. apply fr_ind'.
Defined.
End FrInd.

Definition fr_fine (s : site) (fr : field_rules) : Prop :=
  forall s' r, stands s fr s' r -> fits s' r /\ ~ conflict re_ok sc s' r.

Lemma fine_leaf s m r : (forall rr, r <> RRepeated rr) -> (forall rr, r <> RMap rr) ->
  fr_fine s (FR m (Some r)) <-> fits s r /\ ~ conflict re_ok sc s r.
Proof.
  intros H1 H2. unfold fr_fine. split.
  - intros H. apply H. constructor.
  - intros H s' r' St. inversion St; subst; auto; exfalso; eauto; [eapply H1|eapply H2|eapply H2]; reflexivity.
Qed.

Lemma guard_some {A} b (k : A) : guard b (Some k) <> None <-> b = true.
Proof. destruct b; cbn; split; congruence. Qed.

Lemma check_fr_ok fr : forall s,
  (forall s' r, stands s fr s' r -> ordinary r) ->
  check_fr re_ok sc (ctype_of s) fr <> None <-> fr_fine s fr.
Proof.
  induction fr as [m t IHi IHk IHv] using fr_ind'. intros s O.
  destruct t as [r|].
  2:{ split; [intros _ s' r St; inversion St|discriminate]. }
  assert (Or : ordinary r) by (apply (O s); constructor).
  destruct r as [k r|b|r|r|r|r|r|r|r|r].
  - rewrite fine_leaf by discriminate. cbn [check_fr fits conflict].
    rewrite guard_some, andb_true_iff, must_type_scalar, check_num_ok by exact I. reflexivity.
  - rewrite fine_leaf by discriminate. cbn [check_fr fits conflict].
    rewrite guard_some, must_type_scalar by exact I. tauto.
  - rewrite fine_leaf by discriminate. cbn [check_fr fits conflict].
    destruct Or as [O1 O2]. rewrite <- check_string_ok by auto.
    rewrite <- must_type_scalar by exact I.
    destruct (must_type_c (ctype_of s) TString); cbn [guard].
    + destruct (check_string re_ok r); split; try congruence; try tauto. split; [auto|discriminate].
    + split; [congruence|]. intros [? _]. discriminate.
  - rewrite fine_leaf by discriminate. cbn [check_fr fits conflict].
    rewrite guard_some, andb_true_iff, must_type_scalar, check_bytes_ok by first [exact I|exact Or]. reflexivity.
  - rewrite fine_leaf by discriminate. cbn [check_fr fits conflict].
    rewrite guard_some, andb_true_iff, must_type_enum. split.
    + intros [H1 H2]. split; auto. now apply check_enum_ok.
    + intros [H1 H2]. split; auto. now apply check_enum_ok.
  - (* repeated *)
    cbn [check_fr].
    destruct s as [[e|e|k v]|e]; cbn [ctype_of];
      try (split; [congruence|]; intros F; destruct (F _ _ (stands_here _ _ _)) as [(e' & Q & _) _]; discriminate).
    assert (U : check_min_max (r_min r) (r_max r) && (negb (getb (r_unique r)) || negb (is_embed e)) = true <->
       fits (On_field (FRep e)) (RRepeated r) /\ ~ conflict re_ok sc (On_field (FRep e)) (RRepeated r)).
    { cbn [fits conflict]. rewrite andb_true_iff, check_min_max_ok, orb_true_iff, !negb_true_iff.
      rewrite <- not_true_iff_false with (b := is_embed e), embed_message. split.
      - intros [H1 H2]. split; auto. exists e. split; auto. intros E. rewrite E in H2. destruct H2; [discriminate|auto].
      - intros [(e' & Q & H) H1]. injection Q as <-. split; auto.
        destruct (r_unique r) as [[]|]; cbn; auto. }
    destruct (check_min_max (r_min r) (r_max r) && (negb (getb (r_unique r)) || negb (is_embed e))) eqn:B; cbn [guard].
    2:{ split; [congruence|]. intros F. destruct (F _ _ (stands_here _ _ _)) as [F1 F2].
        assert (false = true) by (apply U; auto). discriminate. }
    assert (U' := proj1 U eq_refl). clear U.
    destruct r as [mn mx u [it|] ie].
    + specialize (IHi _ it eq_refl eq_refl (On_elem e)). cbn [ctype_of] in IHi.
      assert (Oi : forall s' r, stands (On_elem e) it s' r -> ordinary r).
      { intros s' r St. apply (O s'). eapply stands_items; eauto. reflexivity. }
      specialize (IHi Oi).
      destruct (check_fr re_ok sc (CElem e) it).
      * split; [intros _|discriminate]. intros s' r' St. inversion St; subst.
        -- exact U'.
        -- match goal with H : r_items _ = Some _ |- _ => injection H as <- end.
           apply (proj1 IHi); [discriminate|auto].
      * split; [congruence|]. intros F. apply IHi. intros s' r' St. apply F. eapply stands_items; eauto. reflexivity.
    + split; [intros _|discriminate]. intros s' r' St. inversion St; subst; [exact U'|discriminate].
  - (* map *)
    cbn [check_fr].
    destruct s as [[e|e|k v]|e]; cbn [ctype_of];
      try (split; [congruence|]; intros F; destruct (F _ _ (stands_here _ _ _)) as [(k' & v' & Q & _) _]; discriminate).
    assert (U : check_min_max (p_min r) (p_max r) && (negb (getb (p_no_sparse r)) || is_embed v) = true <->
       fits (On_field (FMap k v)) (RMap r) /\ ~ conflict re_ok sc (On_field (FMap k v)) (RMap r)).
    { cbn [fits conflict]. rewrite andb_true_iff, check_min_max_ok, orb_true_iff, negb_true_iff, embed_message. split.
      - intros [H1 H2]. split; auto. exists k, v. split; auto. intros E. rewrite E in H2. destruct H2; [discriminate|auto].
      - intros [(k' & v' & Q & H) H1]. injection Q as <- <-. split; auto.
        destruct (p_no_sparse r) as [[]|]; cbn; auto. }
    destruct (check_min_max (p_min r) (p_max r) && (negb (getb (p_no_sparse r)) || is_embed v)) eqn:B; cbn [guard].
    2:{ split; [congruence|]. intros F. destruct (F _ _ (stands_here _ _ _)) as [F1 F2].
        assert (false = true) by (apply U; auto). discriminate. }
    assert (U' := proj1 U eq_refl). clear U.
    destruct r as [mn mx u ks vs ie].
    assert (K1 : match (match ks with None => Some None
                          | Some ks => option_map Some (check_fr re_ok sc (CElem k) ks) end) with Some _ => True | None => False end <->
                 (forall it, ks = Some it -> fr_fine (On_elem k) it)).
    { destruct ks as [it|]; [|split; [discriminate|auto]].
      specialize (IHk _ it eq_refl eq_refl (On_elem k)). cbn [ctype_of] in IHk.
      assert (Oi : forall s' r, stands (On_elem k) it s' r -> ordinary r).
      { intros s' r St. apply (O s'). eapply stands_keys; eauto. reflexivity. }
      specialize (IHk Oi).
      destruct (check_fr re_ok sc (CElem k) it); cbn [option_map].
      - split; auto. intros _ it' E. injection E as <-. apply IHk. discriminate.
      - split; [tauto|]. intros H. apply IHk; auto. }
    assert (K2 : match (match vs with None => Some None
                          | Some vs => option_map Some (check_fr re_ok sc (CElem v) vs) end) with Some _ => True | None => False end <->
                 (forall it, vs = Some it -> fr_fine (On_elem v) it)).
    { destruct vs as [it|]; [|split; [discriminate|auto]].
      specialize (IHv _ it eq_refl eq_refl (On_elem v)). cbn [ctype_of] in IHv.
      assert (Oi : forall s' r, stands (On_elem v) it s' r -> ordinary r).
      { intros s' r St. apply (O s'). eapply stands_values; eauto. reflexivity. }
      specialize (IHv Oi).
      destruct (check_fr re_ok sc (CElem v) it); cbn [option_map].
      - split; auto. intros _ it' E. injection E as <-. apply IHv. discriminate.
      - split; [tauto|]. intros H. apply IHv; auto. }
    assert (FF : fr_fine (On_field (FMap k v)) (FR m (Some (RMap (mkMapRules mn mx u ks vs ie)))) <->
       (forall it, ks = Some it -> fr_fine (On_elem k) it) /\ (forall it, vs = Some it -> fr_fine (On_elem v) it)).
    { split.
      - intros F. split; intros it -> s' r' St; apply F; [eapply stands_keys|eapply stands_values]; eauto; reflexivity.
      - intros [F1 F2] s' r' St. inversion St; subst; [exact U'| |].
        + eapply F1; eauto.
        + eapply F2; eauto. }
    rewrite FF, <- K1, <- K2.
    repeat match goal with |- context [match ?x with Some _ => True | None => False end] =>
      match x with match _ with _ => _ end => destruct x end end;
      split; try congruence; try tauto; intros _; split; auto.
  - rewrite fine_leaf by discriminate. cbn [check_fr fits conflict]. unfold check_any.
    rewrite guard_some, check_ins_ok. tauto.
  - rewrite fine_leaf by discriminate. cbn [check_fr fits conflict].
    cbn [ordinary] in Or. rewrite guard_some, check_duration_ok by tauto. tauto.
  - rewrite fine_leaf by discriminate. cbn [check_fr fits conflict].
    cbn [ordinary] in Or. rewrite guard_some, check_timestamp_ok by tauto. tauto.
Qed.

Lemma guard_eq {A} b (k : option A) : guard b k <> None -> b = true /\ k <> None.
Proof. destruct b; cbn; [auto|congruence]. Qed.

Lemma check_fr_sound fr : forall s, check_fr re_ok sc (ctype_of s) fr <> None -> fr_fine s fr.
Proof.
  induction fr as [m t IHi IHk IHv] using fr_ind'. intros s.
  destruct t as [r|]; [|intros _ s' r St; inversion St].
  destruct r as [k r|b|r|r|r|r|r|r|r|r].
  - rewrite fine_leaf by discriminate. cbn [check_fr fits conflict].
    rewrite guard_some, andb_true_iff, must_type_scalar, check_num_ok by exact I. auto.
  - rewrite fine_leaf by discriminate. cbn [check_fr fits conflict].
    rewrite guard_some, must_type_scalar by exact I. tauto.
  - rewrite fine_leaf by discriminate. cbn [check_fr fits conflict]. intros H.
    apply guard_eq in H. destruct H as [H1 H2]. rewrite must_type_scalar in H1 by exact I. split; auto.
    apply check_string_sound. destruct (check_string re_ok r); congruence.
  - rewrite fine_leaf by discriminate. cbn [check_fr fits conflict].
    rewrite guard_some, andb_true_iff, must_type_scalar by exact I. intros [H1 H2]. split; auto. now apply check_bytes_sound.
  - rewrite fine_leaf by discriminate. cbn [check_fr fits conflict].
    rewrite guard_some, andb_true_iff, must_type_enum.
    intros [H1 H2]. split; auto. now apply check_enum_ok.
  - assert (O : forall s' r', stands s (FR m (Some (RRepeated r))) s' r' -> r' = RRepeated r /\ s' = s \/
        exists e it, s = On_field (FRep e) /\ r_items r = Some it /\ stands (On_elem e) it s' r').
    { intros s' r' St. inversion St; subst; eauto 8. }
    intros H s' r' St.
    assert (HH : exists e, s = On_field (FRep e) /\ check_min_max (r_min r) (r_max r) = true /\
        (negb (getb (r_unique r)) || negb (is_embed e) = true) /\
        (forall it, r_items r = Some it -> check_fr re_ok sc (CElem e) it <> None)).
    { cbn [check_fr] in H. destruct s as [[e|e|k v]|e]; cbn [ctype_of] in H; try congruence.
      apply guard_eq in H. destruct H as [H1 H2]. rewrite andb_true_iff in H1. exists e. repeat split; try tauto.
      intros it E. destruct r as [mn mx u [it'|] ie]; cbn [r_items] in E; [|discriminate]. injection E as <-.
      destruct (check_fr re_ok sc (CElem e) it'); congruence. }
    destruct HH as (e & -> & M & U & HI).
    destruct (O _ _ St) as [[-> ->]|(e' & it & E & Ei & St')].
    + cbn [fits conflict]. split; [|now apply check_min_max_ok]. exists e. split; auto. intros Eu Em.
      rewrite Eu in U. apply embed_message in Em. rewrite Em in U. discriminate.
    + injection E as <-. apply (IHi r it eq_refl Ei (On_elem e)); auto.
  - assert (O : forall s' r', stands s (FR m (Some (RMap r))) s' r' -> r' = RMap r /\ s' = s \/
        (exists k v it, s = On_field (FMap k v) /\ p_keys r = Some it /\ stands (On_elem k) it s' r') \/
        (exists k v it, s = On_field (FMap k v) /\ p_values r = Some it /\ stands (On_elem v) it s' r')).
    { intros s' r' St. inversion St; subst; eauto 11. }
    intros H s' r' St.
    assert (HH : exists k v, s = On_field (FMap k v) /\ check_min_max (p_min r) (p_max r) = true /\
        (negb (getb (p_no_sparse r)) || is_embed v = true) /\
        (forall it, p_keys r = Some it -> check_fr re_ok sc (CElem k) it <> None) /\
        (forall it, p_values r = Some it -> check_fr re_ok sc (CElem v) it <> None)).
    { cbn [check_fr] in H. destruct s as [[e|e|k v]|e]; cbn [ctype_of] in H; try congruence.
      apply guard_eq in H. destruct H as [H1 H2]. rewrite andb_true_iff in H1. exists k, v. repeat split; try tauto.
      - intros it E. destruct r as [mn mx u [it'|] vs ie]; cbn [p_keys] in E; [|discriminate]. injection E as <-.
        destruct (check_fr re_ok sc (CElem k) it'); [discriminate|]. cbn in H2. congruence.
      - intros it E. destruct r as [mn mx u ks [it'|] ie]; cbn [p_values] in E; [|discriminate]. injection E as <-.
        destruct (check_fr re_ok sc (CElem v) it'); [discriminate|]. cbn in H2.
        destruct ks; [destruct (option_map _ _)|]; congruence. }
    destruct HH as (k & v & -> & M & U & HK & HV).
    destruct (O _ _ St) as [[-> ->]|[(k' & v' & it & E & Ei & St')|(k' & v' & it & E & Ei & St')]].
    + cbn [fits conflict]. split; [|now apply check_min_max_ok]. exists k, v. split; auto. intros Eu.
      rewrite Eu in U. now apply embed_message.
    + injection E as <- <-. apply (IHk r it eq_refl Ei (On_elem k)); auto.
    + injection E as <- <-. apply (IHv r it eq_refl Ei (On_elem v)); auto.
  - rewrite fine_leaf by discriminate. cbn [check_fr fits conflict]. unfold check_any.
    rewrite guard_some, check_ins_ok. tauto.
  - rewrite fine_leaf by discriminate. cbn [check_fr fits conflict].
    rewrite guard_some. intros H. split; auto. now apply check_duration_sound.
  - rewrite fine_leaf by discriminate. cbn [check_fr fits conflict].
    rewrite guard_some. intros H. split; auto. now apply check_timestamp_sound.
Qed.

Lemma check_message_ok t fr : check_message t fr = true <-> message_fits t fr.
Proof.
  unfold check_message, message_fits. destruct fr as [[mr|] ty]; cbn [fr_msg fr_typ];
    [|split; auto; intros _ mr; discriminate].
  assert (Q : forall b, negb (is_some ty && getb (m_skip mr)) = b -> b = true <-> ~ (ty <> None /\ m_skip mr = Some true)).
  { intros b <-. rewrite negb_true_iff, andb_false_iff. split.
    - intros H [H1 H2]. rewrite H2 in H. destruct ty; [|congruence]. cbn in H. destruct H; discriminate.
    - intros H. destruct ty; cbn; auto. destruct (m_skip mr) as [[]|]; cbn; auto. exfalso. apply H. split; [discriminate|auto]. }
  destruct t as [[k| | | |n|n|w| | |]|e|k v];
    try (split; [discriminate|]; intros H; destruct (H mr eq_refl) as [[[? E]|[? E]] _]; discriminate).
  - rewrite (Q _ eq_refl). split; [intros H mr' E; injection E as <-; eauto|]. intros H. apply (H mr eq_refl).
  - rewrite (Q _ eq_refl). split; [intros H mr' E; injection E as <-; eauto|]. intros H. apply (H mr eq_refl).
Qed.

Lemma check_field_ok f :
  (forall s' r, stands (On_field (f_type f)) (f_rules f) s' r -> ordinary r) ->
  check_field re_ok sc f <> None <->
  message_fits (f_type f) (f_rules f) /\ fr_fine (On_field (f_type f)) (f_rules f).
Proof.
  intros O. unfold check_field, guard. rewrite <- check_message_ok, <- (check_fr_ok _ _ O). cbn [ctype_of].
  destruct (check_message (f_type f) (f_rules f)); [|split; [congruence|intros [? _]; discriminate]].
  destruct (check_fr re_ok sc (CField (f_type f)) (f_rules f)); split; try congruence; try tauto.
  intros _. split; [auto|discriminate].
Qed.

Lemma map_opt_ok {A B} (f : A -> option B) l : map_opt f l <> None <-> forall x, In x l -> f x <> None.
Proof.
  induction l as [|x l IH]; cbn.
  - split; [intros _ x []|discriminate].
  - destruct (f x) eqn:E, (map_opt f l).
    + split; [|discriminate]. intros _ y [<-|I]; [congruence|]. apply IH; [discriminate|auto].
    + split; [congruence|]. intros H. apply IH. auto.
    + split; [congruence|]. intros H. exfalso. apply (H x); auto.
    + split; [congruence|]. intros H. exfalso. apply (H x); auto.
Qed.

Lemma check_oneof_ok o : check_oneof re_ok sc o <> None <-> forall f, In f (o_fields o) -> check_field re_ok sc f <> None.
Proof. unfold check_oneof. rewrite <- map_opt_ok. destruct (map_opt _ _); split; congruence. Qed.

Lemma check_msg_ok m : check_msg re_ok sc m <> None <->
  (md_disabled m = false -> forall f, In f (all_fields m) -> check_field re_ok sc f <> None).
Proof.
  unfold check_msg, all_fields. destruct (md_disabled m); [split; [discriminate|congruence]|].
  assert (H : (map_opt (check_field re_ok sc) (md_fields m) <> None /\
               map_opt (check_oneof re_ok sc) (md_oneofs m) <> None) <->
              (forall f, In f (md_fields m ++ flat_map o_fields (md_oneofs m)) -> check_field re_ok sc f <> None)).
  { rewrite !map_opt_ok. split.
    - intros [H1 H2] f I. apply in_app_or in I. destruct I as [I|I]; auto.
      apply in_flat_map in I. destruct I as (o & Io & If). exact (proj1 (check_oneof_ok o) (H2 o Io) f If).
    - intros H. split; [intros f I; apply H; apply in_or_app; auto|].
      intros o Io. apply check_oneof_ok. intros f If. apply H. apply in_or_app. right.
      apply in_flat_map. eauto. }
  split.
  - intros K _. apply H. destruct (map_opt _ (md_fields m)), (map_opt _ (md_oneofs m)); split; congruence.
  - intros K. specialize (proj2 H (K eq_refl)). intros [H1 H2].
    destruct (map_opt _ (md_fields m)), (map_opt _ (md_oneofs m)); congruence.
Qed.

Lemma check_schema_ok : (forall s r, rule_in sc s r -> ordinary r) ->
  check_schema re_ok sc <> None <-> consistent re_ok sc.
Proof.
  intros O. unfold check_schema.
  assert (H : map_opt (check_msg re_ok sc) (sc_msgs sc) <> None <-> consistent re_ok sc).
  { rewrite map_opt_ok. unfold consistent. split.
    - intros H.
      assert (G : forall m f, In m (sc_msgs sc) -> md_disabled m = false -> In f (all_fields m) ->
         message_fits (f_type f) (f_rules f) /\ fr_fine (On_field (f_type f)) (f_rules f)).
      { intros m f Im D If. apply check_field_ok.
        - intros s r St. apply (O s). exists m, f. auto.
        - exact (proj1 (check_msg_ok m) (H m Im) D f If). }
      split.
      + intros s r (m & f & Im & D & If & St). destruct (G m f Im D If) as [_ F]. now apply F.
      + intros m f Im D If. apply (G m f Im D If).
    - intros [H1 H2] m Im. apply check_msg_ok. intros D f If. apply check_field_ok.
      + intros s r St. apply (O s). exists m, f. auto.
      + split; eauto. intros s r St. apply H1. exists m, f. auto. }
  rewrite <- H. destruct (map_opt _ _); split; congruence.
Qed.

Lemma check_schema_sound : check_schema re_ok sc <> None -> consistent re_ok sc.
Proof.
  unfold check_schema. intros H.
  assert (H' : map_opt (check_msg re_ok sc) (sc_msgs sc) <> None) by (destruct (map_opt _ _); congruence).
  rewrite map_opt_ok in H'.
  assert (G : forall m f, In m (sc_msgs sc) -> md_disabled m = false -> In f (all_fields m) ->
         message_fits (f_type f) (f_rules f) /\ fr_fine (On_field (f_type f)) (f_rules f)).
  { intros m f Im D If. pose proof (proj1 (check_msg_ok m) (H' m Im) D f If) as K.
    unfold check_field in K. apply guard_eq in K. destruct K as [K1 K2]. split; [now apply check_message_ok|].
    apply check_fr_sound. cbn [ctype_of]. destruct (check_fr _ _ _ _); congruence. }
  split.
  - intros s r (m & f & Im & D & If & St). destruct (G m f Im D If) as [_ F]. now apply F.
  - intros m f Im D If. apply (G m f Im D If).
Qed.

End WithRegex.
