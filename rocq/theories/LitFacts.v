(** Proofs about literals and output paths. *)
From Coq Require Import Lia ZifyBool ZifyN ZifyNat.
From Coq Require Import DecimalN.
From Verif Require Import Base Utf8 Spec BaseFacts Utf8Facts Lit LitSpec.
Local Open Scope N_scope.
Ltac Zify.zify_post_hook ::= Z.div_mod_to_equations.

Section Pieces.
Context {A : Type}.
Variables (good : rune -> A) (bad : N -> A).
Lemma pieces_char c t : scalar_value c -> pieces good bad (utf8_bytes c ++ t) = good c :: pieces good bad t.
Proof.
  unfold scalar_value, utf8_bytes. intros H.
  destruct (c <? 0x80) eqn:E1; [cbn [app pieces]; now rewrite E1|].
  destruct (c <? 0x800) eqn:E2.
  { cbn [app pieces].
    replace (0xC0 + c / 64 <? 0x80) with false by lia.
    unfold Utf8.in_range, cont, cp2.
    replace (_ && _) with true by lia.
    replace (_ && _) with true by lia.
    do 2 f_equal. lia. }
  destruct (c <? 0x10000) eqn:E3.
  { cbn [app pieces].
    replace (0xE0 + c / 4096 <? 0x80) with false by lia.
    unfold Utf8.in_range at 1.
    replace (_ && _) with false by lia.
    unfold Utf8.in_range at 1.
    replace (_ && (0xE0 + c / 4096 <=? 0xEF)) with true by lia.
    replace (acc3 _ _ && _) with true.
    - do 2 f_equal. unfold cp3. lia.
    - unfold acc3, cont, Utf8.in_range.
      destruct (0xE0 + c / 4096 =? 0xE0) eqn:?; destruct (0xE0 + c / 4096 =? 0xED) eqn:?; lia. }
  cbn [app pieces].
  replace (0xF0 + c / 262144 <? 0x80) with false by lia.
  unfold Utf8.in_range at 1.
  replace (_ && _) with false by lia.
  unfold Utf8.in_range at 1.
  replace (_ && _) with false by lia.
  unfold Utf8.in_range at 1.
  replace (_ && (0xF0 + c / 262144 <=? 0xF4)) with true by lia.
  replace (acc4 _ _ && _ && _) with true.
  - do 2 f_equal. unfold cp4. lia.
  - unfold acc4, cont, Utf8.in_range.
    destruct (0xF0 + c / 262144 =? 0xF0) eqn:?; destruct (0xF0 + c / 262144 =? 0xF4) eqn:?; lia.
Qed.

Ltac no_seq Hbad := apply Hbad; [|reflexivity];
    let c := fresh "c" in let u := fresh "u" in let H := fresh "H" in let E := fresh "E" in
    intros c u H E; unfold scalar_value in H; unfold utf8_bytes in E;
    destruct (c <? 0x80) eqn:?; [|destruct (c <? 0x800) eqn:?; [|destruct (c <? 0x10000) eqn:?]];
    cbn [app] in E; repeat (apply cons_inv in E; let E' := fresh "E" in destruct E as [E' E]); try discriminate E; try lia.

Lemma pieces_step b t :
  (exists c u, scalar_value c /\ b :: t = utf8_bytes c ++ u /\ pieces good bad (b :: t) = good c :: pieces good bad u) \/
  ((forall c u, scalar_value c -> b :: t <> utf8_bytes c ++ u) /\
   pieces good bad (b :: t) = bad b :: pieces good bad t).
Proof.
  assert (Hgood : forall c u, scalar_value c -> b :: t = utf8_bytes c ++ u ->
     exists c u, scalar_value c /\ b :: t = utf8_bytes c ++ u /\ pieces good bad (b :: t) = good c :: pieces good bad u).
  { intros c u H E. exists c, u. repeat split; auto. rewrite E. now apply pieces_char. }
  destruct (b <? 0x80) eqn:E0.
  { left. apply (Hgood b t); [unfold scalar_value; lia|]. unfold utf8_bytes. now rewrite E0. }
  cbn [pieces]. rewrite E0.
  assert (Hbad : forall r : list A,
    (forall c u, scalar_value c -> b :: t <> utf8_bytes c ++ u) ->
    r = bad b :: pieces good bad t ->
    (exists c u, scalar_value c /\ b :: t = utf8_bytes c ++ u /\ r = good c :: pieces good bad u) \/
    ((forall c u, scalar_value c -> b :: t <> utf8_bytes c ++ u) /\ r = bad b :: pieces good bad t)) by auto.
  assert (Hok : forall c u, scalar_value c -> b :: t = utf8_bytes c ++ u -> forall r, r = good c :: pieces good bad u ->
    (exists c u, scalar_value c /\ b :: t = utf8_bytes c ++ u /\ r = good c :: pieces good bad u) \/
    ((forall c u, scalar_value c -> b :: t <> utf8_bytes c ++ u) /\ r = bad b :: pieces good bad t)).
  { intros. left. exists c, u. auto. }
  destruct (Utf8.in_range 0xC2 0xDF b) eqn:E1; unfold Utf8.in_range in E1.
  { destruct t as [|b1 t1]; [no_seq Hbad|].
    destruct (cont b1) eqn:C1; unfold cont in C1; [|no_seq Hbad].
    apply (Hok (cp2 b b1) t1); [unfold scalar_value, cp2; lia| |reflexivity].
    unfold utf8_bytes, cp2.
    replace (_ <? 0x80) with false by lia. replace (_ <? 0x800) with true by lia.
    cbn [app]. apply cons_eq; [lia|]. apply cons_eq; [lia|reflexivity]. }
  destruct (Utf8.in_range 0xE0 0xEF b) eqn:E2; unfold Utf8.in_range in E2.
  { destruct t as [|b1 [|b2 t2]]; [no_seq Hbad|no_seq Hbad|].
    destruct (acc3 b b1 && cont b2) eqn:C1.
    - unfold acc3, cont, Utf8.in_range in C1.
      assert (scalar_value (cp3 b b1 b2) /\ 0x800 <= cp3 b b1 b2 < 0x10000 /\ 0x80 <= b1 <= 0xBF /\ 0x80 <= b2 <= 0xBF) as (S1 & S2 & S3 & S4).
      { unfold scalar_value, cp3. destruct (b =? 0xE0) eqn:?; destruct (b =? 0xED) eqn:?; lia. }
      apply (Hok (cp3 b b1 b2) t2); [exact S1| |reflexivity].
      unfold utf8_bytes.
      replace (_ <? 0x80) with false by lia. replace (_ <? 0x800) with false by lia.
      replace (_ <? 0x10000) with true by lia. unfold cp3 in *.
      cbn [app]. apply cons_eq; [lia|]. apply cons_eq; [lia|]. apply cons_eq; [lia|reflexivity].
    - no_seq Hbad. unfold acc3, cont, Utf8.in_range in C1.
      destruct (b =? 0xE0) eqn:?; destruct (b =? 0xED) eqn:?; lia. }
  destruct (Utf8.in_range 0xF0 0xF4 b) eqn:E3; unfold Utf8.in_range in E3.
  { destruct t as [|b1 [|b2 [|b3 t3]]]; [no_seq Hbad|no_seq Hbad|no_seq Hbad|].
    destruct (acc4 b b1 && cont b2 && cont b3) eqn:C1.
    - unfold acc4, cont, Utf8.in_range in C1.
      assert (scalar_value (cp4 b b1 b2 b3) /\ 0x10000 <= cp4 b b1 b2 b3 /\ 0x80 <= b1 <= 0xBF /\ 0x80 <= b2 <= 0xBF /\ 0x80 <= b3 <= 0xBF) as (S1 & S2 & S3 & S4 & S5).
      { unfold scalar_value, cp4. destruct (b =? 0xF0) eqn:?; destruct (b =? 0xF4) eqn:?; lia. }
      apply (Hok (cp4 b b1 b2 b3) t3); [exact S1| |reflexivity].
      unfold utf8_bytes.
      replace (_ <? 0x80) with false by lia. replace (_ <? 0x800) with false by lia.
      replace (_ <? 0x10000) with false by lia. unfold cp4 in *.
      cbn [app]. apply cons_eq; [lia|]. apply cons_eq; [lia|]. apply cons_eq; [lia|]. apply cons_eq; [lia|reflexivity].
    - no_seq Hbad. unfold acc4, cont, Utf8.in_range in C1.
      destruct (b =? 0xF0) eqn:?; destruct (b =? 0xF4) eqn:?; lia. }
  no_seq Hbad.
Qed.

End Pieces.

(** ** Digits *)
Lemma lower_value d : d < 16 -> digit_value (lower_digit d) = Some d.
Proof. intros H. unfold lower_digit, digit_value. destruct (d <? 10) eqn:E.
  - replace (_ && _) with true by lia. f_equal. lia.
  - replace ((48 <=? 87 + d) && _) with false by lia. replace ((65 <=? 87 + d) && _) with false by lia.
    replace (_ && _) with true by lia. f_equal. lia.
Qed.
Lemma upper_value d : d < 16 -> digit_value (upper_digit d) = Some d.
Proof. intros H. unfold upper_digit, digit_value. destruct (d <? 10) eqn:E.
  - replace (_ && _) with true by lia. f_equal. lia.
  - replace ((48 <=? 55 + d) && _) with false by lia. replace (_ && _) with true by lia. f_equal. lia.
Qed.

Lemma hex_fixed_numeral n : forall r, r < 16 ^ N.of_nat (S n) -> numeral 16 (hex_fixed (S n) r) r.
Proof.
  induction n as [|n IH]; intros r H.
  - cbn [hex_fixed app]. assert (r < 16) by (cbn in H; lia). rewrite N.mod_small by auto. apply num_one; [apply lower_value; auto|auto].
  - cbn [hex_fixed]. cbn [hex_fixed] in IH. replace r with (16 * (r / 16) + r mod 16) at 4 by lia.
    apply num_more; [|apply lower_value; lia|lia]. apply IH.
    rewrite (Nnat.Nat2N.inj_succ (S n)), N.pow_succ_r' in H. lia.
Qed.
Lemma hex_fixed_length n r : List.length (hex_fixed n r) = n.
Proof. revert r; induction n; intros; cbn; auto. rewrite app_length, IHn. cbn. lia. Qed.

Lemma hex_byte_numeral dig b : (forall d, d < 16 -> digit_value (dig d) = Some d) -> b < 256 -> numeral 16 (hex_byte dig b) b.
Proof.
  intros D B. unfold hex_byte. destruct (b <? 16) eqn:E.
  - apply num_one; [apply D; lia|lia].
  - change [dig (b / 16); dig (b mod 16)] with ([dig (b / 16)] ++ [dig (b mod 16)]).
    replace b with (16 * (b / 16) + b mod 16) at 3 by lia. apply num_more; [apply num_one|..]; try (apply D); lia.
Qed.

(** Each numeral has one value. *)
Lemma numeral_ne k l v : numeral k l v -> l <> [].
Proof. destruct 1; [discriminate|]. destruct l; discriminate. Qed.
Lemma numeral_fun k l : forall v v', numeral k l v -> numeral k l v' -> v = v'.
Proof.
  intros v v' H. revert v'. induction H; intros v' H'.
  - remember [c] as l eqn:E. destruct H'.
    + injection E as ->. congruence.
    + apply app_eq_unit in E. destruct E as [[-> _]|[_ E]]; [now apply numeral_ne in H'|discriminate].
  - remember (l ++ [c]) as q eqn:E. destruct H'.
    + symmetry in E. apply app_eq_unit in E. destruct E as [[-> _]|[_ E]]; [now apply numeral_ne in H|discriminate].
    + apply app_inj_tail in E. destruct E as [-> ->]. rewrite (IHnumeral _ H'). congruence.
Qed.
Lemma numeral_digits k l v : numeral k l v -> Forall is_hex l.
Proof. induction 1; [constructor; auto|apply Forall_app; split; auto; constructor; auto]; unfold is_hex; congruence. Qed.

(** ** Go strings *)
Section Go.
Variable is_print : rune -> bool.
Hypothesis no_bom : is_print 0xFEFF = false.

Lemma quote_rune_go r t v : scalar_value r -> go_body t v -> go_body (quote_rune is_print r ++ t) (utf8_bytes r ++ v).
Proof.
  intros S G. unfold quote_rune.
  destruct ((r =? 34) || (r =? 92)) eqn:E1.
  { assert (U : utf8_bytes r = [r]) by (unfold utf8_bytes; replace (r <? 0x80) with true by lia; auto).
    rewrite U. cbn [app]. apply go_esc; auto. unfold go_escape. assert (r = 34 \/ r = 92) as [-> | ->] by lia; cbn; tauto. }
  destruct (printable is_print r) eqn:E2.
  { rewrite utf8_enc_bytes by auto. apply go_char; auto. intros I. unfold printable in E2.
    cbn in I. destruct I as [<-|[<-|[<-|[<-|[<-|[]]]]]]; try (cbn in E1; congruence); try discriminate.
    replace (_ <? _) with false in E2 by reflexivity. congruence. }
  assert (SE : forall e b, go_escape e b -> b < 0x80 -> r = b -> go_body ([92; e] ++ t) (utf8_bytes r ++ v)).
  { intros e b X L ->. assert (U : utf8_bytes b = [b]) by (unfold utf8_bytes; replace (b <? 0x80) with true by lia; auto).
    rewrite U. cbn [app]. apply go_esc; auto. }
  destruct (N.eqb_spec r 7); [apply (SE 97 7); [cbn; tauto|lia|auto]|].
  destruct (N.eqb_spec r 8); [apply (SE 98 8); [cbn; tauto|lia|auto]|].
  destruct (N.eqb_spec r 12); [apply (SE 102 12); [cbn; tauto|lia|auto]|].
  destruct (N.eqb_spec r 10); [apply (SE 110 10); [cbn; tauto|lia|auto]|].
  destruct (N.eqb_spec r 13); [apply (SE 114 13); [cbn; tauto|lia|auto]|].
  destruct (N.eqb_spec r 9); [apply (SE 116 9); [cbn; tauto|lia|auto]|].
  destruct (N.eqb_spec r 11); [apply (SE 118 11); [cbn; tauto|lia|auto]|].
  clear SE.
  destruct (r <? 0x20) eqn:E3.
  { assert (U : utf8_bytes r = [r]) by (unfold utf8_bytes; replace (r <? 0x80) with true by lia; auto).
    rewrite U, <- app_assoc. change (bs "\x") with [92; 120]. cbn [app].
    apply go_hex; [apply hex_fixed_length|apply hex_fixed_numeral; cbn; lia|auto]. }
  destruct (r <? 0x10000) eqn:E4; rewrite <- app_assoc.
  - change (bs "\u") with [92; 117]. cbn [app]. apply go_u; [apply hex_fixed_length|apply hex_fixed_numeral; cbn; lia|auto|auto].
  - change (bs "\U") with [92; 85]. cbn [app].
    apply go_U; [apply hex_fixed_length|apply hex_fixed_numeral; cbn; unfold scalar_value in S; lia|auto|auto].
Qed.

Lemma quote_body_go s : is_bytes s = true -> go_body (quote_body is_print s) s.
Proof.
  unfold quote_body. remember (List.length s) as n eqn:E. assert (H : (List.length s <= n)%nat) by lia. clear E.
  revert s H. induction n as [|n IH]; intros [|b t] H B; try (simpl in H; lia); try constructor.
  destruct (pieces_step (quote_rune is_print) quote_bad b t) as [(c & u & S & E & R)|(S & R)]; rewrite R; cbn [List.concat].
  - rewrite E. apply quote_rune_go; auto. apply IH.
    + assert (L : List.length (b :: t) = List.length (utf8_bytes c ++ u)) by now rewrite E.
      rewrite app_length in L. assert (X := utf8_bytes_ne c). destruct (utf8_bytes c); [congruence|]. simpl in *. lia.
    + rewrite E in B. unfold is_bytes in *. rewrite forallb_app in B. apply andb_true_iff in B. tauto.
  - unfold is_bytes in B. cbn [forallb] in B. apply andb_true_iff in B. destruct B as [B1 B2]. unfold is_byte in B1.
    unfold quote_bad. rewrite <- app_assoc. change (bs "\x") with [92; 120]. cbn [app].
    apply go_hex; [apply hex_fixed_length|apply hex_fixed_numeral; cbn; lia|].
    apply IH; auto. simpl in H. lia.
Qed.

Lemma quote_go s : is_bytes s = true -> go_string (quote is_print s) s.
Proof. intros B. exists (quote_body is_print s). split; [reflexivity|]. now apply quote_body_go. Qed.
End Go.

(** A literal means one thing. *)
Lemma utf8_head c : scalar_value c -> exists h t, utf8_bytes c = h :: t /\ (h < 0x80 -> h = c /\ t = []).
Proof.
  intros S. unfold utf8_bytes. destruct (c <? 0x80) eqn:E1; [exists c, []; split; auto|].
  destruct (c <? 0x800); [|destruct (c <? 0x10000)]; eexists; eexists; (split; [reflexivity|]); lia.
Qed.
Lemma utf8_cancel c c' t t' : scalar_value c -> scalar_value c' -> utf8_bytes c ++ t = utf8_bytes c' ++ t' -> c = c' /\ t = t'.
Proof.
  intros S S' E. assert (R : c :: runes t = c' :: runes t') by (rewrite <- !runes_char by auto; now rewrite E).
  injection R as -> _. apply app_inv_head in E. auto.
Qed.
Lemma char_not c x t t' : scalar_value c -> c <> x -> x < 0x80 -> utf8_bytes c ++ t <> x :: t'.
Proof.
  intros S N L E. destruct (utf8_head c S) as (h & u & U & H). rewrite U in E. cbn [app] in E. injection E as -> E.
  destruct (H L) as [-> _]. contradiction.
Qed.
Lemma app_cancel {A} (a a' t t' : list A) : List.length a = List.length a' -> a ++ t = a' ++ t' -> a = a' /\ t = t'.
Proof.
  revert a'; induction a as [|x a IH]; intros [|x' a'] L E; try discriminate; auto.
  cbn in E. injection E as -> E. injection L as L. destruct (IH _ L E) as [-> ->]. auto.
Qed.

Lemma go_escape_fun e b b' : go_escape e b -> go_escape e b' -> b = b'.
Proof.
  unfold go_escape. cbn. intros H H'. repeat (destruct H as [H|H]; [injection H as <- <-; repeat (destruct H' as [H'|H']; [injection H' as; subst; congruence|]); contradiction|]). contradiction.
Qed.
Lemma go_escape_e e b : go_escape e b -> In e [97; 98; 102; 110; 114; 116; 118; 92; 34].
Proof. unfold go_escape. cbn. intros H. decompose [or] H; try contradiction; match goal with H : _ = _ |- _ => injection H as <- <- end; tauto. Qed.

Lemma oct_head ds b : numeral 8 ds b -> exists c l, ds = c :: l /\ 48 <= c <= 55.
Proof.
  induction 1 as [c d D L|l v c d _ (c' & l' & -> & B) _ _].
  - exists c, []. split; auto. unfold digit_value in D.
    destruct ((48 <=? c) && (c <=? 57)) eqn:E1; [injection D as <-; lia|].
    destruct ((65 <=? c) && (c <=? 70)) eqn:E2; [injection D as <-; lia|].
    destruct ((97 <=? c) && (c <=? 102)) eqn:E3; [injection D as <-; lia|discriminate].
  - exists c', (l' ++ [c]). auto.
Qed.

Lemma go_body_fun b : forall v v', go_body b v -> go_body b v' -> v = v'.
Proof.
  intros v v' H. revert v'. induction H as [|c t v S N G IH|e x t v X G IH|ds x t v L D B G IH|ds x t v L D G IH|ds c t v L D S G IH|ds c t v L D S G IH];
    intros v' G'.
  - remember [] as q eqn:Q. destruct G'; auto; try discriminate. apply app_eq_nil in Q. destruct Q as [Q _]. now apply utf8_bytes_ne in Q.
  - remember (utf8_bytes c ++ t) as q eqn:Q.
    assert (NB : c <> 92) by (intros ->; apply N; cbn; tauto).
    destruct G'; try (exfalso; symmetry in Q; revert Q; apply char_not; auto; lia).
    + symmetry in Q. apply app_eq_nil in Q. destruct Q as [Q _]. now apply utf8_bytes_ne in Q.
    + apply utf8_cancel in Q; auto. destruct Q as [-> ->]. f_equal. auto.
  - remember (92 :: e :: t) as q eqn:Q. apply go_escape_e in X as Xe. cbn in Xe. destruct G'; try discriminate.
    + exfalso. revert Q. apply char_not; auto; try lia. intros ->. apply H0. cbn; tauto.
    + injection Q as -> ->. rewrite (go_escape_fun _ _ _ X H). f_equal. auto.
    + injection Q as Q. destruct (oct_head _ _ H0) as (c & l & -> & Bc). injection Q as -> _. exfalso. decompose [or] Xe; lia.
    + injection Q as <- _. exfalso. decompose [or] Xe; lia.
    + injection Q as <- _. exfalso. decompose [or] Xe; lia.
    + injection Q as <- _. exfalso. decompose [or] Xe; lia.
  - remember (92 :: ds ++ t) as q eqn:Q. destruct (oct_head _ _ D) as (c0 & l0 & E0 & B0). destruct G'; try discriminate.
    + exfalso. revert Q. apply char_not; auto; try lia. intros ->. apply H0. cbn; tauto.
    + exfalso. rewrite E0 in Q. injection Q as -> _. apply go_escape_e in H. cbn in H. decompose [or] H; lia.
    + injection Q as Q. apply app_cancel in Q; [|congruence]. destruct Q as [-> ->]. rewrite (numeral_fun _ _ _ _ D H0). f_equal. auto.
    + exfalso. rewrite E0 in Q. injection Q as <- _. lia.
    + exfalso. rewrite E0 in Q. injection Q as <- _. lia.
    + exfalso. rewrite E0 in Q. injection Q as <- _. lia.
  - remember (92 :: 120 :: ds ++ t) as q eqn:Q. destruct G'; try discriminate.
    + exfalso. revert Q. apply char_not; auto; try lia. intros ->. apply H0. cbn; tauto.
    + exfalso. injection Q as -> _. apply go_escape_e in H. cbn in H. decompose [or] H; lia.
    + exfalso. destruct (oct_head _ _ H0) as (c0 & l0 & -> & B0). injection Q as -> _. lia.
    + injection Q as Q. apply app_cancel in Q; [|congruence]. destruct Q as [-> ->]. rewrite (numeral_fun _ _ _ _ D H0). f_equal. auto.
  - remember (92 :: 117 :: ds ++ t) as q eqn:Q. destruct G'; try discriminate.
    + exfalso. revert Q. apply char_not; auto; try lia. intros ->. apply H0. cbn; tauto.
    + exfalso. injection Q as -> _. apply go_escape_e in H. cbn in H. decompose [or] H; lia.
    + exfalso. destruct (oct_head _ _ H0) as (c0 & l0 & -> & B0). injection Q as -> _. lia.
    + injection Q as Q. apply app_cancel in Q; [|congruence]. destruct Q as [-> ->]. rewrite (numeral_fun _ _ _ _ D H0). f_equal. auto.
  - remember (92 :: 85 :: ds ++ t) as q eqn:Q. destruct G'; try discriminate.
    + exfalso. revert Q. apply char_not; auto; try lia. intros ->. apply H0. cbn; tauto.
    + exfalso. injection Q as -> _. apply go_escape_e in H. cbn in H. decompose [or] H; lia.
    + exfalso. destruct (oct_head _ _ H0) as (c0 & l0 & -> & B0). injection Q as -> _. lia.
    + injection Q as Q. apply app_cancel in Q; [|congruence]. destruct Q as [-> ->]. rewrite (numeral_fun _ _ _ _ D H0). f_equal. auto.
Qed.

Lemma go_string_fun src v v' : go_string src v -> go_string src v' -> v = v'.
Proof.
  intros (b & -> & G) (b' & E & G'). cbn in E. injection E as E. apply app_inj_tail in E. destruct E as [-> _].
  eapply go_body_fun; eauto.
Qed.

(** ** Go bytes *)
Lemma bytes_cons b x : is_bytes (b :: x) = true -> b < 256 /\ is_bytes x = true.
Proof. unfold is_bytes. cbn [forallb]. unfold is_byte. intros H. apply andb_true_iff in H. split; [lia|tauto]. Qed.

Lemma join_commas els : els <> [] -> commas els (join_with (bs ", ") els).
Proof.
  induction els as [|x [|y t] IH]; intros H; [congruence|constructor|].
  change (join_with (bs ", ") (x :: y :: t)) with (x ++ [44; 32] ++ join_with (bs ", ") (y :: t)).
  constructor. apply IH. discriminate.
Qed.
Lemma go_bytes_go x : is_bytes x = true -> go_uint8s (go_bytes_lit x) x.
Proof.
  intros B. destruct x as [|b x]; [left; auto|]. right.
  exists (map (fun b => bs "0x" ++ hex_byte upper_digit b) (b :: x)). eexists. repeat split.
  - revert B. generalize (b :: x). clear. induction l as [|b x IH]; cbn [map]; intros B; constructor.
    + apply bytes_cons in B. destruct B as [B _]. split; auto. change (bs "0x") with [48; 120]. cbn [app].
      apply gn_hex; auto. apply hex_byte_numeral; auto. apply upper_value.
    + apply IH. now apply bytes_cons in B.
  - apply join_commas. discriminate.
Qed.

Lemma byte_str_go x : is_bytes x = true -> Forall (fun b => 16 <= b) x -> go_string (byte_str x) x.
Proof.
  intros B F. eexists. split; [reflexivity|]. induction F as [|b x Hb F IH]; cbn [map List.concat]; [constructor|].
  apply bytes_cons in B. destruct B as [Lb B]. rewrite <- app_assoc. change (bs "\x") with [92; 120]. cbn [app].
  apply go_hex; [|apply hex_byte_numeral; auto; apply upper_value|auto].
  unfold hex_byte. replace (b <? 16) with false by lia. reflexivity.
Qed.

Lemma go_x_inv t v : go_body (92 :: 120 :: t) v ->
  exists ds u b w, t = ds ++ u /\ List.length ds = 2%nat /\ numeral 16 ds b /\ go_body u w /\ v = b :: w.
Proof.
  intros G. remember (92 :: 120 :: t) as q eqn:Q. destruct G; try discriminate.
  - exfalso. revert Q. apply char_not; auto; try lia. intros ->. apply H0. cbn; tauto.
  - exfalso. injection Q as -> _. apply go_escape_e in H. cbn in H. decompose [or] H; lia.
  - exfalso. destruct (oct_head _ _ H0) as (c0 & l0 & -> & B0). injection Q as -> _. lia.
  - injection Q as <-. exists ds, t0, b, v. auto.
Qed.

Lemma upper_digit_lt d : upper_digit d <> 92 \/ 16 <= d.
Proof. unfold upper_digit. destruct (d <? 10) eqn:E; lia. Qed.

Lemma byte_str_only x v : go_string (byte_str x) v -> Forall (fun b => 16 <= b) x.
Proof.
  intros (b & E & G). unfold byte_str in E. apply app_inv_head in E. apply app_inv_tail in E. subst b.
  revert v G. induction x as [|b x IH]; intros v G; constructor; cbn [map List.concat] in G;
    rewrite <- app_assoc in G; change (bs "\x") with [92; 120] in G; cbn [app] in G;
    apply go_x_inv in G; destruct G as (ds & u & n & w & E & L & D & G & ->); unfold hex_byte in E;
    destruct (b <? 16) eqn:S; try lia.
  - exfalso. destruct ds as [|d1 [|d2 [|]]]; try discriminate. cbn [app] in E. injection E as <- E.
    destruct x as [|c x]; [discriminate|]. cbn [map List.concat] in E. change (bs "\x") with [92; 120] in E.
    cbn [app] in E. injection E as <- _. apply numeral_digits in D. inversion D as [|? ? _ D2]; subst.
    inversion D2 as [|? ? D3 _]; subst. apply D3. reflexivity.
  - exfalso. destruct ds as [|d1 [|d2 [|]]]; try discriminate. cbn [app] in E. injection E as <- E.
    destruct x as [|c x]; [discriminate|]. cbn [map List.concat] in E. change (bs "\x") with [92; 120] in E.
    cbn [app] in E. injection E as <- _. apply numeral_digits in D. inversion D as [|? ? _ D2]; subst.
    inversion D2 as [|? ? D3 _]; subst. apply D3. reflexivity.
  - destruct ds as [|d1 [|d2 [|]]]; try discriminate. cbn [app] in E. injection E as _ _ <-. eauto.
Qed.

(** ** Go numbers *)
Lemma dec_acc d : forall l p, numeral 10 l (Npos p) -> numeral 10 (l ++ dec_digits d) (Npos (Pos.of_uint_acc d p)).
Proof.
  induction d; intros l p H; cbn [dec_digits Pos.of_uint_acc]; [now rewrite app_nil_r|..];
    (match goal with |- numeral 10 (l ++ ?c :: dec_digits d) (Npos (Pos.of_uint_acc d ?q)) =>
      replace (l ++ c :: dec_digits d) with ((l ++ [c]) ++ dec_digits d) by (now rewrite <- app_assoc);
      apply IHd; replace (Npos q) with (10 * Npos p + (c - 48)) by lia; apply num_more; [auto|reflexivity|lia]
    end).
Qed.
Lemma dec_numeral d : d <> Decimal.Nil -> Decimal.unorm d = d -> numeral 10 (dec_digits d) (N.of_uint d) /\
  (dec_digits d = [48] \/ exists c l, dec_digits d = c :: l /\ 49 <= c <= 57).
Proof.
  intros N U. destruct d; try congruence; cbn [dec_digits].
  - cbn [Decimal.unorm] in U. destruct d as [|d|d|d|d|d|d|d|d|d|d].
    1: split; [apply (num_one 10 48 0); [reflexivity|lia]|auto].
    1: { exfalso. unfold Decimal.unorm in U. cbn in U.
         assert (X : forall d, (Decimal.nb_digits (Decimal.nzhead d) <= Decimal.nb_digits d)%nat)
           by (clear; induction d; cbn; lia).
         destruct (Decimal.nzhead d) eqn:E; try discriminate.
         all: assert (Y := X d); rewrite E in Y; rewrite <- ?U in *.
         all: try (injection U as U; subst; cbn in *; lia). }
    all: exfalso; unfold Decimal.unorm in U; cbn in U; discriminate.
  - split; [|right; eexists; eexists; split; [reflexivity|lia]]. cbn. apply (dec_acc d [49] 1). apply (num_one 10 49 1); [reflexivity|lia].
  - split; [|right; eexists; eexists; split; [reflexivity|lia]]. cbn. apply (dec_acc d [50] 2). apply (num_one 10 50 2); [reflexivity|lia].
  - split; [|right; eexists; eexists; split; [reflexivity|lia]]. cbn. apply (dec_acc d [51] 3). apply (num_one 10 51 3); [reflexivity|lia].
  - split; [|right; eexists; eexists; split; [reflexivity|lia]]. cbn. apply (dec_acc d [52] 4). apply (num_one 10 52 4); [reflexivity|lia].
  - split; [|right; eexists; eexists; split; [reflexivity|lia]]. cbn. apply (dec_acc d [53] 5). apply (num_one 10 53 5); [reflexivity|lia].
  - split; [|right; eexists; eexists; split; [reflexivity|lia]]. cbn. apply (dec_acc d [54] 6). apply (num_one 10 54 6); [reflexivity|lia].
  - split; [|right; eexists; eexists; split; [reflexivity|lia]]. cbn. apply (dec_acc d [55] 7). apply (num_one 10 55 7); [reflexivity|lia].
  - split; [|right; eexists; eexists; split; [reflexivity|lia]]. cbn. apply (dec_acc d [56] 8). apply (num_one 10 56 8); [reflexivity|lia].
  - split; [|right; eexists; eexists; split; [reflexivity|lia]]. cbn. apply (dec_acc d [57] 9). apply (num_one 10 57 9); [reflexivity|lia].
Qed.

Lemma dec_nat_go n : go_nat (dec_nat n) n.
Proof.
  unfold dec_nat.
  assert (U : Decimal.unorm (N.to_uint n) = N.to_uint n).
  { rewrite <- DecimalN.Unsigned.to_of. now rewrite DecimalN.Unsigned.of_to. }
  assert (NN : N.to_uint n <> Decimal.Nil).
  { intros E. assert (X := DecimalN.Unsigned.of_to n). rewrite E in X, U. discriminate. }
  destruct (dec_numeral _ NN U) as [D H]. rewrite DecimalN.Unsigned.of_to in D.
  destruct H as [H|(c & l & H & B)].
  - rewrite H in *. rewrite (numeral_fun _ _ _ _ D (num_one 10 48 0 eq_refl ltac:(lia))). constructor.
  - rewrite H in *. constructor; auto.
Qed.
Lemma dec_int_go z : go_int (dec_int z) z.
Proof.
  destruct z; cbn [dec_int].
  - apply (gi_pos _ 0), dec_nat_go.
  - apply (gi_pos _ (Npos p)), dec_nat_go.
  - apply (gi_neg _ (Npos p)), dec_nat_go.
Qed.
Lemma go_nat_head l v : go_nat l v -> forall t, l <> 45 :: t.
Proof. destruct 1; intros t E; injection E; intros; subst; lia. Qed.
Lemma go_nat_fun l v v' : go_nat l v -> go_nat l v' -> v = v'.
Proof.
  intros H H'. inversion H; subst; inversion H'; subst; auto; try lia; eapply numeral_fun; eauto.
Qed.
Lemma go_int_fun l v v' : go_int l v -> go_int l v' -> v = v'.
Proof.
  intros H H'. destruct H.
  - inversion H'; subst; [f_equal; eapply go_nat_fun; eauto|]. exfalso. match goal with X : go_nat (45 :: _) _ |- _ => apply (go_nat_head _ _ X _ eq_refl) end.
  - inversion H'; subst; [exfalso; match goal with X : go_nat (45 :: _) _ |- _ => apply (go_nat_head _ _ X _ eq_refl) end|]. do 2 f_equal. eapply go_nat_fun; eauto.
Qed.

(** ** C++ *)
Lemma cc_hexes dig x : (forall d, d < 16 -> digit_value (dig d) = Some d) -> is_bytes x = true ->
  cc_string (bs """" ++ List.concat (map (fun b => bs "\x" ++ hex_byte dig b) x) ++ bs """") x.
Proof.
  intros D B. eexists. split; [reflexivity|]. induction x as [|b x IH]; cbn [map List.concat]; [constructor|].
  apply bytes_cons in B. destruct B as [Lb B]. rewrite <- app_assoc. change (bs "\x") with [92; 120]. cbn [app].
  apply cc_hex; auto.
  - now apply hex_byte_numeral.
  - destruct x as [|c x]; cbn; auto.
Qed.
Lemma cc_bytes_cc x : is_bytes x = true -> cc_string (cc_bytes_lit x) x.
Proof. apply cc_hexes, lower_value. Qed.
Lemma byte_str_cc x : is_bytes x = true -> cc_string (byte_str x) x.
Proof. apply cc_hexes, upper_value. Qed.

Lemma pieces_chars {A} (good : rune -> A) bad cs : Forall scalar_value cs ->
  pieces good bad (List.concat (map utf8_bytes cs)) = map good cs.
Proof.
  induction 1 as [|c cs S F IH]; [reflexivity|]. cbn [map List.concat]. rewrite pieces_char by auto. now rewrite IH.
Qed.

Section CC.
Variable is_print : rune -> bool.

Lemma quote_rune_cc r t v : scalar_value r -> (r < 32 -> ~ 7 <= r <= 13 -> no_digit 16 t) -> cc_body t v ->
  cc_body (quote_rune is_print r ++ t) (utf8_bytes r ++ v).
Proof.
  intros S ND G. unfold quote_rune.
  destruct ((r =? 34) || (r =? 92)) eqn:E1.
  { assert (U : utf8_bytes r = [r]) by (unfold utf8_bytes; replace (r <? 0x80) with true by lia; auto).
    rewrite U. cbn [app]. apply cc_esc; auto. unfold cc_escape. assert (r = 34 \/ r = 92) as [-> | ->] by lia; cbn; tauto. }
  destruct (printable is_print r) eqn:E2.
  { rewrite utf8_enc_bytes by auto. apply cc_char; auto. intros I. unfold printable in E2.
    cbn in I. destruct I as [<-|[<-|[<-|[<-|[<-|[]]]]]]; try (cbn in E1; congruence); try discriminate. }
  assert (SE : forall e b, cc_escape e b -> b < 0x80 -> r = b -> cc_body ([92; e] ++ t) (utf8_bytes r ++ v)).
  { intros e b X L ->. assert (U : utf8_bytes b = [b]) by (unfold utf8_bytes; replace (b <? 0x80) with true by lia; auto).
    rewrite U. cbn [app]. apply cc_esc; auto. }
  destruct (N.eqb_spec r 7); [apply (SE 97 7); [cbn; tauto|lia|auto]|].
  destruct (N.eqb_spec r 8); [apply (SE 98 8); [cbn; tauto|lia|auto]|].
  destruct (N.eqb_spec r 12); [apply (SE 102 12); [cbn; tauto|lia|auto]|].
  destruct (N.eqb_spec r 10); [apply (SE 110 10); [cbn; tauto|lia|auto]|].
  destruct (N.eqb_spec r 13); [apply (SE 114 13); [cbn; tauto|lia|auto]|].
  destruct (N.eqb_spec r 9); [apply (SE 116 9); [cbn; tauto|lia|auto]|].
  destruct (N.eqb_spec r 11); [apply (SE 118 11); [cbn; tauto|lia|auto]|].
  clear SE.
  destruct (r <? 0x20) eqn:E3.
  { assert (U : utf8_bytes r = [r]) by (unfold utf8_bytes; replace (r <? 0x80) with true by lia; auto).
    rewrite U, <- app_assoc. change (bs "\x") with [92; 120]. cbn [app].
    apply cc_hex; [apply hex_fixed_numeral; cbn; lia|lia|apply ND; lia|auto]. }
  destruct (r <? 0x10000) eqn:E4; rewrite <- app_assoc.
  - change (bs "\u") with [92; 117]. cbn [app]. apply cc_u; [apply hex_fixed_length|apply hex_fixed_numeral; cbn; lia|auto|auto].
  - change (bs "\U") with [92; 85]. cbn [app].
    apply cc_U; [apply hex_fixed_length|apply hex_fixed_numeral; cbn; unfold scalar_value in S; lia|auto|auto].
Qed.

Lemma digit_small c d : digit_value c = Some d -> c < 128 /\ d < 16.
Proof.
  unfold digit_value. destruct ((48 <=? c) && (c <=? 57)) eqn:E1; [intros [= <-]; lia|].
  destruct ((65 <=? c) && (c <=? 70)) eqn:E2; [intros [= <-]; lia|].
  destruct ((97 <=? c) && (c <=? 102)) eqn:E3; [intros [= <-]; lia|discriminate].
Qed.

(** The first character of a quoted rune is a digit only when the rune is. *)
Lemma quote_rune_head c t : scalar_value c -> ~ is_hex c -> no_digit 16 (quote_rune is_print c ++ t).
Proof.
  intros S H. unfold quote_rune.
  destruct (_ || _); [exact I|]. destruct (printable is_print c).
  { rewrite utf8_enc_bytes by auto. destruct (utf8_head c S) as (h & u & E & X). rewrite E. cbn [app no_digit].
    destruct (digit_value h) eqn:D; auto. exfalso. apply digit_small in D as D'. destruct (X (proj1 D')) as [-> _].
    apply H. unfold is_hex. congruence. }
  repeat (destruct (_ =? _); [exact I|]). destruct (_ <? _); [exact I|]. destruct (_ <? _); exact I.
Qed.

Lemma quote_cc cs : Forall scalar_value cs ->
  (forall a c d b, cs = a ++ c :: d :: b -> c < 32 -> ~ 7 <= c <= 13 -> ~ is_hex d) ->
  cc_string (quote is_print (List.concat (map utf8_bytes cs))) (List.concat (map utf8_bytes cs)).
Proof.
  intros F H. eexists. split; [reflexivity|]. unfold quote_body. rewrite pieces_chars by auto.
  induction F as [|c cs S F IH]; cbn [map List.concat]; [constructor|].
  apply quote_rune_cc; auto.
  - intros L1 L2. destruct cs as [|d cs]; [exact I|]. cbn [map List.concat]. inversion F; subst.
    apply quote_rune_head; auto. apply (H [] c d cs); auto.
  - apply IH. intros a x d b ->. apply (H (c :: a) x d b). reflexivity.
Qed.
End CC.

(** ** Java *)
Lemma java_bytes_java x : is_bytes x = true -> java_bytes (java_bytes_lit x) x.
Proof.
  intros B. eexists. split; [reflexivity|]. induction x as [|b x IH]; cbn [map List.concat]; [constructor|].
  apply bytes_cons in B. destruct B as [Lb B].
  replace (_ ++ _) with (bs "(byte)" ++ ([48; 120] ++ hex_byte lower_digit b) ++ [44] ++
    List.concat (map (fun b => bs "(byte)0x" ++ hex_byte lower_digit b ++ bs ",") x)) by (rewrite <- !app_assoc; reflexivity).
  rewrite <- (N.mod_small b 256) at 2 by auto. apply jb_more; auto; [|lia].
  cbn [app]. apply gn_hex; auto. apply hex_byte_numeral; auto. apply lower_value.
Qed.

Lemma utf8_len c : scalar_value c -> (List.length (utf8_bytes c) <= 4)%nat /\ (c < 0x10000 -> (List.length (utf8_bytes c) <= 3)%nat)
  /\ (c < 0x800 -> (List.length (utf8_bytes c) <= 2)%nat) /\ (c < 0x80 -> List.length (utf8_bytes c) = 1%nat).
Proof.
  intros S. unfold utf8_bytes. destruct (c <? 0x80) eqn:E1; [cbn; lia|].
  destruct (c <? 0x800) eqn:E2; [cbn; lia|]. destruct (c <? 0x10000) eqn:E3; cbn; lia.
Qed.
Lemma numeral_bound k l v : numeral k l v -> v < k ^ N.of_nat (List.length l).
Proof.
  induction 1; [cbn [List.length]; change (N.of_nat 1) with 1; rewrite N.pow_1_r; lia|]. rewrite app_length. cbn [List.length]. rewrite Nat.add_1_r, Nnat.Nat2N.inj_succ, N.pow_succ_r'. nia.
Qed.

Lemma utf8_no_small c x : scalar_value c -> x < 0x80 -> In x (utf8_bytes c) -> x = c.
Proof.
  intros S L. unfold utf8_bytes. destruct (c <? 0x80) eqn:E1; [cbn; intros [->|[]]; auto|].
  destruct (c <? 0x800); [|destruct (c <? 0x10000)]; cbn [In]; intros H; decompose [or] H; try contradiction; lia.
Qed.

Lemma java_body_len b v : java_body b v -> (List.length v <= List.length b)%nat /\
  (List.length v = List.length b -> forall x, In x [10; 13; 34; 92] -> ~ In x b).
Proof.
  induction 1 as [|c t v S N G [IH1 IH2]|e x t v X G [IH1 IH2]|ds x t v L D B C G [IH1 IH2]|ds c t v L D S N G [IH1 IH2]].
  - split; auto.
  - rewrite !app_length. split; [lia|]. intros E x I J. apply in_app_or in J. destruct J as [J|J].
    + apply utf8_no_small in J; auto; [subst; contradiction|]. cbn in I. decompose [or] I; try contradiction; lia.
    + apply (IH2 ltac:(lia) x); auto.
  - cbn [List.length]. split; [lia|]. intros E. lia.
  - cbn [List.length]. rewrite !app_length. assert (X := numeral_bound _ _ _ D).
    assert (SV : scalar_value x) by (unfold scalar_value; lia).
    destruct (utf8_len x SV) as (_ & _ & U2 & U1). specialize (U2 ltac:(lia)).
    assert (Y : (List.length (utf8_bytes x) <= List.length ds)%nat).
    { destruct ds as [|d1 [|d2 ds]]; [now apply numeral_ne in D| |cbn [List.length]; lia].
      cbn in X. rewrite U1 by lia. cbn. lia. }
    split; [lia|]. intros E. lia.
  - cbn [List.length]. rewrite !app_length. destruct (utf8_len c S) as (U & _). split; [lia|]. intros E. lia.
Qed.

Lemma java_plain cs : Forall scalar_value cs -> (forall x, In x [10; 13; 34; 92] -> ~ In x cs) ->
  java_body (List.concat (map utf8_bytes cs)) (List.concat (map utf8_bytes cs)).
Proof.
  intros F. induction F as [|c cs S F IH]; intros H; cbn [map List.concat]; [constructor|].
  apply java_char; auto.
  - intros I. apply (H c I). now left.
  - apply IH. intros x I J. apply (H x I). now right.
Qed.
Lemma in_chars x cs : x < 0x80 -> In x cs -> In x (List.concat (map utf8_bytes cs)).
Proof.
  intros L. induction cs as [|c cs IH]; cbn [map List.concat]; intros I; [contradiction|]. apply in_or_app.
  destruct I as [->|I]; [left|right; auto]. unfold utf8_bytes. replace (x <? 0x80) with true by lia. now left.
Qed.

Lemma java_raw_java s : valid_utf8 s -> (java_string (java_raw s) s <-> forall x, In x [10; 13; 34; 92] -> ~ In x s).
Proof.
  intros (cs & F & ->). split.
  - intros (b & E & G). unfold java_raw in E. apply app_inv_head in E. apply app_inv_tail in E. subst b.
    apply java_body_len in G. apply G. reflexivity.
  - intros H. exists (List.concat (map utf8_bytes cs)). split; [reflexivity|]. apply java_plain; auto.
    intros x I J. apply (H x I). apply in_chars; auto. cbn in I. decompose [or] I; try contradiction; lia.
Qed.

(** ** Replacing *)
Lemma prefix_app_iff s p : has_prefix s p = true <-> exists u, s = p ++ u.
Proof. apply has_prefix_spec. Qed.
Lemma nowhere_nil p : p <> [] -> nowhere p [].
Proof. intros N a b E. symmetry in E. apply app_eq_nil in E. destruct E as [_ E]. apply app_eq_nil in E. tauto. Qed.
Lemma nowhere_cons p x s : nowhere p (x :: s) <-> (forall u, x :: s <> p ++ u) /\ nowhere p s.
Proof.
  split.
  - intros H. split; [intros u E; apply (H [] u); auto|]. intros a b ->. apply (H (x :: a) b). reflexivity.
  - intros [H N] [|y a] b E; [apply (H b); auto|]. injection E as -> E. apply (N a b E).
Qed.
Lemma replace_none p q s : p <> [] -> nowhere p s -> replace_at p q 0 s = s.
Proof.
  intros NE. induction s as [|x s IH]; intros H; [reflexivity|]. apply nowhere_cons in H. destruct H as [H N].
  cbn [replace_at]. destruct (has_prefix (x :: s) p) eqn:E; [apply prefix_app_iff in E; destruct E as (u & E); apply H in E; contradiction|].
  now rewrite IH.
Qed.
Lemma replace_all_none p q s : p <> [] -> nowhere p s -> replace_all s p q = s.
Proof. intros NE N. unfold replace_all. destruct p; [congruence|]. now apply replace_none. Qed.
Lemma replace_skip p q l s : replace_at p q (List.length l) (l ++ s) = replace_at p q 0 s.
Proof. induction l as [|x l IH]; [reflexivity|]. cbn. apply IH. Qed.

(** ** Patterns in Java *)
Section Java.
Variable is_print : rune -> bool.
(** A character that needs no hexadecimal escape and has an escape in Java. *)
Definition plain (c : rune) : Prop := printable is_print c = true /\ c <> 34 \/ In c [8; 9; 10; 12; 13].

Lemma plain_quote c : plain c -> quote_rune is_print c =
  if c =? 92 then [92; 92]
  else if printable is_print c then utf8_enc c
  else if c =? 8 then [92; 98] else if c =? 12 then [92; 102] else if c =? 10 then [92; 110] else if c =? 13 then [92; 114] else [92; 116].
Proof.
  intros [[P N]|I].
  - unfold quote_rune. rewrite P. replace (c =? 34) with false by lia. cbn [orb]. destruct (N.eqb_spec c 92); subst; auto.
  - cbn in I. destruct I as [<-|[<-|[<-|[<-|[<-|[]]]]]]; reflexivity.
Qed.

(** No backslash other than those of an escape. *)
Lemma no_occ p c body : scalar_value c -> plain c -> (exists y r, p = 92 :: y :: r /\ (y = 120 \/ y = 117)) ->
  (c = 92 -> forall u, 92 :: body <> p ++ u) -> nowhere p body -> nowhere p (quote_rune is_print c ++ body).
Proof.
  intros S P (y & r & -> & Y) H N. rewrite plain_quote by auto.
  assert (E2 : forall e, e <> 120 -> e <> 117 -> e <> 92 -> nowhere (92 :: y :: r) ([92; e] ++ body)).
  { intros e N1 N2 N3. cbn [app]. rewrite !nowhere_cons. repeat split; auto.
    - intros u [= E _]. lia.
    - intros u [= E _]. lia. }
  destruct (N.eqb_spec c 92).
  - cbn [app]. rewrite !nowhere_cons. repeat split; auto. intros u [= E _]. lia.
  - destruct (printable is_print c) eqn:PC.
    + rewrite utf8_enc_bytes by auto. assert (X : ~ In 92 (utf8_bytes c)) by (intros I; apply utf8_no_small in I; auto; lia).
      revert X. generalize (utf8_bytes c). intros l. induction l as [|x l IH]; intros X; auto.
      cbn [app]. apply nowhere_cons. split; [|apply IH; intros I; apply X; now right].
      intros u [= E _]. apply X. now left.
    + repeat (destruct (_ =? _); [apply E2; lia|]). apply E2; lia.
Qed.

Lemma concat_head cs c t : Forall scalar_value cs -> Forall plain cs ->
  c <> 92 -> c < 0x80 -> List.concat (map (quote_rune is_print) cs) = c :: t -> exists cs', cs = c :: cs' /\ List.concat (map (quote_rune is_print) cs') = t.
Proof.
  intros S P N L E. destruct cs as [|d cs]; [discriminate|]. exists cs.
  inversion S; subst. inversion P; subst. cbn [map List.concat] in E. rewrite plain_quote in E by auto.
  destruct (N.eqb_spec d 92); [exfalso; injection E as E _; lia|].
  destruct (printable is_print d).
  - rewrite utf8_enc_bytes in E by auto. destruct (utf8_head d H1) as (h & u & U & X). rewrite U in E. cbn [app] in E.
    injection E as -> E. destruct (X L) as [-> ->]. auto.
  - exfalso. repeat (destruct (_ =? _) in E; [injection E as E _; lia|]). injection E as E _; lia.
Qed.

(** [\x] and [\u00] are nowhere in the characters [cs]. *)
Lemma body_no_x cs : Forall scalar_value cs -> Forall plain cs -> nowhere [92; 120] cs ->
  nowhere [92; 120] (List.concat (map (quote_rune is_print) cs)).
Proof.
  intros S P. induction S as [|c cs Sc S IH]; intros N; [apply nowhere_nil; discriminate|].
  inversion P; subst. apply nowhere_cons in N. destruct N as [N1 N2]. cbn [map List.concat]. apply no_occ; eauto 6.
  - intros -> u E. cbn [app] in E. injection E as E. apply concat_head in E; auto; try lia. destruct E as (cs' & -> & _).
    apply (N1 cs'). reflexivity.
Qed.
Lemma body_no_u cs : Forall scalar_value cs -> Forall plain cs -> nowhere [92; 117; 48; 48] cs ->
  nowhere [92; 117; 48; 48] (List.concat (map (quote_rune is_print) cs)).
Proof.
  intros S P. induction S as [|c cs Sc S IH]; intros N; [apply nowhere_nil; discriminate|].
  inversion P; subst. apply nowhere_cons in N. destruct N as [N1 N2]. cbn [map List.concat]. apply no_occ; eauto 7.
  - intros -> u E. cbn [app] in E. injection E as E.
    apply concat_head in E; auto; try lia. destruct E as (cs1 & -> & E). inversion S; subst. inversion H2; subst.
    apply concat_head in E; auto; try lia. destruct E as (cs2 & -> & E). inversion H4; subst. inversion H6; subst.
    apply concat_head in E; auto; try lia. destruct E as (cs3 & -> & E). 
    apply (N1 cs3). reflexivity.
Qed.
Lemma body_no_q cs : Forall scalar_value cs -> Forall plain cs -> nowhere [34] (List.concat (map (quote_rune is_print) cs)).
Proof.
  intros S P. assert (X : ~ In 34 (List.concat (map (quote_rune is_print) cs))).
  { induction S as [|c cs Sc S IH]; [auto|]. inversion P; subst. cbn [map List.concat]. rewrite in_app_iff. intros [I|I]; [|now apply IH].
    rewrite plain_quote in I by auto. destruct (N.eqb_spec c 92); [cbn in I; decompose [or] I; try contradiction; lia|].
    destruct (printable is_print c) eqn:PC.
    - rewrite utf8_enc_bytes in I by auto. apply utf8_no_small in I; auto; [|lia]. subst c.
      destruct H1 as [[_ H1]|H1]; [congruence|]. cbn in H1. decompose [or] H1; try contradiction; lia.
    - repeat (destruct (_ =? _) in I; [cbn in I; decompose [or] I; try contradiction; lia|]). cbn in I. decompose [or] I; try contradiction; lia. }
  intros a b E. apply X. rewrite E. apply in_or_app. right. now left.
Qed.

Lemma quote_rune_java c t v : scalar_value c -> plain c -> java_body t v -> java_body (quote_rune is_print c ++ t) (utf8_bytes c ++ v).
Proof.
  intros S P G. rewrite plain_quote by auto.
  assert (SE : forall e b, java_escape_char e b -> b < 0x80 -> c = b -> java_body ([92; e] ++ t) (utf8_bytes c ++ v)).
  { intros e b X L ->. assert (U : utf8_bytes b = [b]) by (unfold utf8_bytes; replace (b <? 0x80) with true by lia; auto).
    rewrite U. cbn [app]. apply java_esc; auto. }
  destruct (N.eqb_spec c 92); [apply (SE 92 92); [cbn; tauto|lia|auto]|].
  destruct (printable is_print c) eqn:PC.
  - rewrite utf8_enc_bytes by auto. apply java_char; auto. intros I. destruct P as [[_ P]|P].
    + cbn in I. destruct I as [<-|[<-|[<-|[<-|[]]]]]; try discriminate; congruence.
    + cbn in P. destruct P as [<-|[<-|[<-|[<-|[<-|[]]]]]]; discriminate.
  - destruct P as [[P _]|P]; [congruence|].
    cbn in P. destruct P as [<-|[<-|[<-|[<-|[<-|[]]]]]]; cbn [N.eqb Pos.eqb]; [apply (SE 98 8)|apply (SE 116 9)|apply (SE 110 10)|apply (SE 102 12)|apply (SE 114 13)];
      try (cbn; tauto); reflexivity.
Qed.

Lemma java_escape_java cs : Forall scalar_value cs -> Forall plain cs -> nowhere [92; 120] cs -> nowhere [92; 117; 48; 48] cs ->
  java_string (java_escape is_print (List.concat (map utf8_bytes cs))) (List.concat (map utf8_bytes cs)).
Proof.
  intros S P N1 N2. unfold java_escape, quote_body. rewrite pieces_chars by auto.
  change (bs "\u00") with [92; 117; 48; 48]. change (bs "\x") with [92; 120]. change (bs """") with [34].
  rewrite (replace_all_none [92; 117; 48; 48]); [|discriminate|now apply body_no_u].
  rewrite (replace_all_none [92; 120]); [|discriminate|now apply body_no_x].
  rewrite (replace_all_none [34]); [|discriminate|now apply body_no_q].
  eexists. split; [reflexivity|]. clear N1 N2. induction S as [|c cs Sc S IH]; cbn [map List.concat]; [constructor|].
  inversion P; subst. apply quote_rune_java; auto.
Qed.
End Java.

(** ** Output paths *)
Lemma trim_left_spec s : exists k, s = repeat 47 k ++ trim_left 47 s /\ (forall t, trim_left 47 s <> 47 :: t).
Proof.
  induction s as [|b s (k & E & N)]; [exists 0%nat; split; [reflexivity|discriminate]|]. cbn [trim_left].
  destruct (N.eqb_spec b 47).
  - subst. exists (S k). split; auto. cbn. now rewrite <- E.
  - exists 0%nat. split; [reflexivity|]. intros t [= ? _]. lia.
Qed.
Lemma out_path_below module rest : nowhere module rest -> below module (module ++ rest) (out_path (module ++ rest) module).
Proof.
  intros N. unfold below, out_path. destruct module as [|c m].
  - exfalso. apply (N [] rest). reflexivity.
  - assert (E : replace_all ((c :: m) ++ rest) (c :: m) [] = rest).
    { unfold replace_all. cbn [app]. cbn [replace_at]. change (c :: m ++ rest) with ((c :: m) ++ rest).
      rewrite (proj2 (prefix_app_iff _ _)) by eauto. cbn [List.length app Nat.sub]. rewrite ?Nat.sub_0_r, replace_skip.
      apply replace_none; [discriminate|auto]. }
    rewrite E. destruct (trim_left_spec rest) as (k & E' & X). exists k. split; auto. now rewrite <- E'.
Qed.
Lemma out_path_plain module out : module = [] \/ nowhere module out -> below [] out (out_path out module).
Proof.
  intros H. unfold below, out_path. assert (E : replace_all out module [] = out).
  { destruct H as [->|H]; [reflexivity|]. destruct module; [reflexivity|]. apply replace_all_none; [discriminate|auto]. }
  rewrite E. destruct (trim_left_spec out) as (k & E' & X). exists k. auto.
Qed.
Lemma below_fun m out p p' : below m out p -> below m out p' -> p = p'.
Proof.
  intros (k & -> & N) (k' & E & N'). apply app_inv_head in E. revert k' E.
  induction k as [|k IH]; intros [|k'] E; cbn in E; auto.
  - apply N in E. contradiction.
  - symmetry in E. apply N' in E. contradiction.
  - injection E as E. eauto.
Qed.

Lemma shared_plain is_print c : shared_char is_print c -> plain is_print c.
Proof.
  unfold shared_char, plain, printable. intros [I|[[L N]|[L P]]]; auto.
  - left. replace (c <? 0x7F) with true by lia. split; [lia|auto].
  - left. replace (c <? 0x7F) with false by lia. split; [auto|lia].
Qed.

(** ** Literals that mean something else, or nothing *)
Lemma cc_x_inv t v : cc_body (92 :: 120 :: t) v ->
  exists ds u b w, t = ds ++ u /\ numeral 16 ds b /\ no_digit 16 u /\ cc_body u w /\ v = b :: w.
Proof.
  intros G. remember (92 :: 120 :: t) as q eqn:Q. destruct G; try discriminate.
  - exfalso. revert Q. apply char_not; auto; try lia. intros ->. apply H0. cbn; tauto.
  - exfalso. injection Q as -> _. unfold cc_escape in H. cbn in H. decompose [or] H; try contradiction; congruence.
  - exfalso. destruct (oct_head _ _ H0) as (c0 & l0 & -> & B0). injection Q as -> _. lia.
  - injection Q as <-. exists ds, t0, b, v. auto.
Qed.
Lemma quote_cc_wrong is_print v : cc_string (quote is_print [1; 97]) v -> v = [0x1a].
Proof.
  intros (b & E & G). change (quote is_print [1; 97]) with ([34] ++ [92; 120; 48; 49; 97] ++ [34]) in E.
  apply app_inv_head in E. apply app_inv_tail in E. subst b. apply cc_x_inv in G.
  destruct G as (ds & u & n & w & E & D & N & G & ->).
  assert (X : numeral 16 [48; 49; 97] 0x1a).
  { apply (num_more 16 [48; 49] 1 97 10); [|reflexivity|lia]. apply (num_more 16 [48] 0 49 1); [|reflexivity|lia]. apply num_one; [reflexivity|lia]. }
  destruct ds as [|d1 [|d2 [|d3 [|]]]]; cbn [app] in E.
  - now apply numeral_ne in D.
  - injection E as <- <-. cbn in N. lia.
  - injection E as <- <- <-. cbn in N. lia.
  - injection E as <- <- <- <-. rewrite (numeral_fun _ _ _ _ D X). f_equal.
    inversion G; [reflexivity|]. match goal with H : _ ++ _ = [] |- _ => apply app_eq_nil in H; destruct H as [H _]; now apply utf8_bytes_ne in H end.
  - discriminate.
Qed.

Lemma java_92_inv e t v : java_body (92 :: e :: t) v ->
  (exists b w, java_escape_char e b /\ java_body t w /\ v = b :: w) \/ 48 <= e <= 55 \/ e = 117.
Proof.
  intros G. remember (92 :: e :: t) as q eqn:Q. destruct G; try discriminate.
  - exfalso. revert Q. apply char_not; auto; try lia. intros ->. apply H0. cbn; tauto.
  - injection Q as -> ->. left. eauto 6.
  - destruct (oct_head _ _ H0) as (c0 & l0 & -> & B0). injection Q as -> _. auto.
  - injection Q as <- _. auto.
Qed.
Lemma java_34_inv t v : java_body (34 :: t) v -> False.
Proof.
  intros G. remember (34 :: t) as q eqn:Q. destruct G; try discriminate.
  revert Q. apply char_not; auto; try lia. intros ->. apply H0. cbn; tauto.
Qed.
Lemma java_92_92 t v : java_body (92 :: 92 :: t) v -> exists w, java_body t w /\ v = 92 :: w.
Proof.
  intros G. apply java_92_inv in G. destruct G as [(b & w & X & G & ->)|G]; [|lia]. exists w. split; auto. f_equal.
  unfold java_escape_char in X. cbn in X. decompose [or] X; try contradiction; congruence.
Qed.
Lemma java_quote_uncompilable is_print v : ~ java_string (java_escape is_print (bs """")) v.
Proof.
  intros (b & E & G). change (java_escape is_print (bs """")) with ([34] ++ [92; 92; 34] ++ [34]) in E.
  apply app_inv_head in E. apply app_inv_tail in E. subst b. apply java_92_92 in G. destruct G as (w & G & _). now apply java_34_inv in G.
Qed.
Lemma java_hex_uncompilable is_print v : ~ java_string (java_escape is_print (bs "\x41")) v.
Proof.
  intros (b & E & G). change (java_escape is_print (bs "\x41")) with ([34] ++ [92; 92; 92; 120; 52; 49] ++ [34]) in E.
  apply app_inv_head in E. apply app_inv_tail in E. subst b. apply java_92_92 in G. destruct G as (w & G & _).
  apply java_92_inv in G. destruct G as [(b & w' & X & _)|G]; [|lia].
  unfold java_escape_char in X. cbn in X. decompose [or] X; try contradiction; congruence.
Qed.
Lemma java_raw_tab v : java_string (java_raw (bs "a\tb")) v -> v = [97; 9; 98].
Proof.
  intros (b & E & G). unfold java_raw in E. apply app_inv_head in E. apply app_inv_tail in E. subst b.
  change (bs "a\tb") with (utf8_bytes 97 ++ [92; 116; 98]) in G.
  remember (utf8_bytes 97 ++ [92; 116; 98]) as q eqn:Q. destruct G; try discriminate.
  apply utf8_cancel in Q; [|auto|unfold scalar_value; lia]. destruct Q as [-> ->].
  apply java_92_inv in G. destruct G as [(b & w & X & G & ->)|G]; [|lia].
  assert (b = 9). { unfold java_escape_char in X. cbn in X. decompose [or] X; try contradiction; congruence. } subst b.
  change [98] with (utf8_bytes 98 ++ []) in G. remember (utf8_bytes 98 ++ []) as q eqn:Q. destruct G; try discriminate.
  apply utf8_cancel in Q; [|auto|unfold scalar_value; lia]. destruct Q as [-> ->].
  inversion G; [reflexivity|]. match goal with H : _ ++ _ = [] |- _ => apply app_eq_nil in H; destruct H as [H _]; now apply utf8_bytes_ne in H end.
Qed.

Lemma until_nul_all x : until_nul x = x <-> ~ In 0 x.
Proof.
  induction x as [|b x IH]; [split; auto|]. cbn [until_nul]. destruct (N.eqb_spec b 0).
  - split; [discriminate|]. intros H. exfalso. apply H. now left.
  - split.
    + intros [= E]. apply IH in E. intros [I|I]; auto.
    + intros H. f_equal. apply IH. intros I. apply H. now right.
Qed.

Lemma java_int_lit z : (exists v, java_int (dec_int z) v) <-> (- 2 ^ 31 <= z < 2 ^ 31)%Z.
Proof.
  unfold java_int. split.
  - intros (v & G & R). rewrite (go_int_fun _ _ _ (dec_int_go z) G). auto.
  - intros R. exists z. split; auto. apply dec_int_go.
Qed.
Lemma java_long_lit z : (exists v, java_long (dec_int z ++ [76]) v) <-> (- 2 ^ 63 <= z < 2 ^ 63)%Z.
Proof.
  unfold java_long. split.
  - intros (v & l & E & G & R). apply app_inj_tail in E. destruct E as [<- _]. rewrite (go_int_fun _ _ _ (dec_int_go z) G). auto.
  - intros R. exists z, (dec_int z). repeat split; try lia. apply dec_int_go.
Qed.
