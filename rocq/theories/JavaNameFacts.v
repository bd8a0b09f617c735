(** strcase and the sanitizer compute protoc's CamelCase. *)
From Coq Require Import Lia.
From Verif Require Import Base BaseFacts Lit LitFacts JavaName JavaNameSpec.
Local Open Scope N_scope.

(** * Characters *)
Ltac chars := unfold ident_char, letterb, upperb, lowerb, digitb, upc, loc in *;
  repeat match goal with
  | H : context [?a <=? ?b] |- _ => destruct (N.leb_spec a b)
  | |- context [?a <=? ?b] => destruct (N.leb_spec a b)
  | H : context [?a =? ?b] |- _ => destruct (N.eqb_spec a b)
  | |- context [?a =? ?b] => destruct (N.eqb_spec a b)
  end; cbn [andb orb negb] in *; try congruence; try lia.

Lemma neqb a b : a <> b -> (a =? b) = false. Proof. intros. now apply N.eqb_neq. Qed.

(** * Trimming *)
Lemma camel_app a : forall cap b, camel cap (a ++ b) = camel cap a ++ camel (match rev a with c :: _ => (c =? 95) || (c =? 32) || (c =? 45) | [] => cap end) b.
Proof.
  induction a as [|c a IH] using rev_ind; intros cap b; [reflexivity|]. rewrite <- app_assoc. rewrite !IH, rev_app_distr. cbn [rev app camel].
  rewrite <- app_assoc. f_equal. cbn [app]. now rewrite app_nil_r.
Qed.
Lemma trim_left_blank c s : exists n, s = repeat c n ++ trim_left c s.
Proof.
  induction s as [|b s IH]; [exists 0%nat; reflexivity|]. cbn [trim_left]. destruct (N.eqb_spec b c) as [->|]; [|exists 0%nat; reflexivity].
  destruct IH as [n E]. exists (S n). cbn. now rewrite <- E.
Qed.
Lemma repeat_rev {A} (x : A) n : rev (repeat x n) = repeat x n.
Proof. induction n; [reflexivity|]. cbn. rewrite IHn. clear IHn. induction n; [reflexivity|]. cbn. now rewrite IHn. Qed.
Lemma trim_blank s : head_is (N.eqb 32) s = false -> exists n, s = trim s ++ repeat 32 n.
Proof.
  intros H. unfold trim. replace (trim_left 32 s) with s by (destruct s as [|c s]; [reflexivity|]; cbn [head_is trim_left] in *; rewrite (N.eqb_sym c 32), H; reflexivity).
  destruct (trim_left_blank 32 (rev s)) as [n E]. exists n. apply (f_equal (@rev N)) in E. rewrite rev_involutive, rev_app_distr, repeat_rev in E. exact E.
Qed.
Lemma camel_blank n : forall cap, camel cap (repeat 32 n) = [].
Proof. induction n; intros cap; cbn; auto. Qed.
Lemma camel_trim cap s : head_is (N.eqb 32) s = false -> camel cap (trim s) = camel cap s.
Proof. intros H. destruct (trim_blank s H) as [n E]. rewrite E at 2. rewrite camel_app, camel_blank. now rewrite app_nil_r. Qed.
Lemma java_blank n : forall cap, java_camel cap (repeat 32 n) = [].
Proof. induction n; intros cap; cbn; auto. Qed.
Lemma java_tail n : forall s cap, java_camel cap (s ++ repeat 32 n) = java_camel cap s.
Proof. induction s as [|c s IH]; intros cap; cbn [java_camel app]; [apply java_blank|]. destruct (lowerb c), (upperb c), (digitb c); now rewrite IH. Qed.
Lemma java_trim cap s : head_is (N.eqb 32) s = false -> java_camel cap (trim s) = java_camel cap s.
Proof. intros H. destruct (trim_blank s H) as [n E]. rewrite E at 2. now rewrite java_tail. Qed.

Definition ident (s : bytes) : bool := forallb ident_char s.
Lemma ident_cons c s : ident (c :: s) = true -> ident_char c = true /\ ident s = true.
Proof. cbn. intros H. now apply andb_true_iff in H. Qed.
Lemma boundaries_head s : ident s = true -> head_is (N.eqb 32) (boundaries false s) = false.
Proof.
  destruct s as [|c s]; [reflexivity|]. intros H. apply ident_cons in H. destruct H as [H _]. cbn [boundaries].
  assert ((32 =? c) = false) by (apply neqb; intros <-; discriminate H). destruct (letterb c && head_is digitb s); cbn [head_is]; auto.
Qed.

Lemma up_lo c : upperb c = true -> lowerb c = false. Proof. intros H. chars. Qed.
Lemma up_di c : upperb c = true -> digitb c = false. Proof. intros H. chars. Qed.
Lemma lo_up c : lowerb c = true -> upperb c = false. Proof. intros H. chars. Qed.
Lemma lo_di c : lowerb c = true -> digitb c = false. Proof. intros H. chars. Qed.
Lemma di_up c : digitb c = true -> upperb c = false. Proof. intros H. chars. Qed.
Lemma di_lo c : digitb c = true -> lowerb c = false. Proof. intros H. chars. Qed.
Lemma up_95 c : upperb c = true -> (c =? 95) = false. Proof. intros H. chars. Qed.
Lemma lo_95 c : lowerb c = true -> (c =? 95) = false. Proof. intros H. chars. Qed.
Lemma di_95 c : digitb c = true -> (c =? 95) = false. Proof. intros H. chars. Qed.
Lemma lo_upc c : lowerb c = true -> lowerb (c - 32) = false. Proof. intros H. chars. Qed.
Lemma lo_upc_up c : lowerb c = true -> upperb (c - 32) = true. Proof. intros H. chars. Qed.
Lemma upc_not_digit c : digitb (upc c) = digitb c. Proof. unfold upc. destruct (lowerb c) eqn:L; [|reflexivity]. chars. Qed.
#[local] Hint Resolve up_lo up_di lo_up lo_di di_up di_lo up_95 lo_95 di_95 lo_upc lo_upc_up : chars.
Ltac cls := solve [auto with chars].

(** * ToCamel, then upperCaseAfterNumber *)

Lemma camel_step cap c t : ident_char c = true -> camel cap (c :: t) =
  (if upperb c || digitb c then [c] else if lowerb c then [if cap then upc c else c] else []) ++ camel (c =? 95) t.
Proof.
  intros I. cbn [camel]. f_equal. assert ((c =? 32) = false) as -> by (apply neqb; intros ->; discriminate I).
  assert ((c =? 45) = false) as -> by (apply neqb; intros ->; discriminate I). now rewrite !orb_false_r.
Qed.
Lemma camel_java s : ident s = true -> forall cap p,
  upper_after p (camel cap (boundaries false s)) = java_camel (cap || p) s /\
  (p = true -> upper_after p (camel cap (boundaries true s)) = java_camel true s).
Proof.
  induction s as [|c s IH]; intros I cap p; [split; reflexivity|]. apply ident_cons in I. destruct I as [Ic I].
  specialize (IH I). split.
  - cbn [boundaries]. destruct (letterb c && head_is digitb s) eqn:B.
    + apply andb_true_iff in B. destruct B as [B1 B2]. destruct s as [|d s]; [discriminate|]. cbn [head_is] in B2.
      pose proof (ident_cons _ _ I) as [Id I']. rewrite camel_step by auto.
      assert (E : upper_after false (camel (c =? 95) (32 :: boundaries true (d :: s))) = java_camel false (d :: s)).
      { cbn [boundaries]. rewrite B2. cbn [camel app]. change (upperb 32 || digitb 32) with false. change (lowerb 32) with false. cbn iota.
        cbn [app]. rewrite B2, orb_true_r. cbn [app upper_after]. rewrite B2.
        destruct (IH false true) as [_ Q]. cbn [boundaries] in Q. rewrite B2 in Q. cbn [camel] in Q. rewrite B2, orb_true_r in Q. cbn [app upper_after] in Q.
        rewrite B2 in Q. cbn [java_camel] in Q |- *. assert (lowerb d = false) as L by cls. assert (upperb d = false) as U by cls.
        rewrite L, U, B2 in *. specialize (Q eq_refl). unfold upc in Q. rewrite L in Q. now injection Q as ->. }
      destruct (upperb c) eqn:U.
      * cbn [orb app upper_after java_camel]. assert (lowerb c = false) as -> by cls. rewrite U.
        assert (digitb c = false) as -> by cls. rewrite E. f_equal. destruct p; [|reflexivity]. unfold upc. assert (lowerb c = false) as -> by cls. reflexivity.
      * assert (L : lowerb c = true) by (unfold letterb in B1; rewrite U in B1; auto). assert (D : digitb c = false) by cls.
        rewrite D, L. cbn [orb app upper_after java_camel]. rewrite L.
        assert (digitb (if cap then upc c else c) = false) as -> by (destruct cap; rewrite ?upc_not_digit; auto). rewrite E.
        f_equal. destruct cap, p; cbn; unfold upc; rewrite ?L; auto. assert (lowerb (c - 32) = false) as -> by cls. reflexivity.
    + rewrite camel_step by auto. destruct (upperb c) eqn:U.
      { assert (L : lowerb c = false) by cls. assert (D : digitb c = false) by cls. cbn [orb app upper_after java_camel]. rewrite L, U, D.
        assert ((c =? 95) = false) as -> by cls. destruct (IH false false) as [-> _]. f_equal. destruct p; auto. unfold upc. now rewrite L. }
      destruct (lowerb c) eqn:L.
      { assert (D : digitb c = false) by cls. rewrite D. cbn [orb app upper_after java_camel]. rewrite L.
        assert ((c =? 95) = false) as -> by cls.
        assert (digitb (if cap then upc c else c) = false) as -> by (destruct cap; rewrite ?upc_not_digit; auto).
        destruct (IH false false) as [-> _]. f_equal. destruct cap, p; cbn; unfold upc; rewrite ?L; auto. assert (lowerb (c - 32) = false) as -> by cls. reflexivity. }
      destruct (digitb c) eqn:D.
      { cbn [orb app upper_after java_camel]. rewrite L, U, D. assert ((c =? 95) = false) as -> by cls. destruct (IH false true) as [-> _].
        f_equal. destruct p; auto. unfold upc. now rewrite L. }
      cbn [orb app java_camel]. rewrite L, U, D. assert ((c =? 95) = true) as -> by (unfold ident_char, letterb in Ic; rewrite U, L, D in Ic; exact Ic).
      destruct (IH true p) as [-> _]. reflexivity.
  - intros ->. cbn [boundaries]. destruct (digitb c) eqn:D.
    + rewrite camel_step by auto. rewrite D, orb_true_r. assert (L : lowerb c = false) by cls. assert (U : upperb c = false) by cls.
      cbn [app upper_after java_camel]. rewrite L, U, D. destruct (IH (c =? 95) true) as [_ Q]. rewrite (Q eq_refl). f_equal. unfold upc. now rewrite L.
    + change (camel cap (32 :: c :: boundaries false s)) with (camel true (c :: boundaries false s)). rewrite camel_step by auto. cbn [java_camel]. destruct (lowerb c) eqn:L.
      * assert (U : upperb c = false) by cls. rewrite U, D. cbn [orb app upper_after]. rewrite upc_not_digit, D. assert ((c =? 95) = false) as -> by cls.
        destruct (IH false false) as [-> _]. f_equal. unfold upc. rewrite L. assert (lowerb (c - 32) = false) as -> by cls. reflexivity.
      * destruct (upperb c) eqn:U.
        { cbn [orb app upper_after]. rewrite D. assert ((c =? 95) = false) as -> by cls. destruct (IH false false) as [-> _]. f_equal. unfold upc. now rewrite L. }
        rewrite D. cbn [orb app]. destruct (IH (c =? 95) true) as [-> _]. now rewrite orb_true_r.
Qed.

Lemma to_camel_java s : ident s = true -> upper_after false (to_camel s) = java_camel true s.
Proof. intros I. unfold to_camel. rewrite camel_trim by now apply boundaries_head. now destruct (camel_java s I true false) as [-> _]. Qed.

(** * sanitizeClassName *)

Fixpoint apart (u : bool) (s : bytes) : bool :=
  match s with [] => true | c :: t => negb (u && upperb c) && apart (upperb c) t end.

Lemma odd_any w w' s : head_is lowerb s = false -> odd w s = odd w' s.
Proof. destruct s as [|a s]; [reflexivity|]. cbn [head_is odd]. intros ->. now rewrite !andb_false_r. Qed.
Lemma java_any c c' s : head_is lowerb s = false -> java_camel c s = java_camel c' s.
Proof. destruct s as [|a s]; [reflexivity|]. cbn [head_is java_camel]. now intros ->. Qed.
Lemma up_head s : head_is upperb s = true -> head_is lowerb s = false.
Proof. destruct s; cbn; auto with chars. Qed.
Lemma di_head s : head_is digitb s = true -> head_is lowerb s = false.
Proof. destruct s; cbn; auto with chars. Qed.
Lemma loc_upper c : upperb c = true -> lowerb (loc c) = true /\ loc c - 32 = c.
Proof. unfold loc. intros H. rewrite H. split; chars. Qed.
Lemma loc_other c : upperb c = false -> loc c = c.
Proof. unfold loc. now intros ->. Qed.

Definition spaced (c : N) : bool := ident_char c || (c =? 32).
Definition before (last : option N) (c w : bool) (v : bytes) : Prop :=
  match last with
  | None => c = true /\ w = true
  | Some l => ident_char l = true /\ (l = 95 -> c = true /\ w = true) /\ (digitb l = true -> c = true) /\
      (lowerb l = true -> head_is upperb v = true -> head_is lowerb (tl v) = true)
  end.
Lemma snake_java v : forall last c w, forallb spaced v = true -> before last c w v ->
  apart (match last with Some l => upperb l | None => false end) v = true -> odd w v = false ->
  java_camel c (map loc (snake last v)) = java_camel c v.
Proof.
  induction v as [|a v IH]; intros last c w S B A O; [reflexivity|].
  cbn [forallb] in S. apply andb_true_iff in S. destruct S as [Sa S]. cbn [apart] in A. apply andb_true_iff in A. destruct A as [Aa A].
  cbn [odd] in O. apply orb_false_iff in O. destruct O as [Oa O]. cbn [snake].
  set (changed := upperb a && head_is lowerb v || lowerb a && head_is upperb v).
  set (inside := match last with Some l => negb (l =? 95) | None => false end).
  destruct (upperb a) eqn:U.
  - assert (L : lowerb a = false) by cls. assert (D : digitb a = false) by cls. destruct (loc_upper a U) as [LL LE].
    assert (Ia : ident_char a = true) by (unfold ident_char, letterb; now rewrite U).
    assert (N32 : (a =? 32) = false) by (apply neqb; intros ->; discriminate U).
    assert (N45 : (a =? 45) = false) by (apply neqb; intros ->; discriminate U).
    assert (E : java_camel false (map loc (snake (Some a) v)) = java_camel false v).
    { apply (IH (Some a) false (negb (letterb a))); auto; [|now rewrite U].
      refine (conj Ia (conj _ (conj _ _))); [intros ->; discriminate U|congruence|congruence]. }
    destruct (inside && changed) eqn:IC.
    + cbn [map java_camel]. change (lowerb (loc 95)) with false. change (upperb (loc 95)) with false. change (digitb (loc 95)) with false. cbn iota.
      rewrite LL, L, U, LE, E. reflexivity.
    + rewrite N32, N45, (up_95 a U). cbn [orb map java_camel]. rewrite LL, L, U, LE, E.
      assert (c = true) as ->; [|reflexivity].
      unfold before in B. destruct last as [l|]; [|apply B]. destruct B as (B0 & B1 & B2 & B3). unfold inside, changed in IC.
      destruct (N.eqb_spec l 95) as [El|Nl]; [now apply B1|]. cbn [negb andb] in IC.
      destruct (digitb l) eqn:Dl; auto. destruct (upperb l) eqn:Ul; [discriminate Aa|].
      unfold ident_char, letterb in B0. rewrite Ul, Dl in B0. destruct (lowerb l) eqn:Ll; [|cbn in B0; apply N.eqb_eq in B0; contradiction].
      cbn [head_is tl] in B3. rewrite (B3 eq_refl U), L in IC. discriminate IC.
  - destruct (lowerb a) eqn:L.
    + assert (D : digitb a = false) by cls.
      assert (Ia : ident_char a = true) by (unfold ident_char, letterb; now rewrite U, L).
      assert (N32 : (a =? 32) = false) by (apply neqb; intros ->; discriminate L).
      assert (N45 : (a =? 45) = false) by (apply neqb; intros ->; discriminate L).
      assert (LL : letterb a = true) by (unfold letterb; now rewrite L, orb_true_r). rewrite LL in O. cbn [negb] in O.
      destruct (inside && changed) eqn:IC.
      * apply andb_true_iff in IC. destruct IC as [_ IC]. unfold changed in IC. cbn [andb orb] in IC.
        cbn [map java_camel]. rewrite (loc_other a U), L. f_equal.
        change (lowerb (loc 95)) with false. change (upperb (loc 95)) with false. change (digitb (loc 95)) with false. cbn iota.
        rewrite (java_any false true v) by now apply up_head. apply (IH (Some 95) true true); auto.
        { refine (conj eq_refl (conj (fun _ => conj eq_refl eq_refl) (conj (fun _ => eq_refl) _))). discriminate. } { rewrite (odd_any true false v) by now apply up_head. exact O. }
      * rewrite N32, N45, (lo_95 a L). cbn [orb map java_camel]. rewrite (loc_other a U), L. f_equal.
        apply (IH (Some a) false false); auto; [|now rewrite U].
        refine (conj Ia (conj _ (conj _ _))); [intros ->; discriminate L|congruence|]. intros _ Hu.
        unfold changed in IC. rewrite Hu in IC. cbn [andb orb] in IC. rewrite andb_true_r in IC. unfold inside, before in *.
        assert (W : w = true).
        { destruct last as [l|]; [|apply B]. destruct B as (_ & B1 & _). destruct (N.eqb_spec l 95); [now apply B1|discriminate IC]. }
        rewrite W, Hu in Oa. cbn [andb] in Oa. now apply negb_false_iff in Oa.
    + unfold changed. cbn [andb orb]. rewrite andb_false_r.
      assert (LL : letterb a = false) by (unfold letterb; now rewrite L, U). rewrite LL in O. cbn [negb] in O.
      destruct (digitb a) eqn:D.
      * assert (Ia : ident_char a = true) by (unfold ident_char; rewrite LL, D; reflexivity).
        assert (N32 : (a =? 32) = false) by (apply neqb; intros ->; discriminate D).
        assert (N45 : (a =? 45) = false) by (apply neqb; intros ->; discriminate D).
        rewrite N32, N45, (di_95 a D). cbn [orb map java_camel]. rewrite (loc_other a U), L, U, D. f_equal.
        apply (IH (Some a) true true); auto; [|now rewrite U]. refine (conj Ia (conj (fun _ => conj eq_refl eq_refl) (conj (fun _ => eq_refl) _))). congruence.
      * assert (Sep : (a =? 32) || (a =? 95) = true).
        { unfold spaced, ident_char in Sa. rewrite LL, D in Sa. cbn in Sa. now rewrite orb_comm. }
        rewrite Sep. cbn [orb map java_camel]. rewrite L, U, D.
        change (lowerb (loc 95)) with false. change (upperb (loc 95)) with false. change (digitb (loc 95)) with false. cbn iota.
        apply (IH (Some 95) true true); auto. refine (conj eq_refl (conj (fun _ => conj eq_refl eq_refl) (conj (fun _ => eq_refl) _))). discriminate.
Qed.

(** ** The steps before *)
Lemma valid_java s : forall c, java_camel c (valid_chars s) = java_camel c s.
Proof.
  induction s as [|a s IH]; intros c; [reflexivity|]. cbn [valid_chars map java_camel]. fold (valid_chars s). unfold letterb.
  destruct (lowerb a) eqn:L, (upperb a) eqn:U, (digitb a) eqn:D; cbn [orb]; rewrite ?L, ?U, ?D, ?IH; try reflexivity.
Qed.
Lemma valid_ident s : ident (valid_chars s) = true.
Proof.
  induction s as [|a s IH]; [reflexivity|]. cbn [valid_chars map ident forallb]. fold (valid_chars s). fold (ident (valid_chars s)). rewrite IH.
  unfold ident_char. destruct (digitb a) eqn:D, (letterb a) eqn:L; cbn [orb]; rewrite ?D, ?L; reflexivity.
Qed.
Lemma valid_class a : lowerb (if digitb a || letterb a then a else 95) = lowerb a /\ upperb (if digitb a || letterb a then a else 95) = upperb a.
Proof. unfold letterb. destruct (digitb a) eqn:D, (upperb a) eqn:U, (lowerb a) eqn:L; cbn [orb]; rewrite ?U, ?L; auto. Qed.
Lemma valid_head_l s : head_is lowerb (valid_chars s) = head_is lowerb s.
Proof. destruct s; [reflexivity|]. cbn. apply valid_class. Qed.
Lemma valid_head_u s : head_is upperb (valid_chars s) = head_is upperb s.
Proof. destruct s; [reflexivity|]. cbn. apply valid_class. Qed.
Lemma valid_tl s : tl (valid_chars s) = valid_chars (tl s). Proof. destruct s; reflexivity. Qed.
Lemma valid_odd s : forall w, odd w (valid_chars s) = odd w s.
Proof.
  induction s as [|a s IH]; intros w; [reflexivity|]. cbn [valid_chars map]. fold (valid_chars s). cbn [odd].
  rewrite valid_head_u, valid_tl, valid_head_l, IH. destruct (valid_class a) as [L U].
  assert (LL : letterb (if digitb a || letterb a then a else 95) = letterb a) by (unfold letterb at 1; now rewrite L, U).
  now rewrite LL, L.
Qed.

Lemma split_java s : forall u c, java_camel c (split_upper u s) = java_camel c s.
Proof.
  induction s as [|a s IH]; intros u c; [reflexivity|]. cbn [split_upper]. destruct (u && upperb a) eqn:E; cbn [app java_camel]; rewrite !IH; [|reflexivity].
  apply andb_true_iff in E. destruct E as [_ U]. change (lowerb 95) with false. change (upperb 95) with false. change (digitb 95) with false. cbn iota.
  rewrite (up_lo a U), U. reflexivity.
Qed.
Lemma split_ident s : ident s = true -> forall u, ident (split_upper u s) = true.
Proof.
  induction s as [|a s IH]; intros I u; [reflexivity|]. apply ident_cons in I. destruct I as [Ia I]. cbn [split_upper].
  destruct (u && upperb a); cbn [app ident forallb]; rewrite Ia; apply (IH I).
Qed.
Lemma split_apart s : forall u, apart u (split_upper u s) = true.
Proof.
  induction s as [|a s IH]; intros u; [reflexivity|]. cbn [split_upper]. destruct (u && upperb a) eqn:E; cbn [app apart].
  - change (upperb 95) with false. rewrite andb_false_r. cbn [negb andb]. apply IH.
  - rewrite E. apply IH.
Qed.
Lemma split_head_l s u : head_is lowerb (split_upper u s) = head_is lowerb s.
Proof.
  destruct s as [|a s]; [reflexivity|]. cbn [split_upper]. destruct (u && upperb a) eqn:E; [|reflexivity].
  apply andb_true_iff in E. destruct E as [_ U]. cbn [app head_is]. rewrite (up_lo a U). reflexivity.
Qed.
Lemma split_odd s : forall u w, odd w (split_upper u s) = odd w s.
Proof.
  induction s as [|a s IH]; intros u w; [reflexivity|]. cbn [split_upper]. destruct (u && upperb a) eqn:E; cbn [app odd].
  - apply andb_true_iff in E. destruct E as [_ U]. change (lowerb 95) with false. rewrite (up_lo a U), !andb_false_r. cbn [orb andb]. apply IH.
  - rewrite IH. destruct (lowerb a) eqn:L; [|rewrite !andb_false_r; reflexivity]. rewrite (lo_up a L).
    assert (H : head_is upperb (split_upper false s) = head_is upperb s) by (destruct s; reflexivity).
    assert (T : head_is upperb s = true -> head_is lowerb (tl (split_upper false s)) = head_is lowerb (tl s)).
    { destruct s as [|b s]; [reflexivity|]. intros _. cbn [split_upper andb app tl]. apply split_head_l. }
    rewrite H. destruct (head_is upperb s); [now rewrite T|now rewrite !andb_false_r].
Qed.

Lemma bound_java s : (forall c, java_camel c (boundaries false s) = java_camel c s) /\ java_camel true (boundaries true s) = java_camel true s.
Proof.
  induction s as [|a s [I1 I2]]; [split; reflexivity|]. split.
  - intros c. cbn [boundaries]. destruct (letterb a && head_is digitb s) eqn:E; cbn [java_camel]; [|now rewrite !I1].
    apply andb_true_iff in E. destruct E as [E1 E2]. change (lowerb 32) with false. change (upperb 32) with false. change (digitb 32) with false. cbn iota.
    rewrite I2, (java_any false true s) by now apply di_head. unfold letterb in E1. destruct (lowerb a), (upperb a); try reflexivity.
  - cbn [boundaries]. destruct (digitb a) eqn:D; cbn [java_camel].
    + rewrite (di_lo a D), (di_up a D), D, I2. reflexivity.
    + change (lowerb 32) with false. change (upperb 32) with false. change (digitb 32) with false. cbn iota. now rewrite !I1.
Qed.
Lemma bound_spaced s : ident s = true -> forall d, forallb spaced (boundaries d s) = true.
Proof.
  induction s as [|a s IH]; intros I d; [destruct d; reflexivity|]. apply ident_cons in I. destruct I as [Ia I]. cbn [boundaries].
  assert (Sa : spaced a = true) by (unfold spaced; now rewrite Ia).
  destruct d; [destruct (digitb a)|destruct (letterb a && head_is digitb s)]; cbn [forallb]; rewrite ?Sa; cbn [andb]; apply (IH I).
Qed.
Lemma bound_apart s : (forall u, apart u s = true -> apart u (boundaries false s) = true) /\ (forall u, apart false s = true -> apart u (boundaries true s) = true).
Proof.
  induction s as [|a s [I1 I2]]; [split; intros; cbn; rewrite ?andb_false_r; reflexivity|]. split.
  - intros u H. cbn [apart] in H. apply andb_true_iff in H. destruct H as [H1 H2]. cbn [boundaries].
    destruct (letterb a && head_is digitb s) eqn:E; cbn [apart]; rewrite H1; cbn [andb]; [|now apply I1].
    change (upperb 32) with false. rewrite andb_false_r. cbn [negb andb]. apply I2. apply andb_true_iff in E. destruct E as [_ E].
    destruct s as [|b s]; [reflexivity|]. cbn [apart head_is] in *. apply andb_true_iff in H2. apply H2.
  - intros u H. cbn [apart] in H. apply andb_true_iff in H. destruct H as [_ H2]. cbn [boundaries]. destruct (digitb a) eqn:D; cbn [apart].
    + rewrite (di_up a D) in *. rewrite andb_false_r. cbn [negb andb]. now apply I2.
    + change (upperb 32) with false. rewrite andb_false_r. cbn [negb andb]. now apply I1.
Qed.
Lemma bound_head p s : head_is p (boundaries false s) = head_is p s.
Proof. destruct s as [|a s]; [reflexivity|]. cbn [boundaries]. destruct (letterb a && head_is digitb s); reflexivity. Qed.
Lemma bound_odd s : (forall w, odd w (boundaries false s) = odd w s) /\ odd true (boundaries true s) = odd true s.
Proof.
  induction s as [|a s [I1 I2]]; [split; reflexivity|]. split.
  - intros w. cbn [boundaries]. destruct (letterb a && head_is digitb s) eqn:E.
    + apply andb_true_iff in E. destruct E as [_ E]. destruct s as [|b s]; [discriminate|]. cbn [head_is] in E. cbn [odd] in *.
      change (lowerb 32) with false. change (head_is upperb (32 :: boundaries true (b :: s))) with false.
      cbn [head_is] in *. rewrite (di_up b E), (di_lo b E) in *. rewrite !andb_false_r in *. cbn [orb andb] in *.
      change (negb (letterb 32)) with true. rewrite I2. reflexivity.
    + cbn [odd]. rewrite I1. destruct (lowerb a) eqn:L; [|now rewrite !andb_false_r]. rewrite bound_head. destruct (head_is upperb s) eqn:U; [|now rewrite !andb_false_r].
      f_equal. f_equal. f_equal. destruct s as [|b s]; [reflexivity|]. cbn [boundaries]. destruct (letterb b && head_is digitb s) eqn:F; cbn [tl].
      * apply andb_true_iff in F. destruct F as [_ F]. rewrite (di_head s F). reflexivity.
      * apply bound_head.
  - cbn [boundaries]. destruct (digitb a) eqn:D; cbn [odd].
    + rewrite (di_lo a D), !andb_false_r. cbn [orb andb]. unfold letterb. rewrite (di_up a D), (di_lo a D). cbn [orb negb]. exact I2.
    + change (lowerb 32) with false. rewrite !andb_false_r. cbn [orb andb]. change (negb (letterb 32)) with true.
      change (odd true (a :: boundaries false s) = odd true (a :: s)). cbn [odd]. rewrite I1.
      destruct (lowerb a) eqn:L; [|now rewrite !andb_false_r]. rewrite bound_head. destruct (head_is upperb s) eqn:U; [|now rewrite !andb_false_r].
      f_equal. f_equal. f_equal. destruct s as [|b s]; [reflexivity|]. cbn [boundaries]. destruct (letterb b && head_is digitb s) eqn:F; cbn [tl].
      * apply andb_true_iff in F. destruct F as [_ F]. rewrite (di_head s F). reflexivity.
      * apply bound_head.
Qed.
Lemma tail_odd n s : forall w, odd w (s ++ repeat 32 n) = odd w s.
Proof.
  induction s as [|a s IH]; intros w; cbn [app odd].
  - revert w. induction n; intros w; cbn [repeat odd]; auto. change (lowerb 32) with false. rewrite !andb_false_r. apply IHn.
  - rewrite IH. f_equal. assert (H : forall p, p 32 = false -> forall s, head_is p (s ++ repeat 32 n) = head_is p s).
    { intros p Hp [|b t]; [|reflexivity]. destruct n; cbn; auto. }
    rewrite (H upperb) by reflexivity. destruct s as [|b s]; [cbn [app head_is]; now rewrite !andb_false_r|]. cbn [app tl]. now rewrite (H lowerb).
Qed.
Lemma tail_apart n s : forall u, apart u (s ++ repeat 32 n) = true -> apart u s = true.
Proof. induction s as [|a s IH]; intros u; [reflexivity|]. cbn [app apart]. intros H. apply andb_true_iff in H. destruct H as [-> H]. cbn. eauto. Qed.
Lemma snake_ident v : forallb spaced v = true -> forall last, ident (map loc (snake last v)) = true.
Proof.
  assert (LI : forall c, ident_char c = true -> ident_char (loc c) = true).
  { intros c H. unfold loc. destruct (upperb c) eqn:U; auto. unfold ident_char, letterb. assert (lowerb (c + 32) = true) as -> by chars. now rewrite orb_true_r. }
  induction v as [|a v IH]; intros S last; [reflexivity|]. cbn [forallb] in S. apply andb_true_iff in S. destruct S as [Sa S]. cbn [snake].
  specialize (IH S).
  assert (Ia : upperb a || lowerb a = true -> ident_char (loc a) = true) by (intros H; apply LI; unfold ident_char, letterb; now rewrite H).
  destruct (_ && (_ || _)) eqn:E.
  - apply andb_true_iff in E. destruct E as [_ E]. destruct (upperb a) eqn:U; cbn [map ident forallb]; fold ident.
    + rewrite (Ia eq_refl). change (ident_char (loc 95)) with true. cbn [andb]. apply IH.
    + cbn [andb orb] in E. apply andb_true_iff in E. destruct E as [E _]. rewrite E in Ia. rewrite (Ia eq_refl). change (ident_char (loc 95)) with true. cbn [andb]. apply IH.
  - destruct ((a =? 32) || (a =? 95) || (a =? 45)) eqn:F; cbn [map ident forallb]; [apply IH|]. rewrite LI; [apply IH|].
    unfold spaced in Sa. apply orb_true_iff in Sa. destruct Sa as [Sa|Sa]; auto. rewrite Sa in F. discriminate.
Qed.

Lemma trim_forall p s : head_is (N.eqb 32) s = false -> forallb p s = true -> forallb p (trim s) = true.
Proof. intros H F. destruct (trim_blank s H) as [n E]. rewrite E, forallb_app in F. now apply andb_true_iff in F. Qed.
Lemma snake_is_ident s : ident (to_snake (split_upper false (valid_chars s))) = true.
Proof.
  unfold to_snake. set (u := split_upper false (valid_chars s)). assert (Iu : ident u = true) by (apply split_ident, valid_ident).
  apply snake_ident, trim_forall; [now apply boundaries_head|now apply bound_spaced].
Qed.
Lemma sanitize_java s : odd true s = false -> sanitize s = java_camel true s.
Proof.
  intros O. unfold sanitize. rewrite to_camel_java by apply snake_is_ident. unfold to_snake. set (u := split_upper false (valid_chars s)).
  assert (Iu : ident u = true) by (apply split_ident, valid_ident). pose proof (boundaries_head u Iu) as H.
  destruct (trim_blank (boundaries false u) H) as [n E].
  rewrite (snake_java (trim (boundaries false u)) None true true).
  - rewrite (java_trim true) by auto. destruct (bound_java u) as [-> _]. unfold u. now rewrite split_java, valid_java.
  - apply trim_forall; auto. now apply bound_spaced.
  - split; reflexivity.
  - apply (tail_apart n). rewrite <- E. apply bound_apart, split_apart.
  - rewrite <- (tail_odd n), <- E. destruct (bound_odd u) as [-> _]. unfold u. now rewrite split_odd, valid_odd.
Qed.
