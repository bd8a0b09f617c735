(** Validation in C++ agrees with the rules, on the schemas and values of CcSpec.v: the runtime library and the
    rules of single values. *)
From Coq Require Import Lia ZifyBool ZifyNat Floats.SpecFloat.
From Verif Require Import Base Utf8 Num Rules Types Time Iface Checker Regex Known GoSem Spec Meaning Conflict Wt LitSpec BaseFacts Utf8Facts NumFacts
  TimeFacts RegexFacts HostFacts KnownFacts ExecFacts ExecRule ExecField ExecMsg Main MeaningFacts ConflictFacts Outcome Values Says LangFacts JavaFacts JavaRunFacts Cc CcSpec.

(** ** The runtime library, on all texts *)
Lemma cc_is_prefix_spec p s : cc_is_prefix p s = true <-> starts_with s p.
Proof.
  unfold cc_is_prefix, starts_with. rewrite bytes_eqb_eq. split.
  - intros E. exists (skipn (List.length p) s). rewrite <- E at 1. now rewrite firstn_skipn.
  - intros [t ->]. rewrite firstn_app, Nat.sub_diag, firstn_all. cbn. apply app_nil_r.
Qed.
Lemma cc_is_suffix_spec p s : cc_is_suffix p s = true <-> ends_with s p.
Proof.
  unfold cc_is_suffix, ends_with. rewrite andb_true_iff, bytes_eqb_eq, Nat.leb_le. split.
  - intros [L E]. exists (firstn (List.length s - List.length p) s). rewrite <- (firstn_skipn (List.length s - List.length p) s) at 1. f_equal.
    etransitivity; [|exact E]. symmetry. apply firstn_all2. rewrite skipn_length. lia.
  - intros [t ->]. rewrite app_length. split; [lia|]. replace (List.length t + List.length p - List.length p) with (List.length t) by lia.
    rewrite skipn_app, skipn_all, Nat.sub_diag. cbn. apply firstn_all.
Qed.
Lemma cc_contains_spec s p : cc_contains s p = true <-> has_inside s p.
Proof.
  unfold has_inside. induction s as [|c t IH]; cbn [cc_contains]; rewrite orb_true_iff, cc_is_prefix_spec; unfold starts_with.
  - split; [intros [[u E]|H]; [|discriminate]; exists [], u; exact E|].
    intros (a & b & E). left. symmetry in E. apply app_eq_nil in E. destruct E as [_ E]. apply app_eq_nil in E. destruct E as [-> ->]. exists []. reflexivity.
  - rewrite IH. split.
    + intros [[u E]|(a & b & ->)]; [exists [], u; exact E|exists (c :: a), b; reflexivity].
    + intros ([|x a] & b & E); [left; exists b; exact E|]. right. injection E as <- ->. exists a, b. reflexivity.
Qed.

Lemma first_bytes c : scalar_value c -> exists b t, utf8_bytes c = b :: t /\ List.length t = first_letter_bytes b - 1.
Proof.
  intros S. unfold utf8_bytes, scalar_value, first_letter_bytes in *.
  destruct (c <? 0x80)%N eqn:E1; [|destruct (c <? 0x800)%N eqn:E2; [|destruct (c <? 0x10000)%N eqn:E3]]; eexists; eexists; (split; [reflexivity|]); cbn [List.length].
  - destruct (c <? 192)%N eqn:Q1; [reflexivity|lia].
  - assert (D : (2 <= c / 64 < 32)%N) by (apply N.ltb_lt in E2; apply N.ltb_ge in E1; split; [apply N.div_le_lower_bound; lia|apply N.div_lt_upper_bound; lia]).
    destruct (_ <? 192)%N eqn:Q1; [lia|]. destruct (_ <? 224)%N eqn:Q2; [reflexivity|lia].
  - assert (D : (c / 4096 < 16)%N) by (apply N.ltb_lt in E3; apply N.div_lt_upper_bound; lia).
    destruct (_ <? 192)%N eqn:Q1; [lia|]. destruct (_ <? 224)%N eqn:Q2; [lia|]. destruct (_ <? 240)%N eqn:Q3; [reflexivity|lia].
  - destruct (_ <? 192)%N eqn:Q1; [lia|]. destruct (_ <? 224)%N eqn:Q2; [lia|]. destruct (_ <? 240)%N eqn:Q3; [lia|]. reflexivity.
Qed.
Lemma skip_app t : forall s, utf8_len_skip (List.length t) (t ++ s) = utf8_len_skip 0 s.
Proof. induction t as [|b t IH]; intros s; [reflexivity|]. cbn [List.length app utf8_len_skip]. apply IH. Qed.
Lemma cc_utf8_len_chars l : Forall scalar_value l -> cc_utf8_len (flat_map utf8_bytes l) = N.of_nat (List.length l).
Proof.
  unfold cc_utf8_len. induction 1 as [|c l S _ IH]; [reflexivity|]. cbn [flat_map List.length].
  destruct (first_bytes c S) as (b & t & -> & L). cbn [app utf8_len_skip]. rewrite <- L, skip_app, IH. lia.
Qed.
Lemma cc_utf8_len_count s n : valid_utf8 s -> chars_count s n <-> cc_utf8_len s = n.
Proof.
  intros (l & Hl & ->). rewrite chars_count_iff. rewrite <- flat_map_concat_map. rewrite cc_utf8_len_chars by auto. unfold rune_count.
  assert (R := runes_app_char_list l [] Hl). rewrite app_nil_r in R. rewrite R, app_nil_r. reflexivity.
Qed.

Lemma cc_host_char_spec c : (c < 256)%N -> cc_host_char c = true <-> ascii_letter c.
Proof. unfold cc_host_char, schar, ascii_letter, alnum. intros B. destruct (c <? 128)%N eqn:E; lia. Qed.
Lemma cc_host_part_spec p : Forall (fun c => c < 256)%N p -> cc_host_part p = true <-> ascii_label p.
Proof.
  intros B. unfold cc_host_part, ascii_label, blen.
  assert (F : forallb cc_host_char p = true <-> Forall ascii_letter p).
  { rewrite forallb_forall, Forall_forall. rewrite Forall_forall in B. split; intros H c Hc; apply (cc_host_char_spec c (B c Hc)); auto. }
  destruct p as [|c p]; [cbn; split; [discriminate|lia]|]. cbn [is_nil orb]. 
  destruct (63 <? N.of_nat (List.length (c :: p)))%N eqn:E1; [split; [discriminate|]; cbn [List.length] in *; lia|].
  destruct (hd 0%N (c :: p) =? 45)%N eqn:E2; [split; [discriminate|]; lia|].
  destruct (List.last (c :: p) 0%N =? 45)%N eqn:E3; [split; [discriminate|]; lia|].
  rewrite F. cbn [List.length] in *. split; [intros H; repeat split; auto; lia|tauto].
Qed.
Lemma label_no_dot l : ascii_label l -> ~ In 46%N l.
Proof. intros (_ & F & _) I. rewrite Forall_forall in F. apply F in I. unfold ascii_letter, alnum in I. lia. Qed.

Lemma bytes_parts s : Forall (fun c => c < 256)%N s -> Forall (Forall (fun c => c < 256)%N) (split_on 46 s).
Proof. intros H. apply join_all. now rewrite split_join. Qed.
Lemma split_dot_end d : split_on 46 (d ++ [46%N]) = split_on 46 d ++ [[]].
Proof.
  induction d as [|c t IH]; [reflexivity|]. cbn [app split_on]. rewrite IH. destruct (c =? 46)%N; [reflexivity|].
  assert (N := split_on_ne 46 t). destruct (split_on 46 t); [congruence|reflexivity].
Qed.
Lemma last_cons2 {A} (a : list A) x d : a <> [] -> List.last (a ++ [x]) d = x.
Proof. intros _. apply last_last. Qed.
Lemma cc_tokens_end d : d <> [] -> cc_tokens (d ++ [46%N]) = split_on 46 d.
Proof.
  intros _. unfold cc_tokens. rewrite split_dot_end. assert (N := split_on_ne 46 d).
  destruct (split_on 46 d) as [|x [|y t]] eqn:E; [congruence|reflexivity|].
  change ((x :: y :: t) ++ [[]]) with (x :: y :: (t ++ [[]])).
  cbv iota. change (x :: y :: t ++ [[]]) with ((x :: y :: t) ++ [[]]). rewrite last_last, removelast_last. reflexivity.
Qed.

Lemma last_in {A} (l : list A) d : l <> [] -> In (List.last l d) l.
Proof. intros H. destruct (exists_last H) as (a & x & ->). rewrite last_last. apply in_app_iff. right. left. auto. Qed.

Theorem cc_is_hostname_spec s : Forall (fun c => c < 256)%N s -> cc_is_hostname s = true <-> rfc_hostname s.
Proof.
  intros B. unfold cc_is_hostname, rfc_hostname, blen. destruct (253 <? N.of_nat (List.length s))%N eqn:E; [split; [discriminate|lia]|].
  assert (P := bytes_parts s B).
  assert (F : forall l, Forall (Forall (fun c => c < 256)%N) l -> forallb cc_host_part l = true <-> Forall ascii_label l).
  { intros l Hl. rewrite forallb_forall, Forall_forall. rewrite Forall_forall in Hl. split; intros H c Hc; apply (cc_host_part_spec c (Hl c Hc)); auto. }
  split.
  - intros H. split; [lia|]. unfold cc_tokens in H. assert (J := split_join s). assert (N := split_on_ne 46 s).
    destruct (split_on 46 s) as [|x [|y t]] eqn:S; [congruence| |].
    + apply F in H; auto. exists [x]. split; [discriminate|]. split; auto.
    + destruct (is_nil (List.last (x :: y :: t) [])) eqn:Q.
      * apply is_nil_true in Q. destruct (exists_last (l := x :: y :: t) ltac:(discriminate)) as (a & z & Ea). rewrite Ea in *.
        rewrite last_last in Q. subst z. rewrite removelast_last in H. apply F in H; [|apply Forall_app in P; tauto].
        assert (Na : a <> []) by (intros ->; discriminate Ea).
        exists a. split; auto. split; auto. right. rewrite <- J. clear - Na. induction a as [|u [|v w] IH]; [congruence|reflexivity|].
        cbn [app]. rewrite join_dots_cons by discriminate. change ((v :: w) ++ [[]]) with ((v :: w) ++ [[]]) in *.
        change (v :: w ++ [[]]) with ((v :: w) ++ [[]]). rewrite IH by discriminate. rewrite (join_dots_cons u) by discriminate. now rewrite <- !app_assoc.
      * apply F in H; auto. exists (x :: y :: t). split; [discriminate|]. split; auto.
  - intros (_ & ls & N & L & E').
    assert (ND : Forall (fun p => ~ In 46%N p) ls) by (eapply Forall_impl; [apply label_no_dot|exact L]).
    assert (Nn : Forall (fun p => p <> []) ls) by (eapply Forall_impl; [|exact L]; intros [|] (H & _); [cbn in H; lia|discriminate]).
    assert (T : cc_tokens s = ls).
    { destruct E' as [-> | ->].
      - unfold cc_tokens. rewrite join_split by auto. destruct ls as [|x [|y t]]; [congruence|reflexivity|].
        assert (K : is_nil (List.last (x :: y :: t) []) = false); [|now rewrite K].
        assert (I := last_in (x :: y :: t) [] ltac:(discriminate)). rewrite Forall_forall in Nn. apply Nn in I. destruct (List.last _ _); [congruence|reflexivity].
      - rewrite cc_tokens_end, join_split; auto. intros Z. apply N. destruct ls as [|x [|y t]]; auto; [cbn in Z; subst; inversion Nn; congruence|].
        rewrite join_dots_cons in Z by discriminate. destruct x; discriminate. }
    rewrite T. apply F; auto. apply Forall_forall. intros l Il. rewrite Forall_forall in L. destruct (L l Il) as (_ & Q & _).
    eapply Forall_impl; [|exact Q]. intros c Hc. apply letter_small in Hc. lia.
Qed.

Lemma clit_same s : ~ In 0%N s -> clit s = s.
Proof.
  unfold clit. induction s as [|c t IH]; intros H; [reflexivity|]. cbn. destruct (N.eqb_spec c 0) as [->|]; [exfalso; apply H; left; auto|].
  rewrite IH; auto. intros I. apply H. right. auto.
Qed.
Lemma text_no_nul s : cc_text s -> ~ In 0%N s.
Proof. intros H. apply H. Qed.
Lemma cc_is_uuid_spec s : cc_is_uuid s = true <-> uuid s.
Proof. unfold cc_is_uuid. rewrite rmatch_spec. apply lang_uuid. Qed.

(** ** Generic checks *)
Section Ltgt.
Context {T : Type}.
Variable lt_ le_ gt_ ge_ : T -> T -> bool.
Variable gen_gt : T -> T -> bool.
Variable LT EQ : T -> T -> Prop.

Lemma says_ltgt v lt lte gt gte :
  (forall x, (lt = Some x \/ lte = Some x \/ gt = Some x \/ gte = Some x) ->
     (lt_ v x = true <-> LT v x) /\ (le_ v x = true <-> LT v x \/ EQ v x) /\
     (gt_ v x = true <-> LT x v) /\ (ge_ v x = true <-> LT x v \/ EQ x v) /\
     ((LT v x /\ ~ EQ v x /\ ~ LT x v /\ ~ EQ x v) \/ (EQ v x /\ EQ x v /\ ~ LT v x /\ ~ LT x v) \/ (LT x v /\ ~ LT v x /\ ~ EQ v x /\ ~ EQ x v))) ->
  (forall a b, (lt = Some a \/ lte = Some a) -> (gt = Some b \/ gte = Some b) -> gen_gt a b = true <-> LT b a) ->
  ~ (lt <> None /\ lte <> None) -> ~ (gt <> None /\ gte <> None) ->
  says (cc_ltgt lt_ le_ gt_ ge_ gen_gt v lt lte gt gte) (within_range LT EQ (bnd lt lte) (bnd gt gte) v).
Proof.
  intros H G N1 N2.
  destruct lt as [a|], lte as [a'|]; try (exfalso; apply N1; split; congruence);
    destruct gt as [b|], gte as [b'|]; try (exfalso; apply N2; split; congruence);
    unfold cc_ltgt; cbn [bnd within_range bval Spec.below Spec.above].
  1,2,4,5: match goal with |- context [gen_gt ?a ?b] =>
     assert (Ga := G a b ltac:(auto) ltac:(auto)); assert (Ha := H a ltac:(auto)); assert (Hb := H b ltac:(auto)); clear - Ga Ha Hb;
     destruct Ha as (A1 & A2 & A3 & A4 & A5), Hb as (B1 & B2 & B3 & B4 & B5);
     destruct (gen_gt a b);
     [assert (Q : LT b a) by (now apply Ga)|assert (Q : ~ LT b a) by (intros X; apply Ga in X; discriminate)];
     apply says_throw; rewrite ?negb_true_iff, ?orb_false_iff, ?andb_false_iff, <- ?not_true_iff_false, ?A1, ?A2, ?A3, ?A4, ?B1, ?B2, ?B3, ?B4;
     clear - Q A5 B5; tauto end.
  1,2,3,4: match goal with |- context [throw_unless (negb (?f ?u ?a))] =>
     assert (Ha := H a ltac:(auto)); clear - Ha; destruct Ha as (A1 & A2 & A3 & A4 & A5);
     apply says_throw; rewrite negb_true_iff, <- not_true_iff_false, ?A1, ?A2, ?A3, ?A4; clear - A5; tauto end.
  left. split; reflexivity.
Qed.
End Ltgt.

Lemma says_cc_lists {T} (found : list T -> bool) (P : T -> Prop) l nl :
  (found l = true <-> Exists P l) -> (found nl = true <-> Exists P nl) -> l = [] \/ nl = [] ->
  says (cc_lists found l nl) (listed P l nl).
Proof.
  intros K1 K2 D. unfold cc_lists, listed. destruct l as [|c t]; cbn [is_nil negb].
  - destruct nl as [|c t]; cbn [is_nil negb]; [left; split; auto; split; [congruence|now rewrite Exists_nil]|].
    apply says_throw. rewrite negb_true_iff, <- not_true_iff_false, K2. split; [intros H; split; [congruence|exact H]|tauto].
  - destruct D as [D| ->]; [discriminate|]. apply says_throw. rewrite K1. split; [intros H; split; auto; now rewrite Exists_nil|].
    intros [H _]. apply H. discriminate.
Qed.
Lemma says_cc_len n len mn mx (C : N -> Prop) : (forall k, C k <-> n = k) ->
  says (cc_len n len mn mx)
    ((forall k, len = Some k -> C k) /\ (forall a, len = None -> mn = Some a -> exists k, C k /\ (a <= k)%N) /\
     (forall b, len = None -> mx = Some b -> exists k, C k /\ (k <= b)%N)).
Proof.
  intros E. unfold cc_len.
  assert (X1 : forall a, (exists k, C k /\ (a <= k)%N) <-> (a <= n)%N) by (intros; apply (ex_count _ _ _ E)).
  assert (X2 : forall b, (exists k, C k /\ (k <= b)%N) <-> (n <= b)%N) by (intros; apply (ex_count _ _ (fun k => (k <= b)%N) E)).
  destruct len as [k|]; [|destruct mn as [a|], mx as [b|]].
  - apply says_throw. split; [intros H; split; [|split; discriminate]; intros k' [= <-]; apply E; lia|].
    intros [H _]. specialize (H k eq_refl). apply E in H. lia.
  - destruct (a =? b)%N eqn:Q; apply says_throw.
    + split; [intros H; repeat split; try discriminate; [intros ? _ [= <-]; apply X1; lia|intros ? _ [= <-]; apply X2; lia]|].
      intros (_ & H1 & H2). specialize (H1 _ eq_refl eq_refl). specialize (H2 _ eq_refl eq_refl). apply X1 in H1. apply X2 in H2. lia.
    + split; [intros H; repeat split; try discriminate; [intros ? _ [= <-]; apply X1; lia|intros ? _ [= <-]; apply X2; lia]|].
      intros (_ & H1 & H2). specialize (H1 _ eq_refl eq_refl). specialize (H2 _ eq_refl eq_refl). apply X1 in H1. apply X2 in H2. lia.
  - apply says_throw. split; [intros H; repeat split; try discriminate; intros ? _ [= <-]; apply X1; lia|].
    intros (_ & H1 & _). specialize (H1 _ eq_refl eq_refl). apply X1 in H1. lia.
  - apply says_throw. split; [intros H; repeat split; try discriminate; intros ? _ [= <-]; apply X2; lia|].
    intros (_ & _ & H2). specialize (H2 _ eq_refl eq_refl). apply X2 in H2. lia.
  - left. split; auto. repeat split; discriminate.
Qed.

(** ** Numbers *)

(** *** Widening does not change the order. *)
Lemma digits_bounds m : (2 ^ (Zpos (digits2_pos m) - 1) <= Zpos m < 2 ^ Zpos (digits2_pos m))%Z.
Proof.
  induction m as [m IH|m IH|]; cbn [digits2_pos]; [| |cbn; lia].
  all: rewrite Pos2Z.inj_succ; replace (Z.succ (Zpos (digits2_pos m)) - 1)%Z with (Z.succ (Zpos (digits2_pos m) - 1))%Z by lia;
    rewrite !Z.pow_succ_r by lia; lia.
Qed.
Lemma digits_exact m k : (0 <= k)%Z -> (2 ^ k <= Zpos m < 2 ^ (k + 1))%Z -> Zpos (digits2_pos m) = (k + 1)%Z.
Proof.
  intros Hk H. assert (B := digits_bounds m). set (d := Zpos (digits2_pos m)) in *.
  assert (d - 1 < k + 1)%Z by (apply (Z.pow_lt_mono_r_iff 2); lia). assert (k < d)%Z by (apply (Z.pow_lt_mono_r_iff 2); lia). lia.
Qed.

(** The position of the first digit decides, then the mantissas brought to the same length. *)
Lemma same_scale (m1 m2 : positive) d : (0 <= d)%Z -> (Zpos m1 * 2 ^ d ?= Zpos m2 * 2 ^ d)%Z = (Zpos m1 ?= Zpos m2)%Z.
Proof. intros. symmetry. apply Zmult_compare_compat_r. assert (0 < 2 ^ d)%Z by (apply Z.pow_pos_nonneg; lia). lia. Qed.

Lemma to_pos_compare a b : (0 < a)%Z -> (0 < b)%Z -> (Z.to_pos a ?= Z.to_pos b)%positive = (a ?= b)%Z.
Proof. destruct a, b; try lia. reflexivity. Qed.

Lemma float_facts m e : bounded 24 128 m e = true ->
  (Zpos (digits2_pos m) <= 24 /\ -149 <= e /\ (-149 < e -> Zpos (digits2_pos m) = 24))%Z.
Proof.
  unfold bounded, canonical_mantissa, fexp, emin. rewrite andb_true_iff. intros [H _]. apply Zeq_bool_eq in H. lia.
Qed.

Lemma widen_pos m1 e1 m2 e2 : bounded 24 128 m1 e1 = true -> bounded 24 128 m2 e2 = true ->
  let d1 := (53 - Zpos (digits2_pos m1))%Z in let d2 := (53 - Zpos (digits2_pos m2))%Z in
  match (e1 - d1 ?= e2 - d2)%Z with
  | Eq => (Z.to_pos (Zpos m1 * 2 ^ d1) ?= Z.to_pos (Zpos m2 * 2 ^ d2))%positive
  | c => c
  end = match (e1 ?= e2)%Z with Eq => (m1 ?= m2)%positive | c => c end.
Proof.
  intros B1 B2 d1 d2. apply float_facts in B1, B2.
  assert (D1 := digits_bounds m1). assert (D2 := digits_bounds m2).
  assert (P1 : (0 < Zpos m1 * 2 ^ d1)%Z) by (apply Z.mul_pos_pos; [lia|apply Z.pow_pos_nonneg; lia]).
  assert (P2 : (0 < Zpos m2 * 2 ^ d2)%Z) by (apply Z.mul_pos_pos; [lia|apply Z.pow_pos_nonneg; lia]).
  rewrite to_pos_compare by assumption.
  destruct (Z.compare_spec e1 e2) as [<-|L|L].
  - destruct (Z.compare_spec (e1 - d1) (e1 - d2)) as [Q|Q|Q].
    + assert (d1 = d2) by lia. rewrite H in *. apply same_scale. lia.
    + symmetry. apply Pos.compare_lt_iff. assert (2 ^ Zpos (digits2_pos m1) <= 2 ^ (Zpos (digits2_pos m2) - 1))%Z by (apply Z.pow_le_mono_r; lia). lia.
    + symmetry. apply Pos.compare_gt_iff. assert (2 ^ Zpos (digits2_pos m2) <= 2 ^ (Zpos (digits2_pos m1) - 1))%Z by (apply Z.pow_le_mono_r; lia). lia.
  - destruct (Z.compare_spec (e1 - d1) (e2 - d2)) as [Q|Q|Q]; [lia|reflexivity|lia].
  - destruct (Z.compare_spec (e1 - d1) (e2 - d2)) as [Q|Q|Q]; [lia|lia|reflexivity].
Qed.
Lemma widen_compare a b : valid_binary 24 128 a = true -> valid_binary 24 128 b = true -> SFcompare (widen a) (widen b) = SFcompare a b.
Proof.
  destruct a as [sa|sa| |sa ma ea], b as [sb|sb| |sb mb eb]; cbn [valid_binary widen]; intros Ba Bb; try reflexivity.
  assert (W := widen_pos ma ea mb eb Ba Bb). cbn zeta in W. unfold SFcompare.
  change (Pos.compare_cont Eq ma mb) with (Pos.compare ma mb).
  change (Pos.compare_cont Eq (Z.to_pos (Zpos ma * 2 ^ (53 - Zpos (digits2_pos ma)))) (Z.to_pos (Zpos mb * 2 ^ (53 - Zpos (digits2_pos mb)))))
    with (Pos.compare (Z.to_pos (Zpos ma * 2 ^ (53 - Zpos (digits2_pos ma)))) (Z.to_pos (Zpos mb * 2 ^ (53 - Zpos (digits2_pos mb))))).
  set (x := Pos.compare (Z.to_pos _) _) in *. set (y := Pos.compare ma mb) in *. set (z := Z.compare (ea - _) _) in *. clearbody x y z.
  destruct sa, sb; auto; destruct z, (ea ?= eb)%Z; cbn in *; subst; try discriminate; reflexivity.
Qed.

(** *** A number against a constant *)
Lemma const_nan k c : cc_const k c -> ~ nan c.
Proof. intros [_ H] ->. destruct H as [[s H]|(s & m & e & H)]; discriminate. Qed.
Lemma kinds_same k a b : num_of_kind k a = true -> num_of_kind k b = true -> same_kind a b.
Proof. destruct a, b; cbn; auto; destruct (is_float k); cbn; discriminate. Qed.

Lemma set_find_num n l : ~ nan n -> (forall c, In c l -> same_kind n c /\ ~ nan c) -> set_find num_ltb n l = true <-> Exists (neq n) l.
Proof.
  intros N H. unfold set_find. rewrite existsb_exists, Exists_exists.
  assert (K : forall c, In c l -> negb (num_ltb n c) && negb (num_ltb c n) = true <-> neq n c).
  { intros c Hc. destruct (H c Hc) as [S Nc]. assert (T := trichotomy n c S N Nc).
    rewrite andb_true_iff, !negb_true_iff, <- !not_true_iff_false, !num_ltb_spec. clear - T. tauto. }
  split; intros (c & Hc & E); exists c; split; auto; now apply (K c Hc).
Qed.

Section NumSays.
Variable cl : cc_libs.

Lemma wide_cmp k n c : num_of_kind k n = true -> num_of_kind k c = true -> (k = KFloat -> forall f, c = NF f -> cl_short cl f = widen f) ->
  num_ltb (cc_wide k n) (cc_bound cl k c) = num_ltb n c /\ num_leb (cc_wide k n) (cc_bound cl k c) = num_leb n c /\
  num_ltb (cc_bound cl k c) (cc_wide k n) = num_ltb c n /\ num_leb (cc_bound cl k c) (cc_wide k n) = num_leb c n.
Proof.
  intros Kn Kc H. destruct k; try (repeat split; reflexivity).
  destruct n as [z|f], c as [z'|g]; try (repeat split; reflexivity). cbn [cc_wide cc_bound]. rewrite (H eq_refl g eq_refl).
  cbn in Kn, Kc. cbn [num_ltb num_leb]. unfold SFltb, SFleb. rewrite !widen_compare by assumption. repeat split; reflexivity.
Qed.

Lemma ltgt_nan (v : num) k lt lte gt gte : nan v ->
  cc_ltgt (fun v b => num_ltb (cc_wide k v) (cc_bound cl k b)) (fun v b => num_leb (cc_wide k v) (cc_bound cl k b))
             (fun v b => num_ltb (cc_bound cl k b) (cc_wide k v)) (fun v b => num_leb (cc_bound cl k b) (cc_wide k v))
             (fun a b => num_ltb b a) v lt lte gt gte = Passes.
Proof.
  intros ->. assert (W : cc_wide k (NF S754_nan) = NF S754_nan) by (destruct k; reflexivity).
  assert (N1 := fun b => nan_ltb_l (NF S754_nan) b eq_refl). assert (N2 := fun b => nan_ltb_r (NF S754_nan) b eq_refl).
  assert (N3 := fun b => nan_leb_l (NF S754_nan) b eq_refl). assert (N4 := fun b => nan_leb_r (NF S754_nan) b eq_refl).
  unfold cc_ltgt. rewrite W. destruct lt, lte, gt, gte; rewrite ?N1, ?N2, ?N3, ?N4; cbn [orb andb negb throw_unless];
    try match goal with |- (if ?b then _ else _) = _ => destruct b end; reflexivity.
Qed.

Lemma lit_same k r c : cc_num_ok cl k r -> (n_const r = Some c \/ In c (n_in r) \/ In c (n_not_in r)) -> cc_lit k c = c.
Proof.
  intros (_ & H & _) Hc. destruct k; try reflexivity. destruct c as [z|f]; [reflexivity|]. cbn. now rewrite (H eq_refl f Hc).
Qed.
Lemma map_same {A} (f : A -> A) l : (forall x, In x l -> f x = x) -> map f l = l.
Proof. intros H. rewrite <- (map_id l) at 2. now apply map_ext_in. Qed.

Lemma num_zero_cc n : cc_zero n = true <-> nzero n.
Proof.
  rewrite <- num_zero_b_spec. destruct n as [z|[]]; cbn; try reflexivity; destruct z; reflexivity.
Qed.

Lemma cc_num_says k r n : num_of_kind k n = true -> cc_num_ok cl k r -> check_num r = true -> (n_in r <> [] \/ n_not_in r <> [] -> ~ nan n) ->
  says (cc_num cl k r n) (num_meaning r n).
Proof.
  intros K J C NN. unfold cc_num, num_meaning. assert (J' := J). destruct J' as (Jc & _ & Jb).
  assert (NC := proj1 (check_num_ok r) C).
  apply says_ignore; [apply num_zero_cc|].
  cbn [in_order]. apply says_seq; [|intros _; apply says_seq].
  - apply says_on. intros c Hc. rewrite (lit_same k r c) by auto. apply num_eqb_spec.
  - destruct (is_nan_dec n) as [Nn|Nn].
    + rewrite ltgt_nan by exact Nn. left. auto.
    + eapply says_iff; [|apply (says_ltgt _ _ _ _ _ nlt neq)].
      * split; auto. intros [X|X]; [contradiction|exact X].
      * intros x Hx. assert (Cx := Jc x ltac:(clear - Hx; tauto)). destruct Cx as [Kx Vx].
        destruct (wide_cmp k n x K Kx) as (-> & -> & -> & ->); [intros -> f ->; apply Jb; auto|].
        rewrite !num_ltb_spec, !num_leb_spec.
        assert (Tr := trichotomy n x (kinds_same k n x K Kx) Nn (const_nan k x (conj Kx Vx))).
        assert (S1 := neq_sym n x). assert (S2 := neq_sym x n). clear - Tr S1 S2. tauto.
      * intros a b _ _. apply num_ltb_spec.
      * intros [H1 H2]. apply NC. now apply lt_with_lte.
      * intros [H1 H2]. apply NC. now apply gt_with_gte.
  - intros _. rewrite andthen_passes. apply says_cc_lists.
    + rewrite map_same by (intros x Hx; apply (lit_same k r); auto).
      destruct (n_in r) as [|c0 t0] eqn:E; [cbn; rewrite Exists_nil; split; [discriminate|contradiction]|]. rewrite <- E in *.
      apply set_find_num; [apply NN; left; rewrite E; discriminate|]. intros c Hc. assert (X := Jc c ltac:(clear - Hc; tauto)).
      split; [eapply kinds_same; [exact K|apply X]|eapply const_nan; exact X].
    + rewrite map_same by (intros x Hx; apply (lit_same k r); auto).
      destruct (n_not_in r) as [|c0 t0] eqn:E; [cbn; rewrite Exists_nil; split; [discriminate|contradiction]|]. rewrite <- E in *.
      apply set_find_num; [apply NN; right; rewrite E; discriminate|]. intros c Hc. assert (X := Jc c ltac:(clear - Hc; tauto)).
      split; [eapply kinds_same; [exact K|apply X]|eapply const_nan; exact X].
    + destruct (n_in r) eqn:E1; auto. destruct (n_not_in r) eqn:E2; auto. exfalso.
      unfold check_num, check_nums in C. rewrite E1, E2 in C. cbn in C. rewrite ?andb_false_r in C. discriminate.
Qed.
End NumSays.

(** ** Strings and bytes *)
Lemma cc_bool_says c b : says (cc_bool c b) (forall x, c = Some x -> b = x).
Proof. apply says_on. intros x _. apply Bool.eqb_true_iff. Qed.

Lemma texts_in s l : (forall c, In c l -> ~ In 0%N c) -> existsb (bytes_eqb s) (map clit l) = true <-> Exists (fun x => s = x) l.
Proof.
  intros H. rewrite map_same by (intros c Hc; apply clit_same; auto). rewrite existsb_exists, Exists_exists.
  split; intros (c & Hc & E); exists c; split; auto; now apply bytes_eqb_eq.
Qed.
Lemma says_texts s l nl : (forall c, In c l \/ In c nl -> ~ In 0%N c) -> l = [] \/ nl = [] ->
  says (cc_lists (fun l => existsb (bytes_eqb s) (map clit l)) l nl) (listed (fun x => s = x) l nl).
Proof. intros H D. apply says_cc_lists; auto; apply texts_in; auto. Qed.

Lemma says_cc_nonempty o t (P : bytes -> Prop) : (forall a, o = Some a -> a <> [] -> t a = true <-> P a) ->
  says (cc_nonempty o (fun a => throw_unless (t a))) (forall a, o = Some a -> a <> [] -> P a).
Proof.
  intros H. destruct o as [[|x a]|]; cbn [cc_nonempty]; try (left; split; auto; congruence).
  eapply says_iff; [|apply says_throw, (H (x :: a) eq_refl); discriminate]. split; [intros K b [= <-] _; exact K|intros K; apply K; auto; discriminate].
Qed.
Lemma nonempty_all o (P : bytes -> Prop) : P [] -> (forall a, o = Some a -> a <> [] -> P a) <-> (forall a, o = Some a -> P a).
Proof. intros E. split; [intros H [|x a] Ea; [exact E|apply H; auto; discriminate]|auto]. Qed.

(** Lengths that the checker lets through. *)
Lemma says_len n len mn mx (C : N -> Prop) : (len <> None \/ mn <> None \/ mx <> None -> forall k, C k <-> n = k) ->
  says (cc_len n len mn mx)
    ((forall k, len = Some k -> C k) /\ (forall a, len = None -> mn = Some a -> exists k, C k /\ (a <= k)%N) /\
     (forall b, len = None -> mx = Some b -> exists k, C k /\ (k <= b)%N)).
Proof.
  intros H. destruct len as [l|], mn as [a|], mx as [b|]; try (apply says_cc_len, H; (left; discriminate) || (right; left; discriminate) || (right; right; discriminate)).
  left. split; auto. repeat split; discriminate.
Qed.
Lemma len_only (len mn mx : option N) (P Q R : N -> Prop) : (len <> None -> mn = None /\ mx = None) ->
  ((forall k, len = Some k -> P k) /\ (forall a, len = None -> mn = Some a -> Q a) /\ (forall b, len = None -> mx = Some b -> R b)) <->
  ((forall k, len = Some k -> P k) /\ (forall a, mn = Some a -> Q a) /\ (forall b, mx = Some b -> R b)).
Proof.
  intros H. split; intros (A & B & D); (split; [exact A|]); split.
  - intros a Ea. apply B; auto. destruct len; auto. destruct H; congruence.
  - intros a Ea. apply D; auto. destruct len; auto. destruct H; congruence.
  - auto.
  - auto.
Qed.

Section Rules.
Variable orc : oracles.
Variable cl : cc_libs.

Lemma wk_says w s : is_bytes s = true -> (forall w', w = Some w' -> cc_formats_agree cl orc w' s) ->
  w <> Some (WEmail true) -> w <> Some (WUri true) -> w <> Some (WUriRef true) ->
  says (cc_well_known cl w s) (forall w', w = Some w' -> (forall k, w' <> WRegex k) -> format_meaning orc w' true s).
Proof.
  intros B F N1 N2 N3.
  assert (H : forall x P, (x = true <-> P) -> ascii s -> cc_is_hostname s = true <-> hostname s).
  { intros x P _ A. rewrite hostname_ascii by exact A. apply cc_is_hostname_spec. eapply Forall_impl; [|exact A]. cbn. intros; lia. }
  specialize (H true True ltac:(tauto)).
  destruct w as [w|]; [|left; split; auto; discriminate]. specialize (F w eq_refl).
  eapply says_iff with (P := (forall k, w <> WRegex k) -> format_meaning orc w true s); [split; [intros X w' [= <-]; exact X|auto]|].
  destruct w as [b|b|b|b|b|b|b|b|b|k]; try (destruct b; [|left; split; [reflexivity|intros _; cbn; discriminate]]).
  all: try congruence.
  all: try (left; split; [reflexivity|intros X; exfalso; eapply X; reflexivity]).
  all: cbn [cc_well_known format_meaning cc_formats_agree] in *.
  all: match goal with |- says _ (_ -> true = true -> ?P) =>
    apply (says_iff _ P); [split; [intros X _ _; exact X|intros X; apply X; [discriminate|reflexivity]]|]; apply says_throw end.
  - apply H. exact F.
  - destruct F as [F1 F2]. unfold cc_is_ip, cc_is_ipv4, cc_is_ipv6. rewrite (clit_same s F1 : upto_nul s = s), orb_true_iff. exact F2.
  - destruct F as [F1 F2]. unfold cc_is_ipv4. rewrite (clit_same s F1 : upto_nul s = s). exact F2.
  - destruct F as [F1 F2]. unfold cc_is_ipv6. rewrite (clit_same s F1 : upto_nul s = s). exact F2.
  - destruct F as (F0 & F1 & F2). unfold cc_is_ip, cc_is_ipv4, cc_is_ipv6.
    rewrite (clit_same s F1 : upto_nul s = s), !orb_true_iff, F2, H by auto. reflexivity.
  - apply cc_is_uuid_spec.
Qed.

Lemma cc_string_says r s : cc_str_ok r -> is_bytes s = true -> s_in r = [] \/ s_not_in r = [] ->
  check_len (s_len r) (s_min_len r) (s_max_len r) = true -> check_len (s_len_bytes r) (s_min_bytes r) (s_max_bytes r) = true ->
  cc_ruled cl orc (RString r) (VStr s) -> says (cc_string cl r s) (str_flat orc r s).
Proof.
  intros (JT & JP & JL & W1 & W2 & W3) B D L1 L2 (Vs & Pat & Fmt). unfold cc_string, str_flat.
  apply says_ignore; [apply is_nil_true|].
  assert (U : forall c, _ -> ~ In 0%N c) by (intros c Hc; exact (text_no_nul c (JT c Hc))).
  assert (X : forall len mn mx : option N, check_len len mn mx = true -> len <> None -> mn = None /\ mx = None).
  { intros [l|] [a|] [b|]; cbn; intros; split; try congruence; discriminate. }
  cbn [in_order]. apply says_seq; [apply says_on; intros c Hc; rewrite clit_same by (apply U; auto); apply bytes_eqb_eq|intros _].
  apply says_seq; [apply says_texts; auto; intros; apply U; tauto|intros _].
  assert (C1 := says_len (cc_utf8_len s) (s_len r) (s_min_len r) (s_max_len r) (chars_count s)
    ltac:(intros Q k; rewrite (cc_utf8_len_count s k (Vs Q)); reflexivity)).
  assert (C2 := says_len (blen s) (s_len_bytes r) (s_min_bytes r) (s_max_bytes r) (bytes_count s) ltac:(reflexivity)).
  eapply says_iff in C1; [|apply len_only; apply X; exact L1]. eapply says_iff in C2; [|apply len_only; apply X; exact L2].
  eapply says_iff.
  2:{ apply says_seq; [exact C1|intros _]. apply says_seq; [exact C2|intros _].
      apply says_seq; [apply (says_on _ _ (starts_with s)); intros p Ep; rewrite clit_same by (apply U; auto); apply cc_is_prefix_spec|intros _].
      apply says_seq; [apply (says_on _ _ (ends_with s)); intros p Ep; rewrite clit_same by (apply U; auto); apply cc_is_suffix_spec|intros _].
      apply says_seq; [apply (says_on _ _ (has_inside s)); intros p Ep; rewrite clit_same by (apply U; auto); apply cc_contains_spec|intros _].
      apply says_seq; [apply (says_on _ _ (fun p => ~ has_inside s p)); intros p Ep; rewrite clit_same by (apply U; tauto);
        rewrite negb_true_iff, <- not_true_iff_false, cc_contains_spec; reflexivity|intros _].
      apply says_seq; [apply (says_on _ _ (fun p => o_match orc p s = true)); intros p Ep; rewrite Pat; auto; reflexivity|intros _].
      rewrite andthen_passes. apply (wk_says (s_wk r) s); auto. }
  tauto.
Qed.

Lemma cc_bytes_says r s : cc_byt_ok r -> b_in r = [] \/ b_not_in r = [] -> cc_ruled cl orc (RBytes r) (VByt s) ->
  says (cc_bytes cl r s) (byt_meaning orc r s).
Proof.
  intros (JT & JP & JL & W1 & W2 & W3) D Pat. unfold cc_bytes, byt_meaning. apply says_ignore; [apply is_nil_true|].
  assert (U : forall c, _ -> ~ In 0%N c) by (intros c Hc; exact (JT c Hc)).
  assert (C := says_len (blen s) (b_len r) (b_min_len r) (b_max_len r) (bytes_count s) ltac:(reflexivity)).
  assert (W : says match b_wk r with Some (BIp true) | Some (BIpv4 true) | Some (BIpv6 true) => Unimplemented | _ => Passes end
     ((b_wk r = Some (BIp true) -> ip_bytes s) /\ (b_wk r = Some (BIpv4 true) -> ip4_bytes s) /\ (b_wk r = Some (BIpv6 true) -> ip_bytes s /\ ~ ip4_bytes s))).
  { destruct (b_wk r) as [[[]|[]|[]]|]; try congruence; left; (split; [reflexivity|]); repeat split; discriminate. }
  eapply says_iff.
  2:{ cbn [in_order].
      apply says_seq; [apply (says_cc_nonempty _ _ (fun c => s = c)); intros c Hc _; rewrite clit_same by (apply U; auto); apply bytes_eqb_eq|intros _].
      apply says_seq; [apply (says_texts s (b_in r) (b_not_in r)); [intros; apply U; tauto|exact D]|intros _].
      apply says_seq; [exact C|intros _].
      apply says_seq; [apply (says_cc_nonempty _ _ (starts_with s)); intros p Ep _; rewrite clit_same by (apply U; auto); apply cc_is_prefix_spec|intros _].
      apply says_seq; [apply (says_cc_nonempty _ _ (ends_with s)); intros p Ep _; rewrite clit_same by (apply U; auto); apply cc_is_suffix_spec|intros _].
      apply says_seq; [apply (says_cc_nonempty _ _ (has_inside s)); intros p Ep _; rewrite clit_same by (apply U; auto); apply cc_contains_spec|intros _].
      apply says_seq; [apply (says_on _ _ (fun p => o_match orc p s = true)); intros p Ep; rewrite (Pat p Ep); reflexivity|intros _].
      rewrite andthen_passes. exact W. }
  rewrite (nonempty_all (b_prefix r) (starts_with s)), (nonempty_all (b_suffix r) (ends_with s)), (nonempty_all (b_contains r) (has_inside s));
    [tauto|exists [], s; reflexivity|exists s; now rewrite app_nil_r|exists s; reflexivity].
Qed.
End Rules.

(** ** Enums, Any and durations *)
Lemma set_find_z z l : set_find Z.ltb z l = true <-> Exists (fun x => z = x) l.
Proof.
  unfold set_find. rewrite existsb_exists, Exists_exists. split; intros (c & Hc & E); exists c; split; auto; lia.
Qed.
Lemma cc_enum_says sc e r z : e_in r = [] \/ e_not_in r = [] -> says (cc_enum sc e r z) (enum_meaning sc e r z).
Proof.
  intros D. unfold cc_enum, enum_meaning. cbn [in_order]. apply says_seq; [apply says_on; intros c _; apply Z.eqb_eq|intros _].
  apply says_seq; [apply says_cc_lists; auto; apply set_find_z|intros _]. rewrite andthen_passes.
  apply says_getb. intros _. apply says_throw. unfold cc_enum_valid, defined. destruct (find_enum sc e) as [d|].
  - rewrite existsb_exists. split.
    + intros (x & Hx & E). apply Z.eqb_eq in E. subst. eauto.
    + intros (d' & [= <-] & H). exists z. split; auto. apply Z.eqb_refl.
  - split; [discriminate|]. intros (d' & E & _). discriminate.
Qed.

Lemma cc_required_says {A} b (o : option A) : says (cc_required b (is_some o)) (b = Some true -> o <> None).
Proof. apply says_getb. intros _. apply says_throw. destruct o; cbn; split; congruence. Qed.

Lemma cc_any_says r o : cc_any_ok r -> a_in r = [] \/ a_not_in r = [] -> says (cc_any r o) (any_meaning r o).
Proof.
  intros J D. unfold cc_any, any_meaning. apply says_seq; [apply cc_required_says|intros _]. apply says_some. intros u _.
  apply says_texts; auto. intros c Hc. apply text_no_nul, J. tauto.
Qed.

(** Clamping does not matter next to a constant of less than 2^63 nanoseconds. *)
Lemma clamp_cc d c : cc_time c ->
  ((go_duration d < go_duration c)%Z <-> (nanos d < nanos c)%Z) /\ ((go_duration c < go_duration d)%Z <-> (nanos c < nanos d)%Z) /\
  (go_duration d = go_duration c <-> nanos d = nanos c).
Proof. unfold cc_time, go_duration, clamp64. intros J. change (2^63)%Z with 9223372036854775808%Z in *. lia. Qed.

Lemma cc_dur_less_iff a b : valid_duration a -> valid_duration b -> cc_dur_less a b = true <-> (nanos a < nanos b)%Z.
Proof.
  unfold cc_dur_less, valid_duration, nanos. destruct a as [s n], b as [s' n']. cbn [sn_s sn_n]. intros V V'.
  destruct (Z.eqb_spec s s'); lia.
Qed.
Lemma cc_dur_eq_iff a b : valid_duration a -> valid_duration b -> cc_dur_eq a b = true <-> nanos a = nanos b.
Proof. unfold cc_dur_eq, valid_duration, nanos. destruct a as [s n], b as [s' n']. cbn [sn_s sn_n]. intros V V'. lia. Qed.
Lemma cc_dur_range_iff d : ~ ((sn_s d < 0 < sn_n d)%Z \/ (sn_n d < 0 < sn_s d)%Z) -> cc_dur_range d = true <-> valid_duration d.
Proof. unfold cc_dur_range, valid_duration. intros H. rewrite negb_true_iff, <- not_true_iff_false. lia. Qed.
Lemma negb_iff b P : (b = true <-> P) -> negb b = true <-> ~ P.
Proof. intros <-. rewrite negb_true_iff, not_true_iff_false. reflexivity. Qed.
Lemma constrained_iff r :
  negb (is_nil (d_in r)) || negb (is_nil (d_not_in r)) || is_some (d_lt r) || is_some (d_lte r) ||
  is_some (d_gt r) || is_some (d_gte r) || is_some (d_const r) = true <-> dur_constrained r.
Proof.
  unfold dur_constrained. rewrite !orb_true_iff.
  assert (L : forall l : list sn, negb (is_nil l) = true <-> l <> []) by (intros []; cbn; split; congruence).
  assert (O : forall o : option sn, is_some o = true <-> o <> None) by (intros []; cbn; split; congruence).
  rewrite !L, !O. tauto.
Qed.

Lemma cc_duration_says r o : cc_dur_ok r -> check_duration r = true ->
  (forall d, o = Some d -> ~ ((sn_s d < 0 < sn_n d)%Z \/ (sn_n d < 0 < sn_s d)%Z)) ->
  says (cc_duration r o) (dur_meaning r o).
Proof.
  intros J C Vo. unfold cc_duration, dur_meaning.
  destruct (check_duration_valid r C) as (V1 & V2 & V3). rewrite Forall_forall in V2, V3.
  assert (NC := check_duration_sound r C).
  apply says_seq; [apply cc_required_says|intros _].
  destruct (_ || _) eqn:E; cbn [only_if].
  2:{ left. split; auto. intros d _ Hc. exfalso. apply constrained_iff in Hc. congruence. }
  apply constrained_iff in E.
  apply (says_some o) with (P := fun d => dur_constrained r -> _). intros d Ed. specialize (Vo d Ed).
  match goal with |- says _ (_ -> ?X) => apply (says_iff _ X); [tauto|] end.
  cbn [in_order]. apply says_seq; [apply says_throw, cc_dur_range_iff, Vo|intros Vd].
  assert (Vc : forall c, (d_const r = Some c \/ d_lt r = Some c \/ d_lte r = Some c \/ d_gt r = Some c \/ d_gte r = Some c \/
             In c (d_in r) \/ In c (d_not_in r)) -> valid_duration c).
  { intros c Hc. destruct Hc as [H|[H|[H|[H|[H|[H|H]]]]]]; auto; apply V1; tauto. }
  assert (Near : forall c, _ -> _) by (intros c Hc; exact (clamp_cc d c (J c Hc))).
  apply says_seq; [|intros _; apply says_seq; [|intros _]].
  - apply says_on. intros c Hc. rewrite (cc_dur_eq_iff d c); auto. symmetry. apply Near. auto.
  - apply says_ltgt.
    + intros x Hx. assert (Hx' : valid_duration x) by (apply Vc; tauto).
      destruct (Near x ltac:(tauto)) as (A1 & A2 & A3). rewrite !(negb_iff _ _ (cc_dur_less_iff _ _ Vd Hx')), !(negb_iff _ _ (cc_dur_less_iff _ _ Hx' Vd)).
      rewrite !(cc_dur_less_iff _ _ Vd Hx'), !(cc_dur_less_iff _ _ Hx' Vd), A1, A2, A3.
      assert (A4 : go_duration x = go_duration d <-> nanos x = nanos d) by (split; intros Q; symmetry; apply A3; auto). rewrite A4.
      clear. lia.
    + intros a b Ha Hb. rewrite !as_duration_spec by (apply Vc; tauto). apply Z.ltb_lt.
    + intros [H1 H2]. apply NC, dc_range. now apply lt_with_lte.
    + intros [H1 H2]. apply NC, dc_range. now apply gt_with_gte.
  - rewrite andthen_passes. apply says_cc_lists.
    3:{ unfold check_duration, check_nums in C. rewrite ?andb_true_iff in C. apply ins_excl. clear - C. tauto. }
    all: unfold set_find; rewrite existsb_exists, Exists_exists; split; intros (c & Hc & Q); exists c; (split; [exact Hc|]).
    all: assert (Hv : valid_duration c) by (apply Vc; tauto); destruct (Near c ltac:(tauto)) as (A1 & A2 & A3).
    all: assert (B1 := cc_dur_less_iff d c Vd Hv); assert (B2 := cc_dur_less_iff c d Hv Vd).
    all: destruct (cc_dur_less d c), (cc_dur_less c d); cbn in *; try discriminate; lia || (apply A3; lia).
Qed.
