(** Validation in Java agrees with the rules, on the schemas and values of JavaSpec.v. *)
From Coq Require Import Lia Floats.SpecFloat.
From Verif Require Import Base Utf8 Num Rules Types Time Iface Checker GoSem Spec Meaning Conflict Wt LitSpec BaseFacts Utf8Facts NumFacts TimeFacts
  ExecFacts ExecRule ExecField ExecMsg Main MeaningFacts ConflictFacts Outcome Values Says Utf16Facts LangFacts Java JavaSpec.

(** ** Generic checks *)
Lemma andthen_assoc a b c : andthen a (andthen b c) = andthen (andthen a b) c.
Proof. destruct a, b; reflexivity. Qed.
Lemma andthen_passes a : andthen a Passes = a.
Proof. destruct a; reflexivity. Qed.

Lemma says_getb (o : option bool) a P : (o = Some true -> says a P) -> says (only_if (getb o) a) (o = Some true -> P).
Proof. intros H. eapply says_iff; [|apply says_if]; [now rewrite getb_true|]. rewrite getb_true. exact H. Qed.

Section Generic.
Context {A : Type}.
Variable equals : A -> A -> bool.
Variable EQ : A -> A -> Prop.

Lemma says_const v o : (forall c, o = Some c -> equals v c = true <-> EQ v c) ->
  says (on_some o (fun c => j_constant equals v (Some c))) (forall c, o = Some c -> EQ v c).
Proof.
  intros H. apply says_some. intros c Ec. unfold j_constant, jequals. specialize (H c Ec).
  destruct (equals v c); [left|right]; intuition; discriminate.
Qed.

Lemma in_some v l : (forall c, In c l -> equals v c = true <-> EQ v c) ->
  existsb (jequals equals v) (map Some l) = true <-> Exists (EQ v) l.
Proof.
  intros H. induction l as [|c t IH]; cbn [map existsb]; [rewrite Exists_nil; split; [discriminate|contradiction]|].
  rewrite orb_true_iff, Exists_cons, IH; [|intros; apply H; right; auto]. unfold jequals at 1. rewrite H; [reflexivity|left; auto].
Qed.

Lemma says_listed v l nl : (forall c, In c l \/ In c nl -> equals v c = true <-> EQ v c) ->
  says (andthen (only_if (negb (is_nil l)) (j_in equals v (map Some l)))
                (only_if (negb (is_nil nl)) (j_not_in equals v (map Some nl)))) (listed (EQ v) l nl).
Proof.
  intros H. unfold listed.
  assert (K1 := in_some v l ltac:(intros; apply H; auto)). assert (K2 := in_some v nl ltac:(intros; apply H; auto)).
  apply says_seq.
  - unfold j_in. destruct l as [|c t]; [left; split; auto; congruence|].
    eapply says_iff with (P := Exists (EQ v) (c :: t)); [split; auto; intros X; apply X; discriminate|]. cbn [negb is_nil only_if]. now apply says_throw.
  - intros _. unfold j_not_in. destruct nl as [|c t]; [left; split; auto; rewrite Exists_nil; auto|].
    cbn [negb is_nil only_if]. apply says_throw. rewrite negb_true_iff, <- not_true_iff_false, K2. reflexivity.
Qed.
End Generic.

Section Bounds.
Context {A : Type}.
Variable compare : A -> A -> option comparison.
Variable LT EQ : A -> A -> Prop.
Variable good : A -> Prop.
Hypothesis faithful : forall a b, good a -> good b ->
  match compare a b with
  | Some Lt => LT a b /\ ~ EQ a b /\ ~ LT b a
  | Some Eq => EQ a b /\ ~ LT a b /\ ~ LT b a
  | Some Gt => LT b a /\ ~ LT a b /\ ~ EQ a b
  | None => False
  end.
Hypothesis EQ_sym : forall a b, EQ a b -> EQ b a.

Local Ltac by_cases := cbn; first [solve [left; split; [reflexivity|tauto]]|solve [right; split; [reflexivity|tauto]]].

Lemma says_bounds v lt lte gt gte : good v ->
  (forall x, (lt = Some x \/ lte = Some x \/ gt = Some x \/ gte = Some x) -> good x) ->
  ~ (lt <> None /\ lte <> None) -> ~ (gt <> None /\ gte <> None) ->
  (forall a b, (lt = Some a \/ lte = Some a) -> (gt = Some b \/ gte = Some b) -> ~ EQ b a) ->
  says (j_bounds compare v lt lte gt gte) (within_range LT EQ (bnd lt lte) (bnd gt gte) v).
Proof.
  intros Gv G N1 N2 NE.
  assert (X1 : forall u x, compare v x = u -> good x -> match u with
    | Some Lt => LT v x /\ ~ EQ v x /\ ~ LT x v /\ ~ EQ x v
    | Some Eq => EQ v x /\ ~ LT v x /\ ~ LT x v /\ EQ x v
    | Some Gt => LT x v /\ ~ LT v x /\ ~ EQ v x /\ ~ EQ x v
    | None => False end).
  { intros u x <- Gx. assert (F := faithful v x Gv Gx). assert (S1 := EQ_sym v x). assert (S2 := EQ_sym x v).
    clear - F S1 S2. destruct (compare v x) as [[]|]; tauto. }
  destruct lt as [a|], lte as [a'|]; try (exfalso; apply N1; split; congruence);
    destruct gt as [b|], gte as [b'|]; try (exfalso; apply N2; split; congruence);
    unfold j_bounds, j_range, j_between, j_outside, between_p, j_less_than, j_less_than_or_equal, j_greater_than, j_greater_than_or_equal, j_cmp;
    cbn [is_some orb andb first negb bnd within_range bval below above in_order on_some].
  1-2,4-5: match goal with |- context [compare ?b ?a] => 
     assert (F := faithful b a ltac:(apply G; auto) ltac:(apply G; auto));
     assert (Na := NE a b ltac:(auto) ltac:(auto));
     assert (Xa := X1 _ a eq_refl ltac:(apply G; auto)); assert (Xb := X1 _ b eq_refl ltac:(apply G; auto));
     clear - F Na Xa Xb; destruct (compare b a) as [[]|]; try tauto;
     destruct (compare v b) as [[]|]; try tauto; destruct (compare v a) as [[]|]; try tauto; by_cases end.
  1,2,3,4: match goal with |- context [compare ?v ?a] => 
     assert (Xa := X1 _ a eq_refl ltac:(apply G; auto)); clear - Xa; destruct (compare v a) as [[]|]; try tauto; by_cases end.
  left. split; reflexivity.
Qed.

Lemma says_lt a b : good a -> good b -> says (j_less_than compare a b) (LT a b).
Proof. intros Ga Gb. assert (F := faithful a b Ga Gb). unfold j_less_than, j_cmp. destruct (compare a b) as [[]|]; try tauto; by_cases. Qed.
Lemma says_gt a b : good a -> good b -> says (j_greater_than compare a b) (LT b a).
Proof. intros Ga Gb. assert (F := faithful a b Ga Gb). unfold j_greater_than, j_cmp. destruct (compare a b) as [[]|]; try tauto; by_cases. Qed.
End Bounds.

(** ** Numbers *)
Definition good_num (k : numkind) (n : num) : Prop := num_of_kind k n = true /\ java_number k n.

Lemma const_good k n : java_const k n -> good_num k n.
Proof.
  intros [H1 H2]. split; auto. destruct n as [z|f]; cbn; auto. destruct H2 as [->|(s & m & e & ->)]; split; discriminate.
Qed.
Lemma half_same k n : good_num k n -> to_java k n = n.
Proof.
  intros [H1 H2]. destruct n as [z|f]; [|destruct k; reflexivity]. cbn in H1. apply andb_true_iff in H1. destruct H1 as [_ H1].
  destruct k; cbn in *; try reflexivity; unfold wrap32, wrap64; f_equal; rewrite Z.mod_small; lia.
Qed.
Lemma good_kinds k a b : good_num k a -> good_num k b -> same_kind a b /\ ~ nan a /\ ~ nan b.
Proof.
  intros [A1 A2] [B1 B2]. unfold nan. destruct a as [x|x], b as [y|y]; cbn in *; repeat split; try discriminate; try (intros [= ->]; tauto);
    destruct (is_float k); cbn in *; discriminate.
Qed.
Lemma jn_faithful k a b : good_num k a -> good_num k b ->
  match jn_compare a b with
  | Some Lt => nlt a b /\ ~ neq a b /\ ~ nlt b a
  | Some Eq => neq a b /\ ~ nlt a b /\ ~ nlt b a
  | Some Gt => nlt b a /\ ~ nlt a b /\ ~ neq a b
  | None => False
  end.
Proof.
  intros Ga Gb. destruct (good_kinds _ _ _ Ga Gb) as (S & N1 & N2). assert (T := trichotomy a b S N1 N2).
  destruct a as [x|x], b as [y|y]; cbn in S; try contradiction; cbn [jn_compare].
  - cbn in *. destruct (Z.compare_spec x y); lia.
  - assert (E : SFcompare x y = Some (jf_compare x y)).
    { destruct Ga as [_ [A1 A2]], Gb as [_ [B1 B2]].
      destruct (SFcompare x y) as [c|] eqn:E; [|apply SFcompare_none in E; tauto].
      f_equal. unfold jf_compare. rewrite E. destruct x as [[]|[]| |[]], y as [[]|[]| |[]]; try congruence; cbn in E; congruence. }
    cbn in *. rewrite (SFcompare_swap x y), E in *. destruct (jf_compare x y); cbn in *; intuition congruence.
Qed.
Lemma jn_equals_iff k a b : good_num k a -> good_num k b -> jn_equals a b = true <-> neq a b.
Proof.
  intros Ga Gb. assert (F := jn_faithful k a b Ga Gb). unfold jn_equals. destruct (jn_compare a b) as [[]|]; intuition; discriminate.
Qed.

Lemma num_says k r n : good_num k n -> java_num k r -> check_num r = true -> says (j_num k r n) (num_meaning r n).
Proof.
  intros G J C. unfold j_num, num_meaning. rewrite (half_same k n G).
  assert (Gc : forall c, _ -> good_num k c) by (intros c Hc; exact (const_good _ _ (J c Hc))).
  apply check_num_ok in C.
  apply says_ignore.
  { rewrite <- num_zero_b_spec. destruct n as [z|[]]; cbn; try tauto; destruct z; cbn; split; auto; discriminate. }
  cbn [in_order]. apply says_seq; [|intros _; apply says_seq].
  - apply says_const. intros c Hc. apply (jn_equals_iff k); auto.
  - eapply says_iff; [|apply (says_bounds jn_compare nlt neq (good_num k) (jn_faithful k) neq_sym)].
    + split; auto. intros [N|H]; auto. destruct (good_kinds _ _ _ G G). tauto.
    + exact G.
    + intros x Hx. apply Gc. tauto.
    + intros [H1 H2]. apply C. now apply lt_with_lte.
    + intros [H1 H2]. apply C. now apply gt_with_gte.
    + intros a b Ha Hb E. apply C. apply (equal_bounds _ _ _ _ _ _ _ _ a b); auto. now apply neq_sym.
  - intros _. rewrite andthen_passes. apply (says_listed jn_equals neq).
    intros c Hc. apply (jn_equals_iff k); auto. apply Gc. tauto.
Qed.

(** ** Booleans, strings, bytes *)
Lemma bool_says c b : says (j_bool c b) (forall x, c = Some x -> b = x).
Proof. apply (says_const Bool.eqb (@eq bool)). intros x _. apply Bool.eqb_true_iff. Qed.

Lemma says_on {A} (o : option A) (t : A -> bool) (P : A -> Prop) : (forall a, o = Some a -> t a = true <-> P a) ->
  says (on_some o (fun a => throw_unless (t a))) (forall a, o = Some a -> P a).
Proof. intros H. apply says_some. intros a Ea. apply says_throw. auto. Qed.

Lemma ex_count (c : N -> Prop) k (P : N -> Prop) : (forall n, c n <-> k = n) -> (exists n, c n /\ P n) <-> P k.
Proof. intros H. split; [intros (n & Hn & Pn); apply H in Hn; now subst|intros K; exists k; split; auto; now apply H]. Qed.

Lemma jstrings_in s l : valid_utf8 s -> (forall c, In c l -> valid_utf8 c) ->
  existsb (jequals bytes_eqb (jstring s)) (map (fun c => Some (jstring c)) l) = true <-> Exists (fun x => s = x) l.
Proof.
  intros Vs Vl. induction l as [|c t IH]; cbn [map existsb]; [rewrite Exists_nil; split; [discriminate|contradiction]|].
  rewrite orb_true_iff, Exists_cons, IH; [|intros; apply Vl; right; auto]. cbn [jequals]. rewrite jstring_eqb; auto; [reflexivity|apply Vl; left; auto].
Qed.
Lemma jstrings_listed s l nl : valid_utf8 s -> (forall c, In c l \/ In c nl -> valid_utf8 c) ->
  says (andthen (only_if (negb (is_nil l)) (j_in bytes_eqb (jstring s) (map (fun c => Some (jstring c)) l)))
                (only_if (negb (is_nil nl)) (j_not_in bytes_eqb (jstring s) (map (fun c => Some (jstring c)) nl))))
    (listed (fun x => s = x) l nl).
Proof.
  intros Vs H. assert (K1 := jstrings_in s l Vs ltac:(intros; apply H; auto)). assert (K2 := jstrings_in s nl Vs ltac:(intros; apply H; auto)).
  apply says_seq.
  - unfold j_in. destruct l as [|c t]; [left; split; auto; congruence|].
    eapply says_iff with (P := Exists (fun x => s = x) (c :: t)); [split; auto; intros X; apply X; discriminate|]. cbn [negb is_nil only_if]. now apply says_throw.
  - intros _. unfold j_not_in. destruct nl as [|c t]; [left; split; auto; rewrite Exists_nil; auto|].
    cbn [negb is_nil only_if]. apply says_throw. rewrite negb_true_iff, <- not_true_iff_false, K2. reflexivity.
Qed.

(** *** UUIDs: for all strings *)
Lemma hex_char i c : ~ (i = 8 \/ i = 13 \/ i = 18 \/ i = 23) -> uuid_char i c = true <-> hexdig c.
Proof.
  intros H. unfold uuid_char, hexdig. replace ((i =? 8) || (i =? 13) || (i =? 18) || (i =? 23))%nat with false by lia. lia.
Qed.
Lemma dash_char i c : (i = 8 \/ i = 13 \/ i = 18 \/ i = 23) -> uuid_char i c = true <-> c = 45%N.
Proof.
  intros H. unfold uuid_char. replace ((i =? 8) || (i =? 13) || (i =? 18) || (i =? 23))%nat with true by lia. lia.
Qed.
Lemma uuid_loop_app a b : forall i, uuid_loop i (a ++ b) = uuid_loop i a && uuid_loop (List.length a + i) b.
Proof.
  induction a as [|c a IH]; intros i; [reflexivity|]. cbn [app uuid_loop List.length]. rewrite IH, andb_assoc.
  do 2 f_equal. lia.
Qed.
Lemma uuid_loop_hex i l : (forall j, i <= j < i + List.length l -> ~ (j = 8 \/ j = 13 \/ j = 18 \/ j = 23)) ->
  uuid_loop i l = true <-> Forall hexdig l.
Proof.
  revert i. induction l as [|c l IH]; intros i H; cbn [uuid_loop]; [split; auto|]. cbn [List.length] in H.
  rewrite andb_true_iff, IH, hex_char, Forall_cons_iff; [reflexivity| |]; [apply H; lia|intros; apply H; lia].
Qed.

Lemma uuid_units s : (List.length s = 36 /\ uuid_loop 0 s = true) <-> uuid s.
Proof.
  split.
  - intros [L H].
    assert (T : forall n (l : list N), n <= List.length l -> exists a b, l = a ++ b /\ List.length a = n).
    { intros n l Hl. exists (firstn n l), (skipn n l). split; [now rewrite firstn_skipn|]. rewrite firstn_length. lia. }
    destruct (T 8 s) as (a & s1 & -> & La); [lia|]. rewrite app_length in L.
    destruct (T 1 s1) as (d1 & s2 & -> & L1); [lia|]. rewrite app_length in L.
    destruct (T 4 s2) as (b & s3 & -> & Lb); [lia|]. rewrite app_length in L.
    destruct (T 1 s3) as (d2 & s4 & -> & L2); [lia|]. rewrite app_length in L.
    destruct (T 4 s4) as (c & s5 & -> & Lc); [lia|]. rewrite app_length in L.
    destruct (T 1 s5) as (d3 & s6 & -> & L3); [lia|]. rewrite app_length in L.
    destruct (T 4 s6) as (d & s7 & -> & Ld); [lia|]. rewrite app_length in L.
    destruct (T 1 s7) as (d4 & e & -> & L4); [lia|]. rewrite app_length in L.
    rewrite !uuid_loop_app, !andb_true_iff, La, L1, Lb, L2, Lc, L3, Ld, L4 in H. cbn [Nat.add] in H.
    destruct H as (Ha & H1 & Hb & H2 & Hc & H3 & Hd & H4 & He).
    assert (Q : forall i x, List.length x = 1 -> uuid_loop i x = true -> (i = 8 \/ i = 13 \/ i = 18 \/ i = 23) -> x = [45%N]).
    { intros i [|y [|z x]] Lx Hx Hi; try discriminate. cbn in Hx. rewrite andb_true_r in Hx. apply dash_char in Hx; auto. now subst. }
    rewrite (Q _ _ L1 H1), (Q _ _ L2 H2), (Q _ _ L3 H3), (Q _ _ L4 H4) by auto.
    exists a, b, c, d, e. unfold hexes.
    repeat split; auto; try lia; eapply uuid_loop_hex; try eassumption; intros; lia.
  - intros (a & b & c & d & e & (La & Ha) & (Lb & Hb) & (Lc & Hc) & (Ld & Hd) & (Le & He) & ->).
    split; [rewrite !app_length; cbn [List.length]; lia|].
    rewrite !uuid_loop_app, !andb_true_iff. cbn [List.length]. rewrite La, Lb, Lc, Ld. cbn [Nat.add uuid_loop].
    repeat split; try reflexivity; try (apply uuid_loop_hex; auto; intros; lia).
Qed.

Lemma hexdig_ascii c : hexdig c -> (c < 128)%N.
Proof. unfold hexdig. lia. Qed.
Lemma uuid_ascii s : uuid s -> Forall (fun c => (c < 128)%N) s.
Proof.
  intros (a & b & c & d & e & (La & Ha) & (Lb & Hb) & (Lc & Hc) & (Ld & Hd) & (Le & He) & ->).
  repeat (apply Forall_app; split); try (eapply Forall_impl; [|eassumption]; exact hexdig_ascii); repeat constructor.
Qed.
Lemma is_ascii_forall s : is_ascii s = true <-> Forall (fun c => (c < 128)%N) s.
Proof.
  unfold is_ascii. rewrite forallb_forall, Forall_forall. split; intros H x Hx; specialize (H x Hx); lia.
Qed.
Lemma j_uuid_says s : says (j_uuid (jstring s)) (uuid s).
Proof.
  unfold j_uuid. apply says_throw. rewrite andb_true_iff, Nat.eqb_eq, uuid_units. split.
  - intros U. assert (A := uuid_ascii _ U). apply jstring_ascii in A. now rewrite jstring_of_ascii in U.
  - intros U. rewrite jstring_of_ascii; auto. apply is_ascii_forall. now apply uuid_ascii.
Qed.

Section Rules.
Variable orc : oracles.
Variable jl : java_libs.

Lemma email_loop_plain q l t : ~ In 60%N l -> ~ In 34%N l -> email_loop q (l ++ t) = l ++ email_loop q t.
Proof.
  induction l as [|c l IH]; cbn [app email_loop]; auto. intros A B.
  destruct (N.eqb_spec c 60) as [->|_]; [exfalso; apply A; left; auto|].
  destruct (N.eqb_spec c 34) as [->|_]; [exfalso; apply B; left; auto|].
  rewrite IH; auto; intros K; [apply A|apply B]; right; auto.
Qed.
Lemma jstring_app a b : valid_utf8 a -> jstring (a ++ b) = jstring a ++ jstring b.
Proof.
  intros V. destruct (valid_text a V) as [T E]. unfold jstring. rewrite E at 1. rewrite runes_app_char_list by exact T. apply flat_map_app.
Qed.
Lemma ascii_valid s : Forall (fun c => c < 128)%N s -> valid_utf8 s.
Proof.
  intros A. exists s. split; [eapply Forall_impl; [|exact A]; unfold scalar_value; intros; lia|].
  rewrite <- flat_map_concat_map. induction A as [|c t Hc _ IH]; [reflexivity|]. cbn [flat_map]. rewrite <- IH. unfold utf8_bytes.
  destruct (c <? 128)%N eqn:E; [reflexivity|lia].
Qed.
Lemma email_part_spec s addr : valid_utf8 s -> address_part s addr -> email_part (jstring s) = jstring addr.
Proof.
  intros V [[-> N]|(name & -> & Vn & A & N1 & N2)].
  - unfold email_part. destruct (rev (jstring s)) as [|c t] eqn:E; auto. destruct (N.eqb_spec c 62) as [->|]; auto. exfalso. apply N.
    apply (jstring_suffix s [62%N] V); [apply ascii_valid; repeat constructor|]. exists (rev t). change (jstring [62%N]) with [62%N].
    rewrite <- (rev_involutive (jstring s)), E. reflexivity.
  - rewrite !jstring_app; auto; try (apply ascii_valid; auto; repeat constructor). change (jstring [60%N]) with [60%N]. change (jstring [62%N]) with [62%N].
    rewrite !(jstring_of_ascii addr) by (now apply is_ascii_forall).
    unfold email_part. rewrite !rev_app_distr. cbn [rev app]. rewrite N.eqb_refl, <- app_assoc.
    rewrite email_loop_plain by (rewrite <- in_rev; auto). cbn [app email_loop]. rewrite N.eqb_refl, app_nil_r. apply rev_involutive.
Qed.
Lemma j_ascii_iff s : j_is_ascii (jstring s) = true <-> Forall (fun c => c < 128)%N s.
Proof.
  rewrite <- is_ascii_forall, <- jstring_ascii. unfold j_is_ascii. rewrite forallb_forall, Forall_forall.
  split; intros H x Hx; specialize (H x Hx); lia.
Qed.
Lemma j_wk_says w s : valid_utf8 s -> (forall k, w <> WRegex k) -> (forall b, w <> WUuid b) -> formats_agree orc jl w s ->
  says (j_well_known jl (Some w) (jstring s)) (format_meaning orc w true s).
Proof.
  intros V N1 N2 F. destruct w as [b|b|b|b|b|b|b|b|b|k]; try (exfalso; eapply N1; reflexivity); try (exfalso; eapply N2; reflexivity).
  all: destruct b; [|left; split; auto; cbn; discriminate].
  all: cbn [j_well_known format_meaning formats_agree] in *.
  all: match goal with |- says _ (true = true -> ?P) => apply (says_iff _ P); [tauto|]; apply says_throw end.
  - destruct F as (addr & P & F). now rewrite (email_part_spec s addr V P).
  - rewrite andb_true_iff, j_ascii_iff. exact F.
  - exact F.
  - exact F.
  - exact F.
  - rewrite <- F. destruct (jl_uri jl (jstring s)) as [[]|]; split; congruence.
  - rewrite <- F. destruct (jl_uri jl (jstring s)) as [[]|]; cbn; split; congruence.
  - rewrite orb_true_iff, andb_true_iff, j_ascii_iff. destruct F as [F1 F2]. now rewrite F1, F2.
Qed.

Lemma string_says r s : java_str r -> java_ruled orc jl (RString r) (VStr s) -> says (j_string jl r s) (str_flat orc r s).
Proof.
  intros [JT JL] (Vs & Pat & Fmt). unfold j_string, str_flat.
  apply says_ignore; [rewrite is_nil_true; now apply jstring_nil|].
  assert (U : forall c, _ -> valid_utf8 c) by (intros c Hc; exact (proj1 (JT c Hc))).
  assert (C1 := fun n => jstring_chars s n Vs). assert (C2 := fun n => jstring_bytes s n Vs).
  cbn [in_order]. apply says_seq; [|intros _].
  { apply says_some. intros c Ec. unfold j_constant, jequals.
    assert (K := jstring_eqb s c Vs ltac:(apply U; auto)). destruct (bytes_eqb _ _); [left|right]; intuition; discriminate. }
  rewrite andthen_assoc. apply says_seq; [apply jstrings_listed; auto; intros; apply U; tauto|intros _].
  apply says_seq; [apply says_on; intros; rewrite C1; lia|intros _].
  apply says_seq; [apply says_on; intros n _; rewrite (ex_count _ _ _ C1); lia|intros _].
  apply says_seq; [apply says_on; intros n _; rewrite (ex_count _ _ _ C1); lia|intros _].
  apply says_seq; [apply says_on; intros; rewrite C2; lia|intros _].
  apply says_seq; [apply says_on; intros n _; rewrite (ex_count _ _ _ C2); lia|intros _].
  apply says_seq; [apply says_on; intros n _; rewrite (ex_count _ _ _ C2); lia|intros _].
  assert (Pre : says (on_some (s_prefix r) (fun p => throw_unless (has_prefix (jstring s) (jstring p)))) (forall p, s_prefix r = Some p -> starts_with s p))
    by (apply says_on; intros p Ep; rewrite has_prefix_spec; apply jstring_prefix; auto; apply U; auto).
  assert (Con : says (on_some (s_contains r) (fun p => throw_unless (contains (jstring s) (jstring p)))) (forall p, s_contains r = Some p -> has_inside s p))
    by (apply says_on; intros p Ep; rewrite contains_spec; apply jstring_inside; auto; apply U; auto).
  assert (Nco : says (on_some (s_not_contains r) (fun p => throw_unless (negb (contains (jstring s) (jstring p))))) (forall p, s_not_contains r = Some p -> ~ has_inside s p)).
  { apply says_on; intros p Ep. rewrite negb_true_iff, <- not_true_iff_false, contains_spec, jstring_inside; auto; [reflexivity|]. apply U; tauto. }
  assert (Suf : says (on_some (s_suffix r) (fun p => throw_unless (has_suffix (jstring s) (jstring p)))) (forall p, s_suffix r = Some p -> ends_with s p))
    by (apply says_on; intros p Ep; rewrite has_suffix_spec; apply jstring_suffix; auto; apply U; auto).
  assert (Pt : says (on_some (s_pattern r) (fun p => throw_unless (jl_matches jl p (jstring s)))) (forall p, s_pattern r = Some p -> o_match orc p s = true))
    by (apply says_on; intros p Ep; rewrite Pat; auto; reflexivity).
  assert (Wk : says (j_well_known jl (s_wk r) (jstring s)) (forall w, s_wk r = Some w -> (forall k, w <> WRegex k) -> format_meaning orc w true s)).
  { destruct (s_wk r) as [w|]; [|left; split; auto; discriminate].
    eapply says_iff with (P := (forall k, w <> WRegex k) -> format_meaning orc w true s); [split; [intros H w' [= <-]; exact H|auto]|].
    destruct w as [b|b|b|b|b|b|b|b|b|k].
    10: (left; split; [reflexivity|intros H; exfalso; eapply H; reflexivity]).
    9: { cbn [j_well_known format_meaning]. destruct b; [|left; split; auto; discriminate].
         eapply says_iff; [|apply j_uuid_says]. split; auto. intros H. apply H; auto. discriminate. }
    all: match goal with |- says (j_well_known jl (Some ?w) _) (_ -> ?P) =>
        apply (says_iff _ P); [split; [auto|intros H; apply H; discriminate]|];
        apply j_wk_says; auto; try discriminate; apply Fmt; auto; discriminate end. }
  eapply says_iff.
  2:{ apply says_seq; [exact Pt|intros _]. apply says_seq; [exact Pre|intros _]. apply says_seq; [exact Con|intros _].
      apply says_seq; [exact Nco|intros _]. apply says_seq; [exact Suf|intros _]. apply says_seq; [exact Wk|intros _]. apply says_nil. }
  tauto.
Qed.

Lemma says_nonempty o t (P : bytes -> Prop) : (forall a, o = Some a -> a <> [] -> t a = true <-> P a) ->
  says (on_nonempty o (fun a => throw_unless (t a))) (forall a, o = Some a -> a <> [] -> P a).
Proof.
  intros H. destruct o as [[|x a]|]; cbn [on_nonempty]; try (left; split; auto; congruence).
  eapply says_iff; [|apply says_throw, (H (x :: a) eq_refl); discriminate]. split; [intros K b [= <-] _; exact K|intros K; apply K; auto; discriminate].
Qed.

Lemma bytes_says r s : java_byt r -> java_ruled orc jl (RBytes r) (VByt s) -> says (j_bytes jl r s) (byt_meaning orc r s).
Proof.
  intros [JB JL] (Pat & NM). unfold j_bytes, byt_meaning. apply says_ignore; [apply is_nil_true|].
  assert (BC : forall n, bytes_count s n <-> blen s = n) by reflexivity.
  assert (S1 : says (on_nonempty (b_const r) (fun c => j_constant bytes_eqb s (Some c))) (forall c, b_const r = Some c -> c <> [] -> s = c)).
  { assert (E : forall c, j_constant bytes_eqb s (Some c) = throw_unless (bytes_eqb s c)) by (intros; unfold j_constant, jequals; destruct (bytes_eqb _ _); reflexivity).
    destruct (b_const r) as [[|x a]|]; cbn [on_nonempty]; try (left; split; auto; congruence). rewrite E.
    eapply says_iff; [|apply says_throw, bytes_eqb_eq]. split; [intros K b [= <-] _; exact K|intros K; apply K; auto; discriminate]. }
  assert (S2 : says (on_some (b_len r) (fun n => throw_unless (blen s =? n)%N)) (forall n, b_len r = Some n -> bytes_count s n))
    by (apply says_on; intros; rewrite BC; lia).
  assert (S3 : says (on_some (b_min_len r) (fun n => throw_unless (n <=? blen s)%N)) (forall n, b_len r = None -> b_min_len r = Some n -> exists k, bytes_count s k /\ (n <= k)%N)).
  { eapply says_iff; [|apply (says_on _ _ (fun n => (n <= blen s)%N)); intros; lia]. split.
    - intros H n _ En. apply (ex_count _ _ _ BC). auto.
    - intros H n En. destruct (b_len r) eqn:El; [destruct JB; [discriminate|congruence]|]. apply (ex_count _ _ _ BC). auto. }
  assert (S4 : says (on_some (b_max_len r) (fun n => throw_unless (blen s <=? n)%N)) (forall n, b_len r = None -> b_max_len r = Some n -> exists k, bytes_count s k /\ (k <= n)%N)).
  { eapply says_iff; [|apply (says_on _ _ (fun n => (blen s <= n)%N)); intros; lia]. split.
    - intros H n _ En. apply (ex_count _ _ (fun k => (k <= n)%N) BC). auto.
    - intros H n En. destruct (b_len r) eqn:El; [destruct JB; [discriminate|congruence]|]. apply (ex_count _ _ (fun k => (k <= n)%N) BC). auto. }
  assert (S5 : says (on_some (b_pattern r) (fun p => throw_unless (jl_matches jl p (jl_utf8 jl s)))) (forall p, b_pattern r = Some p -> o_match orc p s = true))
    by (apply says_on; intros p Ep; rewrite Pat; auto; reflexivity).
  assert (S6 : says (on_nonempty (b_prefix r) (fun p => throw_unless (has_prefix s p))) (forall p, b_prefix r = Some p -> starts_with s p)).
  { eapply says_iff; [|apply (says_nonempty _ _ (starts_with s)); intros; apply has_prefix_spec]. split; auto.
    intros H [|x p] Ep; [exists s; reflexivity|]. apply H; auto; discriminate. }
  assert (S7 : says (on_nonempty (b_contains r) (fun p => throw_unless (contains s p))) (forall p, b_contains r = Some p -> has_inside s p)).
  { eapply says_iff; [|apply (says_nonempty _ _ (has_inside s)); intros; apply contains_spec]. split; auto.
    intros H [|x p] Ep; [exists [], s; reflexivity|]. apply H; auto; discriminate. }
  assert (S8 : says (on_nonempty (b_suffix r) (fun p => throw_unless (has_suffix s p))) (forall p, b_suffix r = Some p -> ends_with s p)).
  { eapply says_iff; [|apply (says_nonempty _ _ (ends_with s)); intros; apply has_suffix_spec]. split; auto.
    intros H [|x p] Ep; [exists s; now rewrite app_nil_r|]. apply H; auto; discriminate. }
  assert (S9 : says match b_wk r with
           | Some (BIp true) => throw_unless ((blen s =? 4) || (blen s =? 16))%N
           | Some (BIpv4 true) => throw_unless (blen s =? 4)%N
           | Some (BIpv6 true) => throw_unless (blen s =? 16)%N
           | _ => Passes
           end ((b_wk r = Some (BIp true) -> ip_bytes s) /\ (b_wk r = Some (BIpv4 true) -> ip4_bytes s) /\ (b_wk r = Some (BIpv6 true) -> ip_bytes s /\ ~ ip4_bytes s))).
  { unfold ip_bytes, ip4_bytes, blen. destruct (b_wk r) as [[[]|[]|[]]|] eqn:Ew;
    try (left; split; [reflexivity|repeat split; discriminate]);
    (assert (M : ~ mapped4 s) by (apply NM; discriminate)); clear NM.
    - eapply says_iff with (P := List.length s = 4 \/ List.length s = 16); [|apply says_throw; lia].
      split; [intros L; repeat split; try discriminate; auto|intros (H & _); apply H; reflexivity].
    - eapply says_iff with (P := List.length s = 4); [|apply says_throw; lia].
      split; [intros L; repeat split; try discriminate; auto|intros (_ & H & _)]. destruct (H eq_refl); tauto.
    - eapply says_iff with (P := List.length s = 16); [|apply says_throw; lia].
      split; [intros L; repeat split; try discriminate; auto; intros [K|K]; [lia|tauto]|intros (_ & _ & H)]. destruct (H eq_refl) as [[] K]; auto. exfalso. auto. }
  assert (S10 := says_listed bytes_eqb (fun x y => x = y) s (b_in r) (b_not_in r) (fun c _ => bytes_eqb_eq s c)).
  eapply says_iff.
  2:{ cbn [in_order]. apply says_seq; [exact S1|intros _]. apply says_seq; [exact S2|intros _]. apply says_seq; [exact S3|intros _].
      apply says_seq; [exact S4|intros _]. apply says_seq; [exact S5|intros _]. apply says_seq; [exact S6|intros _]. apply says_seq; [exact S7|intros _].
      apply says_seq; [exact S8|intros _]. apply says_seq; [exact S9|intros _].
      rewrite andthen_passes. exact S10. }
  tauto.
Qed.
End Rules.
