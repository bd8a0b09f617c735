(** What can be read off the text of an error. *)
From Coq Require Import Lia.
From Verif Require Import Base Num Rules Types Iface Checker GoSem Spec SpecErr ErrText BaseFacts Wt WtDec Setting MainFacts FieldFacts RuleFacts Example.

(** Go identifiers, in ASCII. *)
Definition ident_char (b : N) : Prop :=
  (65 <= b <= 90 \/ 97 <= b <= 122 \/ 48 <= b <= 57 \/ b = 95)%N.
Definition ident (s : string) : Prop := Forall ident_char (bs s).

(** One level of an error: key flag, message type, field, index, reason. *)
Definition level : Type := bool * string * string * option bytes * bytes.

Section Text.
Variable sprint : list piece -> bytes.
Variable ix_text : ixval -> bytes.
Variable plain_text : plain -> bytes.
Let text := error_text sprint ix_text plain_text.

(** An error of Validate as what it says at each level, down to the library error. *)
Fixpoint levels (e : gerr) : list level * option bytes :=
  match e with
  | GErr m f ix r c k =>
      let l := (k, m, f, option_map ix_text ix, sprint r) in
      match c with
      | Some c => (l :: fst (levels c), snd (levels c))
      | None => ([l], None)
      end
  | GPlain p => ([], Some (plain_text p))
  | GMulti _ _ => ([], None)
  end.

(** A text that looks like the beginning of a validation error. *)
Definition looks_invalid (s : bytes) : Prop :=
  exists k m rest, ident m /\ s = bs "invalid " ++ (if k : bool then bs "key for " else []) ++ bs m ++ bs "." ++ rest.

(** An error of Validate with ordinary texts: names are identifiers, indexes print without "]",
    reasons without "|", and library errors do not look like validation errors. *)
Inductive ordinary_error : gerr -> Prop :=
| oe_err m f ix r c k : ident m -> ident f ->
    (forall i, ix = Some i -> ~ In 93%N (ix_text i)) -> ~ In 124%N (sprint r) ->
    (forall e, c = Some e -> ordinary_error e) ->
    ordinary_error (GErr m f ix r c k)
| oe_plain p : ~ looks_invalid (plain_text p) -> ordinary_error (GPlain p).

Lemma bs_inj a : forall b, bs a = bs b -> a = b.
Proof.
  induction a as [|c a IH]; intros [|c' b]; cbn; intros H; try discriminate; auto.
  injection H as H1 H2. f_equal; [|now apply IH].
  rewrite <- (ascii_N_embedding c), <- (ascii_N_embedding c'). now rewrite H1.
Qed.

(** A prefix free of [x], followed by [x], is determined. *)
Lemma split_first (P : N -> Prop) x y : (forall b, P b -> b <> x /\ b <> y) -> forall a a' t t',
  Forall P a -> Forall P a' -> a ++ x :: t = a' ++ y :: t' -> a = a' /\ x = y /\ t = t'.
Proof.
  intros N. induction a as [|b a IH]; intros [|b' a'] t t' F F' E; cbn in E.
  - injection E as E1 E2. auto.
  - injection E as E1 E2. inversion F'; subst. exfalso. destruct (N b') as [Q _]; auto.
  - injection E as E1 E2. inversion F; subst. exfalso. destruct (N y) as [_ Q]; auto.
  - injection E as E1 E2. inversion F; inversion F'; subst.
    destruct (IH a' t t') as (-> & -> & ->); auto.
Qed.

Lemma not_in_forall {A} (x : A) l : ~ In x l <-> Forall (fun b => b <> x) l.
Proof.
  rewrite Forall_forall. split.
  - intros H b I ->. auto.
  - intros H I. now apply (H x I).
Qed.

Lemma split_not x (a a' : bytes) t t' : ~ In x a -> ~ In x a' -> a ++ x :: t = a' ++ x :: t' -> a = a' /\ t = t'.
Proof.
  intros F F' E. rewrite not_in_forall in F, F'.
  destruct (split_first (fun b => b <> x) x x ltac:(auto) _ _ _ _ F F' E) as (? & _ & ?). auto.
Qed.

Lemma ident_not b x : ident_char b -> (x = 32 \/ x = 46 \/ x = 91 \/ x = 58)%N -> b <> x.
Proof. unfold ident_char. lia. Qed.

(** After "invalid ": the key flag and the message type. *)
Lemma head_inj k k' m m' t t' : ident m -> ident m' ->
  (if k : bool then bs "key for " else []) ++ bs m ++ bs "." ++ t =
  (if k' : bool then bs "key for " else []) ++ bs m' ++ bs "." ++ t' ->
  k = k' /\ m = m' /\ t = t'.
Proof.
  intros I I' E. unfold ident in *.
  assert (D : forall b, ident_char b -> b <> 46%N /\ b <> 46%N) by (intros; split; apply ident_not; auto).
  assert (D' : forall b, ident_char b -> b <> 32%N /\ b <> 46%N) by (intros; split; apply ident_not; auto).
  assert (D'' : forall b, ident_char b -> b <> 46%N /\ b <> 32%N) by (intros; split; apply ident_not; auto).
  assert (K : Forall ident_char (bs "key")) by (repeat constructor; unfold ident_char; cbn; lia).
  destruct k, k'.
  - change (bs "key for ") with (bs "key" ++ 32%N :: bs "for ") in E. change (bs ".") with [46%N] in E.
    rewrite <- !app_assoc in E. apply app_inv_head in E. cbn [app] in E. injection E as E.
    destruct (split_first ident_char _ _ D _ _ _ _ I I' E) as (H & _ & ->). apply bs_inj in H. auto.
  - change (bs "key for ") with (bs "key" ++ 32%N :: bs "for ") in E. change (bs ".") with [46%N] in E.
    rewrite <- !app_assoc in E. cbn [app] in E.
    destruct (split_first ident_char _ _ D' _ _ _ _ K I' E) as (_ & Q & _). discriminate.
  - change (bs "key for ") with (bs "key" ++ 32%N :: bs "for ") in E. change (bs ".") with [46%N] in E.
    rewrite <- !app_assoc in E. cbn [app] in E.
    destruct (split_first ident_char _ _ D'' _ _ _ _ I K E) as (_ & Q & _). discriminate.
  - change (bs ".") with [46%N] in E. cbn [app] in E.
    destruct (split_first ident_char _ _ D _ _ _ _ I I' E) as (H & _ & ->). apply bs_inj in H. auto.
Qed.

(** The field and whether there is an index. *)
Lemma field_inj f f' ix ix' t t' : ident f -> ident f' ->
  field_text ix_text f ix ++ bs ": " ++ t = field_text ix_text f' ix' ++ bs ": " ++ t' ->
  f = f' /\ match ix, ix' with
            | None, None => t = t'
            | Some i, Some i' => ix_text i ++ bs "]" ++ bs ": " ++ t = ix_text i' ++ bs "]" ++ bs ": " ++ t'
            | _, _ => False
            end.
Proof.
  intros I I' E. unfold ident in *.
  assert (D : forall x y, (x = 91 \/ x = 58)%N -> (y = 91 \/ y = 58)%N -> forall b, ident_char b -> b <> x /\ b <> y)
    by (intros; split; apply ident_not; auto; tauto).
  unfold field_text in E. destruct ix as [i|], ix' as [i'|].
  - change (bs "[") with [91%N] in E. rewrite <- !app_assoc in E. cbn [app] in E.
    destruct (split_first ident_char _ _ (D _ _ (or_introl eq_refl) (or_introl eq_refl)) _ _ _ _ I I' E) as (H & _ & H').
    apply bs_inj in H. auto.
  - change (bs "[") with [91%N] in E. change (bs ": ") with [58%N; 32%N] in E. rewrite <- !app_assoc in E. cbn [app] in E.
    destruct (split_first ident_char _ _ (D _ _ (or_introl eq_refl) (or_intror eq_refl)) _ _ _ _ I I' E) as (H & H' & _).
    discriminate.
  - change (bs "[") with [91%N] in E. change (bs ": ") with [58%N; 32%N] in E. rewrite <- !app_assoc in E. cbn [app] in E.
    destruct (split_first ident_char _ _ (D _ _ (or_intror eq_refl) (or_introl eq_refl)) _ _ _ _ I I' E) as (H & H' & _).
    discriminate.
  - change (bs ": ") with [58%N; 32%N] in E. cbn [app] in E.
    destruct (split_first ident_char _ _ (D _ _ (or_intror eq_refl) (or_intror eq_refl)) _ _ _ _ I I' E) as (H & _ & H').
    apply bs_inj in H. injection H' as H'. auto.
Qed.

(** Any two errors with the same text agree on the outermost message type, field and key flag, and on
    whether there is an index. *)
Lemma text_head m f ix r c k m' f' ix' r' c' k' : ident m -> ident f -> ident m' -> ident f' ->
  text (GErr m f ix r c k) = text (GErr m' f' ix' r' c' k') ->
  m = m' /\ f = f' /\ k = k' /\ (ix = None <-> ix' = None).
Proof.
  intros Im If Im' If' E. unfold text in E. cbn [error_text] in E. apply app_inv_head in E.
  apply head_inj in E; auto. destruct E as (-> & -> & E).
  apply field_inj in E; auto. destruct E as (-> & E).
  repeat split; auto; intros ->; [destruct ix'|destruct ix]; tauto.
Qed.

(** Reason and cause. *)
Lemma reason_inj r r' (c c' : option bytes) : ~ In 124%N r -> ~ In 124%N r' ->
  r ++ match c with Some t => bs " | caused by: " ++ t | None => [] end =
  r' ++ match c' with Some t => bs " | caused by: " ++ t | None => [] end ->
  r = r' /\ c = c'.
Proof.
  intros N N' E. change (bs " | caused by: ") with (32%N :: 124%N :: bs " caused by: ") in E.
  assert (S : forall a t, a ++ (32%N :: 124%N :: bs " caused by: ") ++ t = (a ++ [32%N]) ++ 124%N :: bs " caused by: " ++ t)
    by (intros; rewrite <- app_assoc; reflexivity).
  assert (M : forall a, ~ In 124%N a -> ~ In 124%N (a ++ [32%N])).
  { intros a H I. apply in_app_or in I. destruct I as [I|[I|[]]]; auto. discriminate. }
  destruct c as [t|], c' as [t'|].
  - rewrite !S in E. apply split_not in E; auto. destruct E as [E1 E2].
    apply app_inj_tail in E1. destruct E1 as [-> _]. apply app_inv_head in E2. now subst.
  - exfalso. rewrite S, app_nil_r in E. apply N'. rewrite <- E. apply in_or_app. right. now left.
  - exfalso. rewrite S, app_nil_r in E. apply N. rewrite E. apply in_or_app. right. now left.
  - rewrite !app_nil_r in E. auto.
Qed.

Fixpoint depth (e : gerr) : nat := match e with GErr _ _ _ _ (Some c) _ => S (depth c) | _ => 0 end.

Lemma text_looks m f ix r c k : ident m -> looks_invalid (text (GErr m f ix r c k)).
Proof. intros I. exists k, m. eexists. split; [exact I|]. unfold text. cbn [error_text]. reflexivity. Qed.

Lemma text_inj n : forall e e', (depth e <= n)%nat -> ordinary_error e -> ordinary_error e' -> text e = text e' -> levels e = levels e'.
Proof.
  induction n as [n IH] using (well_founded_induction PeanoNat.Nat.lt_wf_0).
  intros e e' D O O' E.
  destruct O as [m f ix r c k Im If Hix Hr Hc|p Hp]; destruct O' as [m' f' ix' r' c' k' Im' If' Hix' Hr' Hc'|p' Hp'].
  - unfold text in E. cbn [error_text] in E. apply app_inv_head in E.
    apply head_inj in E; auto. destruct E as (-> & -> & E).
    apply field_inj in E; auto. destruct E as (-> & E).
    assert (Q : option_map ix_text ix = option_map ix_text ix' /\
       sprint r ++ match c with Some c => bs " | caused by: " ++ text c | None => [] end =
       sprint r' ++ match c' with Some c => bs " | caused by: " ++ text c | None => [] end).
    { destruct ix as [i|], ix' as [i'|]; try contradiction.
      - change (bs "]") with [93%N] in E. cbn [app] in E.
        apply split_not in E; [|apply Hix; reflexivity|apply Hix'; reflexivity]. destruct E as [E1 E2]. cbn. rewrite E1. split; auto.
        apply app_inv_head in E2. exact E2.
      - split; auto. }
    destruct Q as [Q1 Q2].
    assert (Q3 : sprint r = sprint r' /\ option_map text c = option_map text c').
    { apply reason_inj; auto. destruct c, c'; exact Q2. }
    destruct Q3 as [Q3 Q4]. cbn [levels]. rewrite Q1, Q3.
    destruct c as [c|], c' as [c'|]; try discriminate; auto. injection Q4 as Q4.
    assert (L : levels c = levels c').
    { cbn [depth] in D. apply (IH (depth c)); auto. }
    now rewrite L.
  - exfalso. apply Hp'. change (plain_text p') with (text (GPlain p')). rewrite <- E. now apply text_looks.
  - exfalso. apply Hp. change (plain_text p) with (text (GPlain p)). rewrite E. now apply text_looks.
  - cbn. unfold text in E. cbn in E. now rewrite E.
Qed.

Lemma text_injective e e' : ordinary_error e -> ordinary_error e' -> text e = text e' -> levels e = levels e'.
Proof. intros. eapply text_inj; eauto. Qed.
End Text.

(** ValidateAll: the nesting is not visible in the text. *)
Definition amb_rules : field_rules :=
  FR None (Some (RRepeated (mkRepRules None None None
    (Some (FR None (Some (RNum KInt32 (mkNumRules None None None (Some (NI 0)) None [] [] None))))) None))).
Definition amb_schema : schema := mkSchema
  [mkMsg "M" [mkField "A" (FOne (TMsg "M")) fr_none; mkField "L" (FRep (TNum KInt32)) amb_rules] [] false MBoth] [] ["M"%string].
Definition amb_leaf (l : list Z) : msgval :=
  MV [("A", VMsg None); ("L", VList (map (fun z => VNum (NI z)) l))]%string [].
Definition amb_node (m : msgval) (l : list Z) : msgval :=
  MV [("A", VMsg (Some m)); ("L", VList (map (fun z => VNum (NI z)) l))]%string [].

Lemma amb_setting : setting re_any amb_schema (checked_of' amb_schema) ex_orc.
Proof. in_setting'. Qed.

Lemma multi_ambiguous : exists sc0 sc n m1 m2 e1 e2,
  setting re_any sc0 sc ex_orc /\
  validate sc ex_orc true n m1 = VErr e1 /\ validate sc ex_orc true n m2 = VErr e2 /\ e1 <> e2 /\
  forall sprint ix_text plain_text, error_text sprint ix_text plain_text e1 = error_text sprint ix_text plain_text e2.
Proof.
  exists amb_schema, (checked_of' amb_schema), "M"%string,
    (amb_node (amb_leaf [0]%Z) [1; 0]%Z), (amb_node (amb_leaf [0; 0]%Z) [1; 1]%Z).
  do 2 eexists.
  split; [exact amb_setting|]. split; [vm_compute; reflexivity|]. split; [vm_compute; reflexivity|].
  split; [discriminate|].
  intros sprint ix_text plain_text. cbn [error_text map join field_text]. now rewrite <- !app_assoc.
Qed.

(** The shape of errors: Key() is never true, and Validate's errors contain no list of errors. *)
Inductive keyless : gerr -> Prop :=
| kl_err m f ix r c : (forall e, c = Some e -> keyless e) -> keyless (GErr m f ix r c false)
| kl_multi m l : Forall keyless l -> keyless (GMulti m l)
| kl_plain p : keyless (GPlain p).
Inductive chain : gerr -> Prop :=
| ch_err m f ix r c k : (forall e, c = Some e -> chain e) -> chain (GErr m f ix r c k)
| ch_plain p : chain (GPlain p).

Scheme explains_i := Minimality for explains Sort Prop
  with explains_list_i := Minimality for explains_list Sort Prop
  with explains_cause_i := Minimality for explains_cause Sort Prop.
Combined Scheme explains_all_i from explains_i, explains_list_i, explains_cause_i.

Lemma explains_keyless orc sc :
  (forall all n m e, explains orc sc all n m e -> keyless e /\ (all = false -> chain e)) /\
  (forall n l es, explains_list orc sc n l es -> Forall keyless es) /\
  (forall all k c, explains_cause orc sc all k c -> forall e, c = Some e -> keyless e /\ (all = false -> chain e)).
Proof.
  apply explains_all_i.
  - intros n m d l1 f ix r l2 c _ _ _ _ _ _ IH. split.
    + constructor. intros e E. now apply IH.
    + intros _. constructor. intros e E. now apply IH.
  - intros n m d es _ _ _ _ IH. split; [now constructor|discriminate].
  - constructor.
  - auto.
  - intros n f ix r l c es _ _ IH _ IHl. constructor; auto. constructor. intros e E. now apply IH.
  - discriminate.
  - intros all p e [= <-]. split; [|intros _]; constructor.
  - intros all n m e _ [IH1 IH2] e' [= <-]. split; auto. intros ->. auto.
Qed.

Section Shape.
Variables (re_ok : bytes -> bool) (sc0 sc : schema) (orc : oracles).
Hypothesis st : setting re_ok sc0 sc orc.

Lemma run_shape all n d m e : message sc0 n d m -> validate sc orc all n m = VErr e -> keyless e /\ (all = false -> chain e).
Proof.
  intros M R. destruct (run_ok re_ok sc0 sc orc st n d all m M) as (_ & _ & K).
  apply (proj1 (explains_keyless orc sc0) all n m e). auto.
Qed.
End Shape.

Lemma absent_dec x (l : bytes) : existsb (N.eqb x) l = false -> ~ In x l.
Proof.
  intros E I. assert (existsb (N.eqb x) l = true) by (apply existsb_exists; exists x; split; [auto|apply N.eqb_refl]).
  congruence.
Qed.

Lemma ident_dec s :
  forallb (fun b => (65 <=? b)%N && (b <=? 90)%N || (97 <=? b)%N && (b <=? 122)%N || (48 <=? b)%N && (b <=? 57)%N || (b =? 95)%N) (bs s) = true ->
  ident s.
Proof.
  intros H. unfold ident. rewrite Forall_forall. rewrite forallb_forall in H. intros x I. specialize (H x I).
  unfold ident_char. rewrite !orb_true_iff, !andb_true_iff, !N.leb_le, N.eqb_eq in H. lia.
Qed.

(** ** Lists of errors *)
Lemma join_injective : forall l l' : list bytes, l <> [] -> l' <> [] -> (forall x, In x l \/ In x l' -> ~ In 59%N x) ->
  join (bs "; ") l = join (bs "; ") l' -> l = l'.
Proof.
  change (bs "; ") with [59; 32]%N.
  induction l as [|x l IH]; intros [|x' l'] N N' F E; try congruence.
  assert (Fx : ~ In 59%N x) by (apply F; left; left; auto). assert (Fx' : ~ In 59%N x') by (apply F; right; left; auto).
  destruct l as [|y l], l' as [|y' l'].
  - cbn in E. now subst.
  - exfalso. apply Fx. change (x = x' ++ [59; 32]%N ++ join [59; 32]%N (y' :: l')) in E. rewrite E. apply in_app_iff. right. left. auto.
  - exfalso. apply Fx'. change (x ++ [59; 32]%N ++ join [59; 32]%N (y :: l) = x') in E. rewrite <- E. apply in_app_iff. right. left. auto.
  - change (x ++ 59%N :: 32%N :: join [59; 32]%N (y :: l) = x' ++ 59%N :: 32%N :: join [59; 32]%N (y' :: l')) in E.
    destruct (split_not _ _ _ _ _ Fx Fx' E) as [-> E']. injection E' as E'. f_equal. apply IH; auto; try discriminate.
    intros z [H|H]; apply F; [left|right]; right; auto.
Qed.
Lemma multi_text sprint ix_text plain_text n n' es es' : es <> [] -> es' <> [] ->
  (forall e, In e es \/ In e es' -> ~ In 59%N (error_text sprint ix_text plain_text e)) ->
  error_text sprint ix_text plain_text (GMulti n es) = error_text sprint ix_text plain_text (GMulti n' es') ->
  map (error_text sprint ix_text plain_text) es = map (error_text sprint ix_text plain_text) es'.
Proof.
  intros N N' F E. cbn in E. apply join_injective; auto.
  - destruct es; [congruence|discriminate].
  - destruct es'; [congruence|discriminate].
  - intros x [H|H]; apply in_map_iff in H; destruct H as (e & <- & I); apply F; auto.
Qed.
