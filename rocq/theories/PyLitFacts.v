(** Facts about the Python source of checks: what the filter indent makes of two lines, and what Python reads. *)
From Coq Require Import Lia.
From Verif Require Import Base Py PyLit PyLex.
Local Open Scope N_scope.

(** ** indent *)
Lemma breakb_false c : ~ In c [10; 11; 12; 13; 28; 29; 30; 133; 8232; 8233] -> breakb c = false.
Proof.
  intros H. unfold breakb. destruct (existsb _ _) eqn:E; [|reflexivity]. apply existsb_exists in E. destruct E as (x & X & E). apply N.eqb_eq in E. subst. contradiction.
Qed.
Lemma lines_line a : one_line a -> forall acc t, lines_from acc (a ++ 10 :: t) = (acc ++ a) :: lines_from [] t.
Proof.
  induction a as [|c a IH]; intros O acc t.
  - rewrite app_nil_r. reflexivity.
  - cbn [app lines_from]. rewrite breakb_false by (apply O; now left). rewrite IH by (intros x X; apply O; now right). now rewrite <- app_assoc.
Qed.
Lemma indent_two w a b : one_line a -> one_line b -> b <> [] -> indent w (a ++ 10 :: b) = spaces w ++ a ++ 10 :: spaces w ++ b.
Proof.
  intros A B N. unfold indent, splitlines. rewrite <- app_assoc. cbn [app]. rewrite lines_line by assumption. cbn [app].
  rewrite (lines_line b B [] []). cbn [app lines_from flat_map]. destruct b; [now elim N|]. now rewrite app_nil_r.
Qed.
Lemma one_line_app a b : one_line a -> one_line b -> one_line (a ++ b).
Proof. intros A B c C. apply in_app_or in C. destruct C; auto. Qed.
Lemma one_line_spaces w : one_line (spaces w).
Proof. intros c C. apply repeat_spec in C. subst. cbn. intuition discriminate. Qed.
Lemma spaces_app v w : spaces v ++ spaces w = spaces (v + w).
Proof. symmetry. apply repeat_app. Qed.
Definition sum (ws : list nat) : nat := fold_left (fun a w => (a + w)%nat) ws O.
Lemma sum_from ws : forall n, fold_left (fun a w => (a + w)%nat) ws n = (n + sum ws)%nat.
Proof. unfold sum. induction ws as [|w ws IH]; intros n; cbn [fold_left]; [lia|]. rewrite IH, (IH (0 + w)%nat). lia. Qed.
Lemma indents_two ws : forall a b, one_line a -> one_line b -> b <> [] -> indents ws (a ++ 10 :: b) = spaces (sum ws) ++ a ++ 10 :: spaces (sum ws) ++ b.
Proof.
  induction ws as [|w ws IH]; intros a b A B N; [reflexivity|]. unfold indents in *. cbn [fold_left]. rewrite indent_two by assumption.
  rewrite app_assoc, IH.
  - unfold sum at 3 4. cbn [fold_left]. rewrite sum_from. rewrite <- (Nat.add_comm (sum ws) (0 + w)), <- spaces_app. now rewrite <- !app_assoc.
  - apply one_line_app; [apply one_line_spaces|assumption].
  - apply one_line_app; [apply one_line_spaces|assumption].
  - destruct b; [now elim N|]. destruct w; discriminate.
Qed.

(** ** Reading *)
Section Read.
Variable unicode : list N -> option N.
Notation tokens := (tokens unicode).

Lemma add_app t l o : add t (match o with Some x => Some (l ++ x) | None => None end) = match o with Some x => Some ((t :: l) ++ x) | None => None end.
Proof. now destruct o. Qed.
(** Characters of code that begin no literal and no comment. *)
Definition codeb (c : N) : bool := negb ((c =? 34) || (c =? 39) || (c =? 35) || (c =? 0)).
Definition prepend (l : list token) (o : option (list token)) : option (list token) := match o with Some x => Some (l ++ x) | None => None end.
Lemma prepend_app a b o : prepend a (prepend b o) = prepend (a ++ b) o.
Proof. destruct o; cbn; [now rewrite app_assoc|reflexivity]. Qed.
Lemma add_prepend t o : add t o = prepend [t] o.
Proof. now destruct o. Qed.
Lemma prepend_inj l a b : prepend l a = Some (l ++ b) -> a = Some b.
Proof. destruct a; [|discriminate]. cbn. intros [= E]. apply app_inv_head in E. now subst. Qed.
Lemma prepend_nil o : prepend [] o = o.
Proof. now destruct o. Qed.
Lemma last_default (a : list N) : forall x p q, last (x :: a) p = last (x :: a) q.
Proof. induction a as [|y a IH]; intros x p q; [reflexivity|]. change (last (y :: a) p = last (y :: a) q). apply IH. Qed.
Lemma last_cons (c : N) a p : last (c :: a) p = last a c.
Proof. destruct a as [|x a]; [reflexivity|]. change (last (x :: a) p = last (x :: a) c). apply last_default. Qed.
Lemma read_code a : forall p t, forallb codeb a = true -> tokens (Code p) (a ++ t) = prepend (chrs a) (tokens (Code (last a p)) t).
Proof.
  induction a as [|c a IH]; intros p t C; [symmetry; apply prepend_nil|]. cbn [forallb] in C. apply andb_true_iff in C. destruct C as [D C].
  unfold codeb in D. apply negb_true_iff in D. apply orb_false_iff in D. destruct D as [D D0]. apply orb_false_iff in D. destruct D as [D D1].
  change (tokens (Code p) ((c :: a) ++ t)) with
    (if (c =? 34) || (c =? 39) then if triple c (a ++ t) then None else tokens (Literal c (if p =? 114 then Raw else Plain) []) (a ++ t)
     else if c =? 35 then tokens Comment (a ++ t) else if c =? 0 then None else add (Chr c) (tokens (Code c) (a ++ t))).
  rewrite D, D1, D0. rewrite IH by assumption. rewrite add_prepend, prepend_app, last_cons. reflexivity.
Qed.
Lemma read_open q p t : q = 34 \/ q = 39 -> (match t with a :: b :: _ => a = q -> b <> q | _ => True end) ->
  tokens (Code p) (q :: t) = tokens (Literal q (if p =? 114 then Raw else Plain) []) t.
Proof.
  intros Q T. cbn [PyLex.tokens]. replace ((q =? 34) || (q =? 39)) with true by (destruct Q; subst; reflexivity).
  replace (triple q t) with false; [reflexivity|]. destruct t as [|a [|b t]]; try reflexivity. cbn. symmetry. apply andb_false_iff.
  destruct (a =? q) eqn:A; [|now left]. right. apply N.eqb_eq in A. apply N.eqb_neq. auto.
Qed.
Lemma read_step q i v c t : tokens (Literal q i v) (c :: t) =
  match step unicode q i c with
  | None => None
  | Some (e, None) => add (Lit (v ++ e)) (tokens (Code c) t)
  | Some (e, Some i) => tokens (Literal q i (v ++ e)) t
  end.
Proof. reflexivity. Qed.
Lemma read_close q v t : q <> 92 -> tokens (Literal q Plain v) (q :: t) = prepend [Lit v] (tokens (Code q) t).
Proof. intros _. rewrite read_step. cbn [step]. unfold plain. rewrite N.eqb_refl, app_nil_r. apply add_prepend. Qed.

(** Texts that are read as they are. *)
Lemma not_newline c : ~ In c [10; 11; 12; 13; 28; 29; 30; 133; 8232; 8233] -> newline c = false.
Proof. intros H. unfold newline. apply orb_false_iff. split; apply N.eqb_neq; intros ->; apply H; cbn; tauto. Qed.
Lemma starts_none c : starts_escape c = false -> c <> 0 -> newline c = false -> step unicode 34 Escape c = Some ([92; c], Some Plain).
Proof.
  intros S Z L. cbn [step]. rewrite L. apply N.eqb_neq in Z. rewrite Z.
  assert (E : forall x, In x (bs "\'""abfnrtvxNuU01234567") -> c <> x).
  { intros x X ->. unfold starts_escape in S. assert (K : existsb (N.eqb x) (bs "\'""abfnrtvxNuU01234567") = true); [|congruence].
    apply existsb_exists. exists x. split; [exact X|apply N.eqb_refl]. }
  assert (A : escape_char c = None).
  { destruct (escape_char c) eqn:A; [|reflexivity]. exfalso.
    unfold escape_char in A. 
    repeat match type of A with match ?x with _ => _ end = _ => destruct x; try discriminate A end; eapply E; try reflexivity; vm_compute; tauto. }
  assert (B : octal c = None).
  { unfold octal. destruct ((48 <=? c) && (c <? 56)) eqn:B; [|reflexivity]. exfalso. apply andb_true_iff in B. destruct B as [B1 B2].
    apply N.leb_le in B1. apply N.ltb_lt in B2. assert (K : In c [48; 49; 50; 51; 52; 53; 54; 55]) by (cbn; lia).
    cbn in K. repeat (destruct K as [K|K]; [eapply E; [|symmetry; exact K]; vm_compute; tauto|]). destruct K. }
  rewrite A, B. 
  assert (X : forall x, In x (bs "\'""abfnrtvxNuU01234567") -> (c =? x) = false) by (intros x X; apply N.eqb_neq; now apply E).
  rewrite !X by (vm_compute; tauto). reflexivity.
Qed.
Lemma read_harmless n : forall s v t, (List.length s <= n)%nat -> harmless s = true -> one_line s ->
  tokens (Literal 34 Plain v) (s ++ t) = tokens (Literal 34 Plain (v ++ s)) t.
Proof.
  induction n as [|n IH]; intros s v t L H O.
  - destruct s; [now rewrite app_nil_r|cbn in L; lia].
  - destruct s as [|c s]; [now rewrite app_nil_r|]. cbn [harmless] in H. cbn [app]. rewrite read_step.
    assert (NC : newline c = false) by (apply not_newline, O; now left). cbn [step]. unfold plain. destruct (c =? 92) eqn:B.
    + apply N.eqb_eq in B. subst c. destruct s as [|d s]; [discriminate|]. apply andb_true_iff in H. destruct H as [H H2]. apply andb_true_iff in H.
      destruct H as [H0 H1]. apply negb_true_iff in H0, H1. apply N.eqb_neq in H1. change (92 =? 34) with false. cbn iota. change (92 =? 92) with true. cbn iota.
      cbn [app]. rewrite read_step. rewrite starts_none; [|assumption|assumption|apply not_newline, O; right; now left].
      rewrite app_nil_r, IH; [now rewrite <- app_assoc|cbn in L; lia|assumption|intros x X; apply O; right; now right].
    + apply andb_true_iff in H. destruct H as [H H2]. apply andb_true_iff in H. destruct H as [H0 H1]. apply negb_true_iff in H0, H1. rewrite H0, H1, NC.
      cbn [orb]. rewrite IH; [now rewrite <- app_assoc|cbn in L; lia|assumption|intros x X; apply O; now right].
Qed.
Lemma read_text s v t : harmless s = true -> one_line s -> tokens (Literal 34 Plain v) (s ++ t) = tokens (Literal 34 Plain (v ++ s)) t.
Proof. exact (read_harmless (List.length s) s v t (le_n _)). Qed.

Lemma last_app (a b : list N) p : last (a ++ b) p = last b (last a p).
Proof. revert p. induction a as [|c a IH]; intros p; [reflexivity|]. cbn [app]. rewrite !last_cons. apply IH. Qed.
Lemma codeb_spaces w : forallb codeb (spaces w) = true.
Proof. induction w; [reflexivity|assumption]. Qed.
Lemma chrs_app a b : chrs (a ++ b) = chrs a ++ chrs b.
Proof. apply map_app. Qed.
Lemma one_line_lit s : forallb (fun c => negb (breakb c)) s = true -> one_line s.
Proof.
  intros H c C D. rewrite forallb_forall in H. apply H in C. apply negb_true_iff in C. unfold breakb in C.
  assert (K : existsb (N.eqb c) [10; 11; 12; 13; 28; 29; 30; 133; 8232; 8233] = true); [|congruence]. apply existsb_exists. exists c. split; [exact D|apply N.eqb_refl].
Qed.

(** The lines of a check after indent. *)
Definition line1 (before const after : text) : text := bs "if " ++ before ++ const ++ after ++ bs ":".
Definition line2 (message shown : text) : text := bs "        raise ValidationFailed(""" ++ message ++ shown ++ bs """)".
Lemma check_lines ws before const after message shown : one_line before -> one_line const -> one_line after -> one_line message -> one_line shown ->
  indents ws (check before const after message shown) = spaces (sum ws) ++ line1 before const after ++ 10 :: spaces (sum ws) ++ line2 message shown.
Proof.
  intros B C A M S. rewrite <- indents_two.
  - f_equal. unfold check, line1, line2. now rewrite <- !app_assoc.
  - unfold line1. repeat apply one_line_app; try assumption; apply one_line_lit; reflexivity.
  - unfold line2. repeat apply one_line_app; try assumption; apply one_line_lit; reflexivity.
  - discriminate.
Qed.
Lemma read_lines w before const code z after message shown msg : forallb codeb before = true -> forallb codeb after = true ->
  (forall c t, codeb c = true -> tokens (Code (last before 32)) (const ++ c :: t) = prepend code (tokens (Code z) (c :: t))) ->
  match message with c :: _ => c <> 34 | [] => False end ->
  (forall v t, tokens (Literal 34 Plain v) (message ++ shown ++ 34 :: t) = tokens (Literal 34 Plain (v ++ msg)) (34 :: t)) ->
  reads unicode (spaces w ++ line1 before const after ++ 10 :: spaces w ++ line2 message shown) = Some (two_lines w before code after msg).
Proof.
  intros B A C M1 M2. unfold reads, line1, line2. rewrite read_code by apply codeb_spaces. rewrite <- !app_assoc. rewrite read_code by reflexivity.
  rewrite read_code by assumption. replace (last before _) with (last before 32) by reflexivity.
  assert (K : exists c t, after ++ bs ":" ++ 10 :: spaces w ++ bs "        raise ValidationFailed(""" ++ message ++ shown ++ bs """)" = c :: t /\ codeb c = true).
  { destruct after as [|c after]; [eexists; eexists; split; [reflexivity|reflexivity]|]. eexists; eexists. split; [reflexivity|]. cbn in A. now apply andb_true_iff in A. }
  destruct K as (c & t & K & KC). rewrite K, C by assumption. rewrite <- K. clear K KC c t C.
  rewrite read_code by assumption. change (bs ":" ++ 10 :: spaces w ++ ?x) with ((bs ":" ++ [10]) ++ spaces w ++ x).
  rewrite read_code by reflexivity. rewrite read_code by apply codeb_spaces.
  change (bs "        raise ValidationFailed(""") with (bs "        raise ValidationFailed(" ++ [34]). rewrite <- app_assoc. rewrite read_code by reflexivity.
  change (bs """)") with (34 :: [41]). cbn [app]. rewrite read_open; [|now left|].
  2:{ destruct message as [|a [|b m]]; [destruct M1| |]; cbn [app]; [destruct (shown ++ [34; 41]) eqn:E; [exact I|]|]; intros ->; now elim M1. }
  change (last (bs "        raise ValidationFailed(") _ =? 114) with false. cbn iota.
  rewrite M2. cbn [app]. rewrite read_close by discriminate. change (tokens (Code 34) [41]) with (tokens (Code 34) ([41] ++ [])). rewrite read_code by reflexivity. cbn [PyLex.tokens]. rewrite !prepend_app. cbn [prepend]. f_equal.
  unfold two_lines. rewrite !chrs_app, <- !app_assoc. change (repeat 32) with spaces. rewrite (Nat.add_comm w 8), <- (spaces_app 8 w), !chrs_app, <- !app_assoc.
  assert (S : forall l, chrs (spaces w) ++ chrs (bs "        raise ValidationFailed(") ++ l = chrs (spaces 8) ++ chrs (spaces w) ++ chrs (bs "raise ValidationFailed(") ++ l).
  { intros l. change (bs "        raise ValidationFailed(") with (spaces 8 ++ bs "raise ValidationFailed("). rewrite chrs_app, !app_assoc, <- !chrs_app, !spaces_app.
    now rewrite (Nat.add_comm w 8). }
  rewrite S. reflexivity.
Qed.

(** What is read is not longer than the literal, and if it is as long, then it is the same. *)
Definition nl (p : list N) : Prop := forall a b, p = a ++ 10 :: b -> exists a', a = a' ++ [92].
Definition nl_escape (p : list N) : Prop := forall a b, p = a ++ 10 :: b -> a = [] \/ exists a', a = a' ++ [92].
Lemma nl_cons c p : c <> 10 -> nl p -> nl (c :: p).
Proof.
  intros C P a b E. destruct a as [|x a]; injection E as E1 E2; [congruence|]. destruct (P a b E2) as [a' ->]. exists (x :: a'). reflexivity.
Qed.
Lemma nl_backslash p : nl_escape p -> nl (92 :: p).
Proof.
  intros P a b E. destruct a as [|x a]; injection E as E1 E2; [discriminate|]. subst x. destruct (P a b E2) as [->|[a' ->]]; [now exists []|now exists (92 :: a')].
Qed.
Lemma nl_after c p : nl p -> nl_escape (c :: p).
Proof.
  intros P a b E. destruct a as [|x a]; [now left|]. right. injection E as E1 E2. destruct (P a b E2) as [a' ->]. exists (x :: a'). reflexivity.
Qed.
Definition bounds (i : inside) (v p : list N) : Prop :=
  match i with
  | Plain => (List.length v <= List.length p)%nat /\ (List.length v = List.length p -> v = p /\ harmless p = true) /\ nl p
  | Escape => (List.length v <= S (List.length p))%nat /\ (List.length v = S (List.length p) -> v = 92 :: p /\ harmless (92 :: p) = true) /\ nl_escape p
  | Raw | RawEscape => True
  | _ => (List.length v <= S (List.length p))%nat /\ nl p
  end.
Lemma plain_not c : newline c || (c =? 0) = false -> c <> 10 /\ c <> 0.
Proof. unfold newline. intros H. apply orb_false_iff in H. destruct H as [H Z]. apply orb_false_iff in H. destruct H as [H _]. split; now apply N.eqb_neq. Qed.
Lemma escape_starts c : escape_char c = None -> octal c = None -> (c =? 120) = false -> (c =? 117) = false -> (c =? 85) = false -> (c =? 78) = false ->
  starts_escape c = false.
Proof.
  intros E O X U V W. unfold starts_escape. destruct (existsb _ _) eqn:H; [|reflexivity]. exfalso. apply existsb_exists in H. destruct H as (x & H & K).
  apply N.eqb_eq in K. subst x. vm_compute in H. repeat (destruct H as [H|H]; [subst c; try discriminate; vm_compute in O; discriminate|]). destruct H.
Qed.
Lemma lit_inv s : forall i acc ts, i <> Raw -> i <> RawEscape -> tokens (Literal 34 i acc) s = Some ts ->
  exists v p r ts', s = p ++ 34 :: r /\ ts = Lit (acc ++ v) :: ts' /\ tokens (Code 34) r = Some ts' /\ bounds i v p.
Proof.
  induction s as [|c s IH]; intros i acc ts R1 R2 H; [discriminate|]. rewrite read_step in H.
  (* the cases of [plain] *)
  assert (PL : forall pre, match plain 34 c with
      | None => None
      | Some (e, None) => add (Lit (acc ++ pre ++ e)) (tokens (Code c) s)
      | Some (e, Some i) => tokens (Literal 34 i (acc ++ pre ++ e)) s
      end = Some ts -> exists v p r ts', c :: s = p ++ 34 :: r /\ ts = Lit (acc ++ pre ++ v) :: ts' /\ tokens (Code 34) r = Some ts' /\ bounds Plain v p).
  { clear H. intros pre H. unfold plain in H. destruct (c =? 34) eqn:Q.
    - apply N.eqb_eq in Q. subst c. destruct (tokens (Code 34) s) as [ts'|] eqn:T; [|discriminate]. injection H as <-. exists [], [], s, ts'.
      refine (conj eq_refl (conj eq_refl (conj T _))). split; [cbn; lia|]. split; [auto|]. intros a b E. destruct a; discriminate.
    - destruct (c =? 92) eqn:B.
      + apply N.eqb_eq in B. subst c. apply IH in H; [|discriminate|discriminate]. destruct H as (v & p & r & ts' & -> & -> & T & L1 & L2 & L3).
        exists v, (92 :: p), r, ts'. split; [reflexivity|]. split; [now rewrite app_nil_r, <- app_assoc|]. split; [assumption|]. cbn [bounds List.length].
        split; [lia|]. split; [exact L2|]. now apply nl_backslash.
      + destruct (newline c || (c =? 0)) eqn:Z; [discriminate|]. apply plain_not in Z. destruct Z as [Z1 Z2]. apply IH in H; [|discriminate|discriminate].
        destruct H as (v & p & r & ts' & -> & -> & T & L1 & L2 & L3). exists (c :: v), (c :: p), r, ts'. split; [reflexivity|]. split; [now rewrite <- !app_assoc|].
        split; [assumption|]. cbn [bounds List.length]. split; [lia|]. split; [|now apply nl_cons]. intros L. destruct L2 as [-> L2]; [lia|]. split; [reflexivity|].
        cbn [harmless]. rewrite B, Q. apply N.eqb_neq in Z2. now rewrite Z2. }
  (* one character that yields at most one *)
  assert (ONE : forall i' e, i' <> Raw -> i' <> RawEscape -> tokens (Literal 34 i' (acc ++ e)) s = Some ts ->
      exists v p r ts', c :: s = (c :: p) ++ 34 :: r /\ ts = Lit (acc ++ e ++ v) :: ts' /\ tokens (Code 34) r = Some ts' /\ bounds i' v p).
  { clear H PL. intros i' e R1' R2' H. apply IH in H; try assumption. destruct H as (v & p & r & ts' & -> & -> & T & L). exists v, p, r, ts'.
    split; [reflexivity|]. split; [now rewrite app_assoc|]. now split. }
  destruct i; [ | | | | | |congruence|congruence]; cbn [step] in H.
  - (* Plain *) destruct (PL [] H) as (v & p & r & ts' & L). exists v, p, r, ts'. exact L.
  - (* Escape *)
    destruct (newline c) eqn:NL.
    { destruct (ONE Plain [] ltac:(discriminate) ltac:(discriminate) H) as (v & p & r & ts' & E & T1 & T2 & B). exists v, (c :: p), r, ts'. repeat (split; [assumption|]).
      destruct B as (B1 & B2 & B3). cbn [bounds List.length]. split; [lia|]. split; [lia|]. now apply nl_after. }
    destruct (c =? 0) eqn:Z; [discriminate|]. destruct (escape_char c) as [x|] eqn:EC.
    { destruct (ONE Plain [x] ltac:(discriminate) ltac:(discriminate) H) as (v & p & r & ts' & E & T1 & T2 & B). exists (x :: v), (c :: p), r, ts'. repeat (split; [assumption|]).
      destruct B as (B1 & B2 & B3). cbn [bounds List.length]. split; [lia|]. split; [lia|]. now apply nl_after. }
    assert (MORE : forall i', i' <> Raw -> i' <> RawEscape -> (forall v p, bounds i' v p -> (List.length v <= S (List.length p))%nat /\ nl p) ->
        tokens (Literal 34 i' (acc ++ [])) s = Some ts ->
        exists v p r ts', c :: s = p ++ 34 :: r /\ ts = Lit (acc ++ v) :: ts' /\ tokens (Code 34) r = Some ts' /\ bounds Escape v p).
    { intros i' R1' R2' K H'. destruct (ONE i' [] R1' R2' H') as (v & p & r & ts' & E & T1 & T2 & B). exists v, (c :: p), r, ts'. repeat (split; [assumption|]).
      apply K in B. destruct B as [B1 B2]. cbn [bounds List.length]. split; [lia|]. split; [lia|]. now apply nl_after. }
    destruct (octal c) eqn:OC; [refine (MORE _ _ _ _ H); [discriminate|discriminate|auto]|].
    destruct (c =? 120) eqn:E1; [refine (MORE _ _ _ _ H); [discriminate|discriminate|auto]|].
    destruct (c =? 117) eqn:E2; [refine (MORE _ _ _ _ H); [discriminate|discriminate|auto]|].
    destruct (c =? 85) eqn:E3; [refine (MORE _ _ _ _ H); [discriminate|discriminate|auto]|].
    destruct (c =? 78) eqn:E4; [refine (MORE _ _ _ _ H); [discriminate|discriminate|auto]|].
    destruct (ONE Plain [92; c] ltac:(discriminate) ltac:(discriminate) H) as (v & p & r & ts' & E & T1 & T2 & B). exists (92 :: c :: v), (c :: p), r, ts'. repeat (split; [assumption|]).
    destruct B as (B1 & B2 & B3). cbn [bounds List.length]. split; [lia|]. split; [|now apply nl_after]. intros L. destruct B2 as [-> B2]; [lia|]. split; [reflexivity|].
    change (harmless (92 :: c :: p)) with (negb (starts_escape c) && negb (c =? 0) && harmless p). rewrite Z, B2, (escape_starts c) by assumption. reflexivity.
  - (* Hex *)
    assert (NL : c <> 10) by (intros ->; discriminate H). destruct (hexadecimal c) as [d|]; [|discriminate].
    destruct k as [|[|k]]; [| |].
    1,2: destruct (16 * n + d <? 1114112); [|discriminate];
      destruct (ONE Plain [16 * n + d] ltac:(discriminate) ltac:(discriminate) H) as (v & p & r & ts' & E & T1 & T2 & B);
      exists (16 * n + d :: v), (c :: p), r, ts'; (repeat (split; [assumption|])); destruct B as (B1 & B2 & B3); cbn [bounds List.length]; (split; [lia|now apply nl_cons]).
    destruct (ONE (Hex (S k) (16 * n + d)) [] ltac:(discriminate) ltac:(discriminate) H) as (v & p & r & ts' & E & T1 & T2 & B). exists v, (c :: p), r, ts'. repeat (split; [assumption|]).
    destruct B as (B1 & B2). cbn [bounds List.length]. split; [lia|now apply nl_cons].
  - (* Oct *)
    assert (PL' : match match plain 34 c with Some (v, i) => Some (n :: v, i) | None => None end with
        | None => None
        | Some (e, None) => add (Lit (acc ++ e)) (tokens (Code c) s)
        | Some (e, Some i) => tokens (Literal 34 i (acc ++ e)) s
        end = Some ts -> exists v p r ts', c :: s = p ++ 34 :: r /\ ts = Lit (acc ++ v) :: ts' /\ tokens (Code 34) r = Some ts' /\ bounds (Oct k n) v p).
    { intros H'. destruct (PL [n]) as (v & p & r & ts' & E & T1 & T2 & B1 & B2 & B3).
      - destruct (plain 34 c) as [[e [j|]]|]; exact H'.
      - exists (n :: v), p, r, ts'. repeat (split; [assumption|]). cbn [bounds List.length]. split; [lia|exact B3]. }
    destruct k as [|k]; [apply PL'; exact H|]. destruct (octal c) as [d|] eqn:OC; [|apply PL'; exact H].
    destruct (ONE (Oct k (8 * n + d)) [] ltac:(discriminate) ltac:(discriminate) H) as (v & p & r & ts' & E & T1 & T2 & B). exists v, (c :: p), r, ts'. repeat (split; [assumption|]).
    destruct B as (B1 & B2). cbn [bounds List.length]. split; [lia|]. apply nl_cons; [intros ->; discriminate OC|assumption].
  - (* Name0 *)
    destruct (c =? 123) eqn:E0; [|discriminate]. apply N.eqb_eq in E0. subst c.
    destruct (ONE (Name []) [] ltac:(discriminate) ltac:(discriminate) H) as (v & p & r & ts' & E & T1 & T2 & B). exists v, (123 :: p), r, ts'. repeat (split; [assumption|]).
    destruct B as (B1 & B2). cbn [bounds List.length]. split; [lia|]. now apply nl_cons.
  - (* Name *)
    destruct (c =? 125) eqn:E0.
    + apply N.eqb_eq in E0. subst c. destruct (unicode s0) as [x|]; [|discriminate].
      destruct (ONE Plain [x] ltac:(discriminate) ltac:(discriminate) H) as (v & p & r & ts' & E & T1 & T2 & B1 & B2 & B3). exists (x :: v), (125 :: p), r, ts'.
      repeat (split; [assumption|]). cbn [bounds List.length]. split; [lia|]. now apply nl_cons.
    + destruct (newline c || (c =? 0)) eqn:Z; [discriminate|]. apply plain_not in Z. destruct Z as [Z _]. cbn [orb] in H. destruct (c =? 34); [discriminate|].
      destruct (ONE (Name (s0 ++ [c])) [] ltac:(discriminate) ltac:(discriminate) H) as (v & p & r & ts' & E & T1 & T2 & B). exists v, (c :: p), r, ts'. repeat (split; [assumption|]).
      destruct B as (B1 & B2). cbn [bounds List.length]. split; [lia|now apply nl_cons].
Qed.
(** A literal on one line that is read as the text [s] between the quotes. *)
Lemma lit_same s u w acc ts : tokens (Literal 34 Plain acc) (s ++ 34 :: u ++ 10 :: w) = Some (Lit (acc ++ s) :: ts) -> ~ In 34 u -> ~ In 92 u -> harmless s = true.
Proof.
  intros H Q B. apply lit_inv in H; [|discriminate|discriminate]. destruct H as (v & p & r & ts' & E & [= T _] & _ & L1 & L2 & L3). apply app_inv_head in T. subst v.
  assert (K : p = s \/ exists p', p = s ++ 34 :: p' /\ u ++ 10 :: w = p' ++ 34 :: r).
  { clear - E L1. revert p E L1. induction s as [|c s IH]; intros p E L1; destruct p as [|x p].
    - now left.
    - right. injection E as <- E. exists p. now split.
    - cbn in L1. lia.
    - injection E as <- E. cbn in L1. destruct (IH p E ltac:(lia)) as [->|(p' & -> & E')]; [now left|]. right. exists p'. now split. }
  destruct K as [->|(p' & -> & K)]; [now destruct L2|]. exfalso.
  assert (J : exists p2, p' = u ++ 10 :: p2).
  { clear - K Q. revert u Q K. induction p' as [|c p IH]; intros u Q K; destruct u as [|x u].
    - discriminate.
    - injection K as -> _. elim Q. now left.
    - injection K as <- _. now exists p.
    - injection K as <- K. destruct (IH u) as [p2 ->]; [intros X; apply Q; now right|exact K|]. now exists p2. }
  destruct J as [p2 ->]. destruct (L3 (s ++ 34 :: u) p2) as [a A]; [now rewrite <- app_assoc|].
  destruct (exists_last (l := 34 :: u)) as (u' & x & U); [discriminate|]. rewrite U, app_assoc in A. apply app_inj_tail in A. destruct A as [_ ->].
  assert (I : In 92 (34 :: u)) by (rewrite U; apply in_or_app; right; now left). destruct I as [I|I]; [discriminate|contradiction].
Qed.
End Read.
