(** The literals of checks, as Python reads them. *)
From Coq Require Import Lia.
From Verif Require Import Base Py PyLit PyLex PyLitSpec PyLitFacts.
Local Open Scope N_scope.

Lemma sum_list ws : sum ws = list_sum ws.
Proof. unfold sum. induction ws as [|w ws IH]; [reflexivity|]. cbn [fold_left]. rewrite sum_from. unfold sum. rewrite IH. reflexivity. Qed.

Lemma name_code s : a_name s -> forallb codeb s = true.
Proof.
  intros A. apply forallb_forall. intros c C. unfold a_name in A. rewrite Forall_forall in A. specialize (A c C). unfold codeb. apply negb_true_iff.
  repeat (apply orb_false_iff; split); apply N.eqb_neq; intros ->; discriminate A.
Qed.
Lemma name_line s : a_name s -> one_line s.
Proof.
  intros A c C D. unfold a_name in A. rewrite Forall_forall in A. specialize (A c C). cbn in D. repeat (destruct D as [D|D]; [subst c; discriminate A|]). destruct D.
Qed.
Lemma name_harmless s t : a_name s -> harmless (s ++ t) = harmless t.
Proof.
  intros A. induction A as [|c s C A IH]; [reflexivity|]. cbn [app harmless].
  assert (E : forall x, name_char x = false -> (c =? x) = false) by (intros x X; apply N.eqb_neq; intros ->; congruence).
  rewrite !E by reflexivity. exact IH.
Qed.
Lemma name_not s x : a_name s -> name_char x = false -> ~ In x s.
Proof. intros A X I. unfold a_name in A. rewrite Forall_forall in A. apply A in I. congruence. Qed.
Lemma code_app a b : forallb codeb a = true -> forallb codeb b = true -> forallb codeb (a ++ b) = true.
Proof. intros A B. rewrite forallb_app, A, B. reflexivity. Qed.

Lemma before_code k name : a_name name -> forallb codeb (code_before k name) = true.
Proof. intros A. apply name_code in A. destruct k; cbn [code_before]; rewrite ?forallb_app, ?A; reflexivity. Qed.
Lemma after_code k name : a_name name -> forallb codeb (code_after k name) = true.
Proof. intros A. apply name_code in A. destruct k; cbn [code_after]; rewrite ?forallb_app, ?A; reflexivity. Qed.
Lemma before_line k name : a_name name -> one_line (code_before k name).
Proof. intros A. apply name_line in A. destruct k; cbn [code_before]; repeat apply one_line_app; try assumption; apply one_line_lit; reflexivity. Qed.
Lemma after_line k name : a_name name -> one_line (code_after k name).
Proof. intros A. apply name_line in A. destruct k; cbn [code_after]; repeat apply one_line_app; try assumption; apply one_line_lit; reflexivity. Qed.
Lemma before_last k name : last (code_before k name) 32 =? 114 = false.
Proof. destruct k; cbn [code_before]; rewrite ?last_app; reflexivity. Qed.
Lemma message_line k name : a_name name -> one_line (name ++ complaint k).
Proof. intros A. apply one_line_app; [now apply name_line|]. destruct k; apply one_line_lit; reflexivity. Qed.
Lemma message_head k name : a_name name -> match name ++ complaint k with c :: _ => c <> 34 | [] => False end.
Proof. intros A. destruct name as [|c name]; [destruct k; discriminate|]. inversion A; subst. intros ->. discriminate. Qed.
Lemma message_harmless k name s : a_name name -> harmless ((name ++ complaint k) ++ s) = harmless s.
Proof. intros A. rewrite <- app_assoc, name_harmless by assumption. destruct k; reflexivity. Qed.

Lemma string_check_shape k name s : string_check k name s = check (code_before k name) (quoted s) (code_after k name) (name ++ complaint k) s.
Proof. destruct k; reflexivity. Qed.
Lemma bytes_check_shape k name s : for_bytes k ->
  bytes_check k name s = check (code_before k name) (repr_bytes s) (code_after k name) (name ++ complaint k) (repr_bytes s).
Proof. intros B. destruct k; try reflexivity. now elim B. Qed.

Section Read.
Variable unicode : list N -> option N.
Notation tokens := (tokens unicode).

(** ** Texts between double quotes *)
Lemma harmless_head s : harmless s = true -> match s with c :: _ => c <> 34 | [] => True end.
Proof. destruct s as [|c s]; [auto|]. cbn [harmless]. intros H ->. discriminate. Qed.
Lemma read_quoted p s c t : harmless s = true -> one_line s -> (p =? 114) = false -> codeb c = true ->
  tokens (Code p) (quoted s ++ c :: t) = prepend [Lit s] (tokens (Code 34) (c :: t)).
Proof.
  intros H O P C. unfold quoted, dq. cbn [app]. rewrite <- app_assoc. rewrite read_open; [|now left|].
  - rewrite P, read_text by assumption. cbn [app]. now rewrite read_close.
  - apply harmless_head in H. destruct s as [|a [|b s]]; cbn [app]; [|intros ->; now elim H|intros ->; now elim H]. intros _ ->. discriminate.
Qed.
Lemma read_message k name s v t : a_name name -> harmless s = true -> one_line s ->
  tokens (Literal 34 Plain v) ((name ++ complaint k) ++ s ++ 34 :: t) = tokens (Literal 34 Plain (v ++ (name ++ complaint k) ++ s)) (34 :: t).
Proof.
  intros A H O. rewrite (app_assoc (name ++ complaint k)). apply read_text; [now rewrite message_harmless|]. apply one_line_app; [now apply message_line|assumption].
Qed.
Lemma string_exact ws k name s : a_name name -> one_line s ->
  (reads unicode (indents ws (string_check k name s)) = Some (two_lines (list_sum ws) (code_before k name) [Lit s] (code_after k name) (name ++ complaint k ++ s))
   <-> harmless s = true).
Proof.
  intros A O. rewrite string_check_shape, check_lines, <- sum_list; [|now apply before_line| |now apply after_line|now apply message_line|assumption].
  2:{ unfold quoted. repeat apply one_line_app; try assumption; apply one_line_lit; reflexivity. }
  split.
  - unfold reads, line1. rewrite <- !app_assoc. rewrite !read_code by (try apply codeb_spaces; try reflexivity; now apply before_code). rewrite !prepend_app.
    unfold two_lines. rewrite !chrs_app. change (repeat 32 (sum ws)) with (spaces (sum ws)). rewrite <- !app_assoc. intros H.
    rewrite !(app_assoc (chrs (spaces (sum ws)))) in H. rewrite !(app_assoc (_ ++ chrs (bs "if "))) in H. apply prepend_inj in H.
    unfold quoted, dq in H. cbn [app] in H. 
    replace (last (code_before k name) _) with (last (code_before k name) 32) in H by reflexivity.
    cbn [PyLex.tokens] in H. destruct (triple _ _); [discriminate|]. rewrite before_last in H. rewrite <- !app_assoc in H. cbn [app] in H.
    change (58 :: 10 :: ?x) with ([58] ++ 10 :: x) in H. rewrite (app_assoc (code_after k name)) in H.
    eapply lit_same; [exact H| |].
    + intros I. apply in_app_or in I. destruct I as [I|[I|[]]]; [|discriminate]. destruct k; cbn [code_after] in I; try (cbn in I; intuition discriminate);
        apply in_app_or in I; (destruct I as [I|I]; [vm_compute in I; intuition discriminate|]); now apply (name_not name 34 A eq_refl).
    + intros I. apply in_app_or in I. destruct I as [I|[I|[]]]; [|discriminate]. destruct k; cbn [code_after] in I; try (cbn in I; intuition discriminate);
        apply in_app_or in I; (destruct I as [I|I]; [vm_compute in I; intuition discriminate|]); now apply (name_not name 92 A eq_refl).
  - intros H. rewrite (app_assoc name). apply read_lines with (z := 34); [now apply before_code|now apply after_code| |now apply message_head|].
    + intros c t C. apply read_quoted; auto. apply before_last.
    + intros v t. now apply read_message.
Qed.

(** ** Texts with a line break *)
Lemma breakb_in c : In c [10; 11; 12; 13; 28; 29; 30; 133; 8232; 8233] -> breakb c = true.
Proof. intros H. unfold breakb. apply existsb_exists. exists c. split; [exact H|apply N.eqb_refl]. Qed.
Lemma lines_break a : one_line a -> forall acc c t, breakb c = true -> exists l, lines_from acc (a ++ c :: t) = (acc ++ a) :: l.
Proof.
  induction a as [|x a IH]; intros O acc c t B.
  - cbn [app lines_from]. rewrite B, app_nil_r. eexists. reflexivity.
  - cbn [app lines_from]. rewrite breakb_false by (apply O; now left). destruct (IH (fun y Y => O y (or_intror Y)) (acc ++ [x]) c t B) as [l ->]. exists l. now rewrite <- app_assoc.
Qed.
Definition cut (a s : text) : Prop := s = a \/ exists t, s = a ++ 10 :: t.
Lemma indent_break w a c t : one_line a -> breakb c = true -> cut (spaces w ++ a) (indent w (a ++ c :: t)).
Proof.
  intros O B. unfold indent, splitlines. rewrite <- app_assoc. cbn [app]. destruct (lines_break a O [] c (t ++ [10]) B) as [l ->]. cbn [app].
  destruct l as [|x l]; [left; cbn; now rewrite app_nil_r|]. right. eexists. cbn [flat_map]. cbn [app]. now rewrite <- app_assoc.
Qed.
Lemma indent_cut w a s : one_line a -> cut a s -> cut (spaces w ++ a) (indent w s).
Proof.
  intros O [->|[t ->]]; [|now apply indent_break]. left. unfold indent, splitlines. rewrite lines_line by assumption. cbn. now rewrite app_nil_r.
Qed.
Lemma indents_cut ws : forall a s, one_line a -> cut a s -> cut (spaces (sum ws) ++ a) (indents ws s).
Proof.
  induction ws as [|w ws IH]; intros a s O C; [exact C|]. unfold indents in *. cbn [fold_left]. unfold sum. cbn [fold_left]. rewrite sum_from, Nat.add_comm, <- spaces_app, <- app_assoc.
  apply IH; [|now apply indent_cut]. apply one_line_app; [apply one_line_spaces|assumption].
Qed.
Lemma break_fails w ws k name a c b : a_name name -> one_line a -> harmless a = true -> In c [10; 11; 12; 13; 28; 29; 30; 133; 8232; 8233] ->
  reads unicode (indents (w :: ws) (string_check k name (a ++ c :: b))) = None.
Proof.
  intros A O H C. rewrite string_check_shape. unfold check, quoted, dq. cbn [app]. rewrite <- !app_assoc.
  change (indents (w :: ws) ?x) with (indents ws (indent w x)).
  pose (l := bs "if " ++ code_before k name ++ 34 :: a).
  assert (OL : one_line l).
  { unfold l. change (34 :: a) with ([34] ++ a). repeat apply one_line_app; try assumption; try (now apply before_line); apply one_line_lit; reflexivity. }
  match goal with |- context [indent w ?x] => assert (E : exists t, x = l ++ c :: t) end.
  { eexists. unfold l. rewrite <- !app_assoc. cbn [app]. reflexivity. }
  destruct E as [t E]. rewrite E. clear E. pose proof (indent_break w l c t OL (breakb_in c C)) as K. apply (indents_cut ws) in K; [|apply one_line_app; [apply one_line_spaces|assumption]].
  rewrite app_assoc, spaces_app in K. set (m := (sum ws + w)%nat) in K.
  assert (R : forall x, (x = [] \/ exists t, x = 10 :: t) -> reads unicode ((spaces m ++ l) ++ x) = None).
  { intros x X. unfold reads, l. rewrite <- !app_assoc. rewrite !read_code by (try apply codeb_spaces; try reflexivity; now apply before_code). cbn [app]. rewrite read_open; [|now left|].
    - replace (last (code_before k name) _) with (last (code_before k name) 32) by reflexivity. rewrite before_last, read_text by assumption. destruct X as [->|[t' ->]]; reflexivity.
    - apply harmless_head in H. destruct a as [|y [|z a]]; cbn [app]; [|destruct X as [->|[t' ->]]; [exact I|intros ->; now elim H]|intros ->; now elim H].
      destruct X as [->|[t' ->]]; [exact I|]. destruct t'; [exact I|discriminate]. }
  destruct K as [->|[t' ->]]; [|apply R; right; now exists t']. rewrite <- (app_nil_r (spaces m ++ l)). apply R. now left.
Qed.

(** ** Texts with quotes: code *)
Lemma plain_codeb c : plain_code c -> forallb codeb c = true.
Proof.
  intros (_ & _ & F). apply forallb_forall. intros x X. rewrite Forall_forall in F. specialize (F x X). unfold codeb. apply negb_true_iff.
  repeat (apply orb_false_iff; split); apply N.eqb_neq; intros ->; apply F; cbn; tauto.
Qed.
Lemma read_empty p c t : codeb c = true -> tokens (Code p) (34 :: 34 :: c :: t) = prepend [Lit []] (tokens (Code 34) (c :: t)).
Proof.
  intros C. rewrite read_open; [|now left|intros _ ->; discriminate]. rewrite read_step. destruct (p =? 114); cbn [step plain]; [|unfold plain]; cbn; now destruct (PyLex.tokens _ _ _).
Qed.
Lemma read_injected ws name c : a_name name -> plain_code c ->
  reads unicode (indents ws (string_check Const name ([34] ++ c ++ [34]))) =
  Some (chrs (repeat 32 (list_sum ws) ++ bs "if " ++ name ++ bs " != ") ++ [Lit []] ++ chrs c ++ [Lit []] ++
        chrs (bs ":" ++ [10] ++ repeat 32 (list_sum ws + 8) ++ bs "raise ValidationFailed(") ++
        [Lit (name ++ bs " not equal to ")] ++ chrs c ++ [Lit []] ++ chrs (bs ")")).
Proof.
  intros A P. pose proof (plain_codeb c P) as PC. destruct P as (P1 & P2 & _).
  rewrite string_check_shape, check_lines, <- sum_list; [|now apply before_line| |now apply after_line|now apply message_line|].
  2,3: unfold quoted; repeat apply one_line_app; try assumption; apply one_line_lit; reflexivity.
  set (w := sum ws). unfold reads, line1, line2. rewrite <- !app_assoc. rewrite !read_code by (try apply codeb_spaces; try reflexivity; now apply before_code).
  unfold quoted, dq. cbn [app]. rewrite <- !app_assoc. destruct c as [|x c]; [now elim P1|]. cbn [app].
  rewrite read_empty by (cbn in PC; now apply andb_true_iff in PC). change (x :: c ++ ?t) with ((x :: c) ++ t). rewrite read_code by assumption.
  cbn [code_after app]. change (bs ":") with [58]. cbn [app]. rewrite read_empty by reflexivity.
  change (58 :: 10 :: ?t) with ([58; 10] ++ t). rewrite read_code by reflexivity. rewrite read_code by apply codeb_spaces.
  change (bs "        raise ValidationFailed(""") with (bs "        raise ValidationFailed(" ++ [34]). rewrite <- app_assoc. rewrite read_code by reflexivity.
  cbn [app]. rewrite read_open; [|now left|].
  2:{ pose proof (message_head Const name A) as M. destruct name as [|a [|b name]]; cbn [app complaint] in *; [intros E; discriminate E|intros ->; now elim M|intros ->; now elim M]. }
  change (last (bs "        raise ValidationFailed(") _ =? 114) with false. cbn iota.
  change (name ++ bs " not equal to " ++ ?t) with (name ++ complaint Const ++ t). rewrite app_assoc.
  rewrite read_text; [|rewrite <- (app_nil_r (name ++ complaint Const)); now rewrite message_harmless|now apply message_line]. cbn [app]. rewrite read_close by discriminate.
  change (x :: c ++ ?t) with ((x :: c) ++ t). rewrite read_code by assumption. change (bs """)") with [34; 41]. cbn [app]. rewrite read_empty by reflexivity.
  change [41] with ([41] ++ []) at 1. rewrite read_code by reflexivity. cbn [PyLex.tokens]. rewrite !prepend_app. cbn [prepend]. f_equal.
  match goal with |- context [chrs (58 :: 10 :: ?u ++ ?v)] => change (chrs (58 :: 10 :: u ++ v)) with (chrs [58; 10] ++ chrs (u ++ v)) end.
  rewrite !chrs_app, <- !app_assoc. change (repeat 32) with spaces. rewrite (Nat.add_comm w 8), <- (spaces_app 8 w), !chrs_app, <- !app_assoc.
  assert (S : forall l, chrs (spaces w) ++ chrs (bs "        raise ValidationFailed(") ++ l = chrs (spaces 8) ++ chrs (spaces w) ++ chrs (bs "raise ValidationFailed(") ++ l).
  { intros l. change (bs "        raise ValidationFailed(") with (spaces 8 ++ bs "raise ValidationFailed("). rewrite chrs_app, !app_assoc, <- !chrs_app, !spaces_app.
    now rewrite (Nat.add_comm w 8). }
  rewrite S. cbn [code_before]. rewrite !chrs_app, <- !app_assoc. reflexivity.
Qed.

(** ** Several lines *)
Lemma read_newline a : forall m t b, tokens m a = Some t -> tokens m (a ++ 10 :: b) = prepend (t ++ [Chr 10]) (reads unicode b).
Proof.
  induction a as [|c a IH]; intros m t b H.
  - destruct m; try discriminate H; injection H as <-; apply add_prepend.
  - cbn [app]. destruct m as [p| |q i v].
    + cbn [PyLex.tokens] in H |- *. destruct ((c =? 34) || (c =? 39)) eqn:Q.
      * assert (T : triple c (a ++ 10 :: b) = triple c a).
        { destruct a as [|x [|y a]]; cbn [app triple]; try reflexivity; [destruct b; [reflexivity|]|];
            apply orb_true_iff in Q; destruct Q as [Q|Q]; apply N.eqb_eq in Q; subst c; cbn; rewrite ?andb_false_r; reflexivity. }
        rewrite T. destruct (triple c a); [discriminate|]. now apply IH.
      * destruct (c =? 35); [now apply IH|]. destruct (c =? 0); [discriminate|]. destruct (tokens (Code c) a) eqn:E; [|discriminate]. injection H as <-.
        rewrite (IH _ _ b E), add_prepend, prepend_app. reflexivity.
    + cbn [PyLex.tokens] in H |- *. destruct (newline c); [|now apply IH]. destruct (tokens (Code c) a) eqn:E; [|discriminate]. injection H as <-.
      rewrite (IH _ _ b E), add_prepend, prepend_app. reflexivity.
    + rewrite read_step in H |- *. destruct (step unicode q i c) as [[e [j|]]|]; [now apply IH| |discriminate]. destruct (tokens (Code c) a) eqn:E; [|discriminate]. injection H as <-.
      rewrite (IH _ _ b E), add_prepend, prepend_app. reflexivity.
Qed.
End Read.
