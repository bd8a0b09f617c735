(** Constants that are written by repr, and patterns. *)
From Coq Require Import Lia.
From Verif Require Import Base Utf8 Utf8Facts Spec LitSpec Py PySpec PyLit PyLex PyLitSpec PyLitFacts PyLitMore.
Local Open Scope N_scope.

Section Read.
Variable unicode : list N -> option N.
Notation tokens := (tokens unicode).

(** ** Hexadecimal digits *)
Lemma hex_digit d : d < 16 -> hexadecimal (hexdigit d) = Some d.
Proof.
  intros D. assert (K : In d [0; 1; 2; 3; 4; 5; 6; 7; 8; 9; 10; 11; 12; 13; 14; 15]) by (cbn; lia).
  cbn in K. repeat (destruct K as [<-|K]; [reflexivity|]). destruct K.
Qed.
Lemma hexdigit_range d : d < 16 -> 48 <= hexdigit d < 103.
Proof. intros D. unfold hexdigit. destruct (d <? 10) eqn:E; [apply N.ltb_lt in E|apply N.ltb_ge in E]; lia. Qed.
Lemma read_hexes q k : forall j n c v t, tokens (Literal q (Hex (k + S j) n) v) (hexes_of k c ++ t) =
  tokens (Literal q (Hex (S j) (n * 16 ^ N.of_nat k + c mod 16 ^ N.of_nat k)) v) t.
Proof.
  induction k as [|k IH]; intros j n c v t.
  - cbn [hexes_of app plus]. change (16 ^ N.of_nat 0) with 1. rewrite N.mod_1_r, N.mul_1_r, N.add_0_r. reflexivity.
  - cbn [hexes_of]. rewrite <- app_assoc. replace (S k + S j)%nat with (k + S (S j))%nat by lia. rewrite IH. cbn [app]. rewrite read_step. cbn [step].
    assert (M : c mod 16 < 16) by (apply N.mod_lt; discriminate).
    rewrite hex_digit by assumption. rewrite app_nil_r. f_equal. f_equal. f_equal.
    rewrite Nat2N.inj_succ, N.pow_succ_r'. rewrite (N.mod_mul_r c 16 (16 ^ N.of_nat k)); [|discriminate|apply N.pow_nonzero; discriminate]. lia.
Qed.
Lemma read_hex q k c v t : c < 16 ^ N.of_nat (S k) -> c < 0x110000 ->
  tokens (Literal q (Hex (S k) 0) v) (hexes_of (S k) c ++ t) = tokens (Literal q Plain (v ++ [c])) t.
Proof.
  intros B P. cbn [hexes_of]. rewrite <- app_assoc. replace (S k) with (k + 1)%nat at 1 by lia. rewrite read_hexes. cbn [app]. rewrite read_step. cbn [step].
  assert (M : c mod 16 < 16) by (apply N.mod_lt; discriminate). rewrite hex_digit by assumption.
  rewrite N.mod_small; [|rewrite Nat2N.inj_succ, N.pow_succ_r' in B; apply N.div_lt_upper_bound; [discriminate|exact B]].
  replace (16 * (0 * 16 ^ N.of_nat k + c / 16) + c mod 16) with c by (rewrite N.mul_0_l, N.add_0_l; apply N.div_mod; discriminate).
  apply N.ltb_lt in P. now rewrite P.
Qed.

(** ** repr *)
Section Repr.
Variable printable : N -> bool.
Definition quotec (q : N) : Prop := q = 34 \/ q = 39.
Lemma read_repr_char q qr c v t : quotec q -> quotec qr -> (q = qr \/ c <> q) -> c < 0x110000 ->
  tokens (Literal q Plain v) (repr_char printable qr c ++ t) = tokens (Literal q Plain (v ++ [c])) t.
Proof.
  intros Q R D P. unfold repr_char.
  assert (B : forall x u, tokens (Literal q Plain v) (92 :: x :: u) = match step unicode q Escape x with
      | None => None | Some (e, None) => add (Lit (v ++ e)) (tokens (Code x) u) | Some (e, Some i) => tokens (Literal q i (v ++ e)) u end).
  { intros x u. rewrite read_step. cbn [step]. unfold plain. destruct Q; subst q; cbn; rewrite app_nil_r; reflexivity. }
  destruct ((c =? qr) || (c =? 92)) eqn:E1.
  { cbn [app]. rewrite B. apply orb_true_iff in E1. destruct E1 as [E|E]; apply N.eqb_eq in E; subst c; [destruct R; subst qr|]; reflexivity. }
  apply orb_false_iff in E1. destruct E1 as [E0 E1].
  assert (ONE : newline c = false -> c <> 0 -> tokens (Literal q Plain v) ([c] ++ t) = tokens (Literal q Plain (v ++ [c])) t).
  { intros NL Z. cbn [app]. rewrite read_step. cbn [step]. unfold plain. apply N.eqb_neq in Z. rewrite E1, NL, Z. cbn [orb].
    replace (c =? q) with false; [reflexivity|]. symmetry. destruct D as [->|D]; [assumption|now apply N.eqb_neq]. }
  destruct (c =? 9) eqn:E2; [apply N.eqb_eq in E2; subst c; change (bs "\t") with [92; 116]; cbn [app]; now rewrite B|].
  destruct (c =? 10) eqn:E3; [apply N.eqb_eq in E3; subst c; change (bs "\n") with [92; 110]; cbn [app]; now rewrite B|].
  destruct (c =? 13) eqn:E4; [apply N.eqb_eq in E4; subst c; change (bs "\r") with [92; 114]; cbn [app]; now rewrite B|].
  assert (NL : newline c = false) by (unfold newline; now rewrite E3, E4).
  destruct ((32 <=? c) && (c <? 127)) eqn:E5.
  { apply andb_true_iff in E5. destruct E5 as [E5 _]. apply N.leb_le in E5. apply ONE; [assumption|lia]. }
  destruct ((128 <=? c) && printable c) eqn:E6.
  { apply andb_true_iff in E6. destruct E6 as [E6 _]. apply N.leb_le in E6. apply ONE; [assumption|lia]. }
  destruct (c <? 256) eqn:E7.
  { apply N.ltb_lt in E7. change (bs "\x") with [92; 120]. rewrite <- app_assoc. cbn [app]. rewrite B. cbn [step]. cbn. rewrite app_nil_r. now apply (read_hex q 1). }
  destruct (c <? 65536) eqn:E8.
  { apply N.ltb_lt in E8. change (bs "\u") with [92; 117]. rewrite <- app_assoc. cbn [app]. rewrite B. cbn [step]. cbn. rewrite app_nil_r. now apply (read_hex q 3). }
  change (bs "\U") with [92; 85]. rewrite <- app_assoc. cbn [app]. rewrite B. cbn [step]. cbn. rewrite app_nil_r. apply (read_hex q 7); [|assumption].
  change (16 ^ N.of_nat 8) with 0x100000000. lia.
Qed.
Lemma read_repr_body q qr s : quotec q -> quotec qr -> (q = qr \/ ~ In q s) -> code_points s ->
  forall v t, tokens (Literal q Plain v) (flat_map (repr_char printable qr) s ++ t) = tokens (Literal q Plain (v ++ s)) t.
Proof.
  intros Q R D P. induction P as [|c s C P IH]; intros v t; [now rewrite app_nil_r|]. cbn [flat_map]. rewrite <- app_assoc.
  rewrite read_repr_char; [|assumption|assumption| |assumption].
  - rewrite IH; [now rewrite <- app_assoc|]. destruct D as [D|D]; [now left|right; intros I; apply D; now right].
  - destruct D as [D|D]; [now left|right; intros ->; apply D; now left].
Qed.
Lemma quote_of_quote s : quotec (quote_of s).
Proof. unfold quote_of. destruct (_ && _); [now left|now right]. Qed.
Lemma repr_head q c : quotec q -> exists x l, repr_char printable q c = x :: l /\ x <> q.
Proof.
  intros Q. unfold repr_char. destruct ((c =? q) || (c =? 92)) eqn:E1; [exists 92, [c]; split; [reflexivity|destruct Q; subst; discriminate]|].
  apply orb_false_iff in E1. destruct E1 as [E0 _]. apply N.eqb_neq in E0.
  repeat match goal with |- context [if ?b then _ else _] => destruct b end; eexists; eexists; (split; [reflexivity|]); try assumption; destruct Q; subst; discriminate.
Qed.
Lemma read_repr p s c t : code_points s -> (p =? 114) = false -> codeb c = true ->
  tokens (Code p) (repr printable s ++ c :: t) = prepend [Lit s] (tokens (Code (quote_of s)) (c :: t)).
Proof.
  intros P NR C. unfold repr, repr_body. pose proof (quote_of_quote s) as Q. remember (quote_of s) as q. clear Heqq. cbn [app]. rewrite <- app_assoc. rewrite read_open; [|exact Q|].
  - rewrite NR, read_repr_body; [|exact Q|exact Q|now left|assumption]. cbn [app]. apply read_close. destruct Q; subst; discriminate.
  - assert (CQ : c <> q) by (intros ->; destruct Q; subst; discriminate). destruct s as [|x s]; cbn [flat_map app]; [intros _; exact CQ|].
    destruct (repr_head q x Q) as (y & l & E & N). rewrite E. cbn [app]. destruct (((l ++ flat_map (repr_char printable q) s) ++ q :: c :: t)) eqn:F; [exact I|]. intros ->. now elim N.
Qed.
Lemma hexes_line k : forall c, one_line (hexes_of k c).
Proof.
  induction k as [|k IH]; intros c; [intros x []|]. cbn [hexes_of]. apply one_line_app; [apply IH|]. intros x [<-|[]] D.
  assert (M : c mod 16 < 16) by (apply N.mod_lt; discriminate). apply hexdigit_range in M. cbn in D. lia.
Qed.
Lemma repr_char_line q c : printable_ok printable -> quotec q -> one_line (repr_char printable q c).
Proof.
  intros PO Q. unfold repr_char. destruct ((c =? q) || (c =? 92)) eqn:E1.
  { apply orb_true_iff in E1. destruct E1 as [E|E]; apply N.eqb_eq in E; subst c; [destruct Q; subst q|]; apply one_line_lit; reflexivity. }
  destruct (c =? 9); [apply one_line_lit; reflexivity|]. destruct (c =? 10); [apply one_line_lit; reflexivity|]. destruct (c =? 13); [apply one_line_lit; reflexivity|].
  destruct ((32 <=? c) && (c <? 127)) eqn:E5.
  { apply andb_true_iff in E5. destruct E5 as [E5 E6]. apply N.leb_le in E5. apply N.ltb_lt in E6. intros x [<-|[]] D. cbn in D. lia. }
  destruct ((128 <=? c) && printable c) eqn:E6.
  { apply andb_true_iff in E6. destruct E6 as [E6 E7]. apply N.leb_le in E6. intros x [<-|[]] D. cbn in D.
    assert (K : In c [133; 8232; 8233]) by (cbn; lia). apply PO in K. congruence. }
  destruct (c <? 256); [|destruct (c <? 65536)]; apply one_line_app; try apply hexes_line; apply one_line_lit; reflexivity.
Qed.
Lemma repr_line s : printable_ok printable -> one_line (repr printable s).
Proof.
  intros PO. unfold repr, repr_body. pose proof (quote_of_quote s) as Q. remember (quote_of s) as q. clear Heqq.
  change (q :: ?x) with ([q] ++ x). assert (QL : one_line [q]) by (destruct Q; subst; apply one_line_lit; reflexivity).
  apply one_line_app; [assumption|]. apply one_line_app; [|assumption]. clear QL.
  induction s as [|c s IH]; [intros x []|]. cbn [flat_map]. apply one_line_app; [now apply repr_char_line|exact IH].
Qed.
(** In the text of an exception. *)
Lemma repr_single s : no_quotes s -> repr printable s = [39] ++ flat_map (repr_char printable 39) s ++ [39].
Proof.
  intros [_ N]. unfold repr, repr_body. assert (E : quote_of s = 39); [|now rewrite E]. unfold quote_of.
  replace (existsb (N.eqb 39) s) with false; [reflexivity|]. symmetry. destruct (existsb (N.eqb 39) s) eqn:E; [|reflexivity]. apply existsb_exists in E.
  destruct E as (x & X & E). apply N.eqb_eq in E. subst x. contradiction.
Qed.
Lemma read_apostrophe v t : tokens (Literal 34 Plain v) (39 :: t) = tokens (Literal 34 Plain (v ++ [39])) t.
Proof. reflexivity. Qed.
Lemma read_shown s : no_quotes s -> code_points s -> forall v t, tokens (Literal 34 Plain v) (repr printable s ++ t) = tokens (Literal 34 Plain (v ++ [39] ++ s ++ [39])) t.
Proof.
  intros N P v t. rewrite repr_single by assumption. rewrite <- !app_assoc. cbn [app]. rewrite read_apostrophe. rewrite read_repr_body; [|now left|now right|right; apply N|assumption].
  cbn [app]. rewrite read_apostrophe, <- !app_assoc. reflexivity.
Qed.
End Repr.

(** ** Lists *)
Section Lists.
Variable item : text -> text.
Variable prefix : text.
Hypothesis item_read : forall s p c t, code_points s -> (p =? 114) = false -> codeb c = true -> exists z, (z =? 114) = false /\
  tokens (Code p) (item s ++ c :: t) = prepend (chrs prefix ++ [Lit s]) (tokens (Code z) (c :: t)).
Hypothesis item_shown : forall s v t, no_quotes s -> code_points s -> tokens (Literal 34 Plain v) (item s ++ t) = tokens (Literal 34 Plain (v ++ prefix ++ [39] ++ s ++ [39])) t.
Hypothesis item_line : forall s, one_line (item s).
Lemma read_items l : Forall code_points l -> forall p t, (p =? 114) = false -> exists z, (z =? 114) = false /\
  tokens (Code p) (commas (map item l) ++ 93 :: t) = prepend (literals prefix l) (tokens (Code z) (93 :: t)).
Proof.
  intros F. induction F as [|s l S F IH]; intros p t P; [exists p; split; [assumption|symmetry; apply prepend_nil]|]. destruct l as [|s' l].
  - apply item_read; auto.
  - change (commas (map item (s :: s' :: l))) with (item s ++ bs ", " ++ commas (map item (s' :: l))).
    change (literals prefix (s :: s' :: l)) with (chrs prefix ++ [Lit s] ++ chrs (bs ", ") ++ literals prefix (s' :: l)).
    destruct (IH 32 t eq_refl) as (z & Z & E). exists z. split; [assumption|]. rewrite <- !app_assoc. change (bs ", ") with (44 :: [32]) at 1. cbn [app].
    destruct (item_read s p 44 (32 :: commas (map item (s' :: l)) ++ 93 :: t) S P eq_refl) as (z' & Z' & E'). rewrite E'.
    change (44 :: 32 :: ?x) with (bs ", " ++ x). rewrite read_code by reflexivity. change (last (bs ", ") z') with 32. rewrite E, !prepend_app. now rewrite <- !app_assoc.
Qed.
Lemma read_list l p c t : Forall code_points l -> (p =? 114) = false ->
  tokens (Code p) (repr_list (map item l) ++ c :: t) = prepend (list_tokens prefix l) (tokens (Code 93) (c :: t)).
Proof.
  intros F P. unfold repr_list, list_tokens. rewrite <- !app_assoc. rewrite read_code by reflexivity. change (last (bs "[") p) with 91. change (bs "]" ++ c :: t) with (93 :: c :: t).
  destruct (read_items l F 91 (c :: t) eq_refl) as (z & Z & E). rewrite E. change (93 :: c :: t) with ([93] ++ c :: t). rewrite read_code by reflexivity. rewrite !prepend_app.
  now rewrite <- !app_assoc.
Qed.
Lemma show_items l : Forall code_points l -> Forall no_quotes l -> forall v t,
  tokens (Literal 34 Plain v) (commas (map item l) ++ t) = tokens (Literal 34 Plain (v ++ shown_items prefix l)) t.
Proof.
  intros F. induction F as [|s l S F IH]; intros Q v t; [now rewrite app_nil_r|]. inversion Q; subst. destruct l as [|s' l].
  - now apply item_shown.
  - change (commas (map item (s :: s' :: l))) with (item s ++ bs ", " ++ commas (map item (s' :: l))).
    change (shown_items prefix (s :: s' :: l)) with (prefix ++ [39] ++ s ++ [39] ++ bs ", " ++ shown_items prefix (s' :: l)).
    rewrite <- !app_assoc. rewrite item_shown by assumption. rewrite read_text; [|reflexivity|apply one_line_lit; reflexivity]. rewrite IH by assumption. now rewrite <- !app_assoc.
Qed.
Lemma show_list l : Forall code_points l -> Forall no_quotes l -> forall v t,
  tokens (Literal 34 Plain v) (repr_list (map item l) ++ t) = tokens (Literal 34 Plain (v ++ shown_list prefix l)) t.
Proof.
  intros F Q v t. unfold repr_list, shown_list. rewrite <- !app_assoc. rewrite read_text; [|reflexivity|apply one_line_lit; reflexivity].
  rewrite show_items by assumption. rewrite read_text; [|reflexivity|apply one_line_lit; reflexivity]. now rewrite <- !app_assoc.
Qed.
Lemma list_line l : one_line (repr_list (map item l)).
Proof.
  unfold repr_list. repeat apply one_line_app; try (apply one_line_lit; reflexivity). induction l as [|s l IH]; [intros x []|]. destruct l as [|s' l]; [apply item_line|].
  change (commas (map item (s :: s' :: l))) with (item s ++ bs ", " ++ commas (map item (s' :: l))). repeat apply one_line_app; auto. apply one_line_lit; reflexivity.
Qed.
Lemma in_exact ws not_in what name l : a_name what -> a_name name -> Forall code_points l -> Forall no_quotes l ->
  let word := if (not_in : bool) then bs " in " else bs " not in " in
  reads unicode (indents ws (in_check not_in what name (repr_list (map item l)))) =
  Some (two_lines (list_sum ws) (what ++ word) (list_tokens prefix l) [] (name ++ word ++ shown_list prefix l)).
Proof.
  intros AW A P Q word. unfold in_check. fold word.
  assert (WL : one_line word) by (unfold word; destruct not_in; apply one_line_lit; reflexivity).
  rewrite check_lines, <- sum_list; [|apply one_line_app; [now apply name_line|assumption]|apply list_line|intros x []|apply one_line_app; [now apply name_line|assumption]|apply list_line].
  apply read_lines with (z := 93).
  - rewrite forallb_app, (name_code _ AW). unfold word; destruct not_in; reflexivity.
  - reflexivity.
  - intros c t C. apply read_list; [assumption|]. rewrite last_app. unfold word; destruct not_in; reflexivity.
  - destruct name as [|x name]; [unfold word; destruct not_in; vm_compute; discriminate|]. inversion A; subst. intros ->. discriminate.
  - intros v t. rewrite read_text; [|rewrite name_harmless by assumption; unfold word; destruct not_in; reflexivity|apply one_line_app; [now apply name_line|assumption]].
    rewrite show_list by assumption. now rewrite <- !app_assoc.
Qed.
End Lists.
Lemma repr_item printable s p c t : code_points s -> (p =? 114) = false -> codeb c = true -> exists z, (z =? 114) = false /\
  tokens (Code p) (repr printable s ++ c :: t) = prepend (chrs [] ++ [Lit s]) (tokens (Code z) (c :: t)).
Proof. intros P R C. exists (quote_of s). split; [destruct (quote_of_quote s) as [-> | ->]; reflexivity|now apply read_repr]. Qed.
Lemma bytes_item s p c t : code_points s -> (p =? 114) = false -> codeb c = true -> exists z, (z =? 114) = false /\
  tokens (Code p) (repr_bytes s ++ c :: t) = prepend (chrs [98] ++ [Lit s]) (tokens (Code z) (c :: t)).
Proof.
  intros P R C. exists (quote_of s). split; [destruct (quote_of_quote s) as [-> | ->]; reflexivity|]. unfold repr_bytes. cbn [app]. change (98 :: ?x) with ([98] ++ x).
  rewrite read_code by reflexivity. change (last [98] p) with 98. rewrite read_repr by auto. now rewrite prepend_app.
Qed.
Lemma bytes_shown s v t : no_quotes s -> code_points s -> tokens (Literal 34 Plain v) (repr_bytes s ++ t) = tokens (Literal 34 Plain (v ++ [98] ++ [39] ++ s ++ [39])) t.
Proof.
  intros N P. unfold repr_bytes. cbn [app]. change (98 :: ?x ++ t) with ([98] ++ x ++ t). rewrite read_text; [|reflexivity|apply one_line_lit; reflexivity].
  rewrite read_shown by assumption. now rewrite <- !app_assoc.
Qed.
Lemma bytes_line s : one_line (repr_bytes s).
Proof. unfold repr_bytes. change (98 :: ?x) with ([98] ++ x). apply one_line_app; [apply one_line_lit; reflexivity|]. apply repr_line. intros c _. reflexivity. Qed.
Lemma octet_points s : octets s -> code_points s.
Proof. intros O. eapply Forall_impl; [|exact O]. cbn. intros. lia. Qed.

Lemma strings_exact printable ws not_in what name l : printable_ok printable -> a_name what -> a_name name -> Forall code_points l -> Forall no_quotes l ->
  let word := if (not_in : bool) then bs " in " else bs " not in " in
  reads unicode (indents ws (in_check not_in what name (repr_list (map (repr printable) l)))) =
  Some (two_lines (list_sum ws) (what ++ word) (list_tokens [] l) [] (name ++ word ++ shown_list [] l)).
Proof.
  intros PO. apply in_exact.
  - intros. now apply repr_item.
  - intros. now apply read_shown.
  - intros. now apply repr_line.
Qed.
Lemma bytes_list_exact ws not_in what name l : a_name what -> a_name name -> Forall octets l -> Forall no_quotes l ->
  let word := if (not_in : bool) then bs " in " else bs " not in " in
  reads unicode (indents ws (in_check not_in what name (repr_list (map repr_bytes l)))) =
  Some (two_lines (list_sum ws) (what ++ word) (list_tokens (bs "b") l) [] (name ++ word ++ shown_list (bs "b") l)).
Proof.
  intros AW A O. apply in_exact; try assumption.
  - intros. now apply bytes_item.
  - intros. now apply bytes_shown.
  - apply bytes_line.
  - eapply Forall_impl; [|exact O]. intros. now apply octet_points.
Qed.
Lemma bytes_exact ws k name s : for_bytes k -> a_name name -> octets s -> no_quotes s ->
  reads unicode (indents ws (bytes_check k name s)) =
  Some (two_lines (list_sum ws) (code_before k name) (chrs (bs "b") ++ [Lit s]) (code_after k name) (name ++ complaint k ++ bs "b'" ++ s ++ bs "'")).
Proof.
  intros K A O Q. apply octet_points in O. rewrite bytes_check_shape by assumption.
  rewrite check_lines, <- sum_list; [|now apply before_line|apply bytes_line|now apply after_line|now apply message_line|apply bytes_line].
  apply read_lines with (z := quote_of s); [now apply before_code|now apply after_code| |now apply message_head|].
  - intros c t C. unfold repr_bytes. cbn [app]. change (98 :: ?x) with ([98] ++ x). rewrite read_code by reflexivity. change (last [98] _) with 98. rewrite read_repr by auto.
    now rewrite prepend_app.
  - intros v t. rewrite read_text; [|rewrite <- (app_nil_r (name ++ complaint k)); now rewrite message_harmless|now apply message_line]. rewrite bytes_shown by assumption.
    now rewrite <- !app_assoc.
Qed.

(** ** Patterns *)
Lemma read_raw s : forall i v t, (i = Raw \/ i = RawEscape /\ s <> []) -> one_line s -> ~ In 0 s -> ~ In 39 s -> last s 0 <> 92 ->
  tokens (Literal 39 i v) (s ++ t) = tokens (Literal 39 Raw (v ++ s)) t.
Proof.
  induction s as [|c s IH]; intros i v t H O Z Q L.
  - destruct H as [->|[_ H]]; [now rewrite app_nil_r|now elim H].
  - assert (NL : newline c = false) by (apply not_newline, O; now left). assert (C0 : (c =? 0) = false) by (apply N.eqb_neq; intros ->; apply Z; now left).
    assert (C39 : (c =? 39) = false) by (apply N.eqb_neq; intros ->; apply Q; now left).
    assert (O' : one_line s) by (intros x X; apply O; now right). assert (Z' : ~ In 0 s) by (intros X; apply Z; now right). assert (Q' : ~ In 39 s) by (intros X; apply Q; now right).
    assert (L' : last s 0 <> 92) by (destruct s; [discriminate|exact L]).
    cbn [app]. rewrite read_step. destruct H as [->|[-> _]]; cbn [step].
    + rewrite C39, NL, C0. cbn [orb]. rewrite IH; auto; [now rewrite <- app_assoc|]. destruct (c =? 92) eqn:B; [|now left]. right. split; [reflexivity|].
      intros ->. apply N.eqb_eq in B. subst c. now elim L.
    + rewrite C0. rewrite IH; auto. now rewrite <- app_assoc.
Qed.
Definition mild (i : inside) (s : text) : Prop :=
  match i with Plain | Oct _ _ => True | Escape => exists c t, s = c :: t /\ ~ In c (bs "NUux") | _ => False end.
Lemma read_mild s : one_line s -> ~ In 0 s -> ~ In 34 s -> (forall a b, s = a ++ 92 :: b -> exists c t, b = c :: t /\ ~ In c (bs "NUux")) ->
  forall i, mild i s -> exists m, forall v t, tokens (Literal 34 i v) (s ++ 34 :: t) = prepend [Lit (v ++ m)] (tokens (Code 34) t).
Proof.
  induction s as [|c s IH]; intros O Z Q B i M.
  - destruct i; try destruct M as (? & ? & M & _); try discriminate M; try (destruct M; fail).
    + exists []. intros v t. cbn [app]. rewrite read_close by discriminate. now rewrite app_nil_r.
    + exists [n]. intros v t. cbn [app]. rewrite read_step. cbn [step]. destruct k; cbn; now destruct (PyLex.tokens _ _ _).
  - assert (NL : newline c = false) by (apply not_newline, O; now left). assert (C0 : (c =? 0) = false) by (apply N.eqb_neq; intros ->; apply Z; now left).
    assert (C34 : (c =? 34) = false) by (apply N.eqb_neq; intros ->; apply Q; now left).
    assert (O' : one_line s) by (intros x X; apply O; now right). assert (Z' : ~ In 0 s) by (intros X; apply Z; now right). assert (Q' : ~ In 34 s) by (intros X; apply Q; now right).
    assert (B' : forall a b, s = a ++ 92 :: b -> exists c t, b = c :: t /\ ~ In c (bs "NUux")) by (intros a b ->; apply (B (c :: a)); reflexivity).
    specialize (IH O' Z' Q' B').
    assert (GO : forall e i', mild i' s -> exists m, forall v t, tokens (Literal 34 i' (v ++ e)) (s ++ 34 :: t) = prepend [Lit (v ++ m)] (tokens (Code 34) t)).
    { intros e i' M'. destruct (IH i' M') as [m E]. exists (e ++ m). intros v t. rewrite E. now rewrite <- app_assoc. }
    assert (PL : forall pre, exists m, forall v t, match plain 34 c with
        | None => None
        | Some (e, None) => add (Lit (v ++ pre ++ e)) (tokens (Code c) (s ++ 34 :: t))
        | Some (e, Some i) => tokens (Literal 34 i (v ++ pre ++ e)) (s ++ 34 :: t)
        end = prepend [Lit (v ++ m)] (tokens (Code 34) t)).
    { intros pre. unfold plain. rewrite C34, NL, C0. destruct (c =? 92) eqn:C92.
      - apply N.eqb_eq in C92. subst c. apply (GO (pre ++ [])). destruct (B [] s eq_refl) as (d & u & -> & D). exists d, u. now split.
      - cbn [orb]. apply (GO (pre ++ [c])). exact I. }
    destruct i; try (destruct M; fail).
    + destruct (PL []) as [m E]. exists m. intros v t. cbn [app]. rewrite read_step. exact (E v t).
    + destruct M as (c' & t' & [= <- <-] & M). 
      assert (K : forall e i', step unicode 34 Escape c = Some (e, Some i') -> mild i' s ->
          exists m, forall v t, tokens (Literal 34 Escape v) ((c :: s) ++ 34 :: t) = prepend [Lit (v ++ m)] (tokens (Code 34) t)).
      { intros e i' E M'. destruct (GO e i' M') as [m G]. exists m. intros v t. cbn [app]. rewrite read_step, E. apply G. }
      cbn [step] in K. rewrite NL, C0 in K. destruct (escape_char c); [now eapply K|]. destruct (octal c); [eapply K; [reflexivity|exact I]|].
      assert (X : forall x, In x (bs "NUux") -> (c =? x) = false) by (intros x X; apply N.eqb_neq; intros ->; contradiction).
      rewrite !X in K by (vm_compute; tauto). eapply K; [reflexivity|exact I].
    + destruct (PL [n]) as [m E].
      assert (K : exists m, forall v t, match match plain 34 c with Some (v, i) => Some (n :: v, i) | None => None end with
          | None => None
          | Some (e, None) => add (Lit (v ++ e)) (tokens (Code c) (s ++ 34 :: t))
          | Some (e, Some i) => tokens (Literal 34 i (v ++ e)) (s ++ 34 :: t)
          end = prepend [Lit (v ++ m)] (tokens (Code 34) t)).
      { exists m. intros v t. rewrite <- E. now destruct (plain 34 c) as [[e [j|]]|]. }
      destruct k as [|k]; [destruct K as [m' K]; exists m'; intros v t; cbn [app]; rewrite read_step; apply K|].
      destruct (octal c) as [d|] eqn:OC.
      * destruct (GO [] (Oct k (8 * n + d)) I) as [m' G]. exists m'. intros v t. cbn [app]. rewrite read_step. cbn [step]. rewrite OC. apply G.
      * destruct K as [m' K]. exists m'. intros v t. cbn [app]. rewrite read_step. cbn [step]. rewrite OC. apply K.
Qed.
Lemma last_back p : (forall a b, p = a ++ 92 :: b -> exists c t, b = c :: t /\ ~ In c (bs "NUux")) -> last p 0 <> 92.
Proof.
  intros B L. destruct p as [|x p] using rev_ind; [discriminate|]. rewrite last_app in L. cbn in L. subst x. destruct (B p [] eq_refl) as (c & t & E & _). discriminate.
Qed.
Lemma pattern_exact ws name p : a_name name -> pattern_text p -> exists msg,
  reads unicode (indents ws (pattern_check name p)) =
  Some (two_lines (list_sum ws) (bs "re.search(r") [Lit p] (bs ", " ++ name ++ bs ") is None") msg).
Proof.
  intros A (O & Z & [Q1 Q2] & B). pose (m := name ++ bs " pattern does not match ").
  assert (ML : one_line m) by (apply one_line_app; [now apply name_line|apply one_line_lit; reflexivity]).
  destruct (read_mild p O Z Q1 B Plain I) as [msg M]. exists (m ++ msg). unfold pattern_check. fold m.
  rewrite check_lines, <- sum_list.
  - apply read_lines with (z := 39).
    + reflexivity.
    + rewrite !forallb_app, (name_code _ A). reflexivity.
    + intros c t C. cbn [app]. rewrite <- app_assoc. rewrite read_open; [|now right|].
      * change (last (bs "re.search(r") 32 =? 114) with true. cbn iota. rewrite read_raw; [|now left|assumption|assumption|assumption|now apply last_back]. cbn [app].
        rewrite read_step. cbn [step]. cbn. rewrite app_nil_r. apply add_prepend.
      * assert (CQ : c <> 39) by (intros ->; discriminate). destruct p as [|x [|y p]]; cbn [app]; [intros _; exact CQ| |]; intros ->; elim Q2; now left.
    + unfold m. destruct name as [|x name]; [vm_compute; discriminate|]. inversion A; subst. intros ->. discriminate.
    + intros v t. rewrite read_text; [|unfold m; rewrite name_harmless by assumption; reflexivity|assumption]. rewrite M, read_close by discriminate. now rewrite <- app_assoc.
  - apply one_line_lit; reflexivity.
  - repeat apply one_line_app; try assumption; apply one_line_lit; reflexivity.
  - repeat apply one_line_app; try (now apply name_line); apply one_line_lit; reflexivity.
  - exact ML.
  - exact O.
Qed.
Lemma unicode_escape_octets p : octets (flat_map unicode_escape1 p).
Proof.
  unfold octets. apply Forall_forall. intros x X. apply in_flat_map in X. destruct X as (c & _ & X). unfold unicode_escape1 in X.
  assert (H : forall k n, In x (hexes_of k n) -> x < 256).
  { induction k as [|k IH]; intros n K; [destruct K|]. cbn [hexes_of] in K. apply in_app_or in K. destruct K as [K|[<-|[]]]; [eauto|].
    assert (M : n mod 16 < 16) by (apply N.mod_lt; discriminate). apply hexdigit_range in M. lia. }
  assert (L : forall l, forallb (fun c => c <? 256) l = true -> In x l -> x < 256) by (intros l L K; rewrite forallb_forall in L; apply L in K; now apply N.ltb_lt in K).
  destruct (c =? 92); [apply (L [92; 92] eq_refl X)|]. destruct (c =? 9); [apply (L (bs "\t") eq_refl X)|]. destruct (c =? 10); [apply (L (bs "\n") eq_refl X)|].
  destruct (c =? 13); [apply (L (bs "\r") eq_refl X)|]. destruct ((32 <=? c) && (c <? 127)) eqn:E.
  { apply andb_true_iff in E. destruct E as [_ E]. apply N.ltb_lt in E. destruct X as [<-|[]]. lia. }
  destruct (c <? 256); [|destruct (c <? 65536)]; apply in_app_or in X; (destruct X as [X|X]; [|eauto]); [apply (L (bs "\x") eq_refl X)|apply (L (bs "\u") eq_refl X)|apply (L (bs "\U") eq_refl X)].
Qed.
Lemma bytes_pattern_exact ws name p : a_name name ->
  reads unicode (indents ws (bytes_pattern_check name p)) =
  Some (two_lines (list_sum ws) (bs "re.search(") (chrs (bs "b") ++ [Lit (flat_map unicode_escape1 p)]) (bs ", " ++ name ++ bs ") is None")
          (name ++ bs " pattern does not match b['pattern'].encode('unicode-escape')")).
Proof.
  intros A. unfold bytes_pattern_check. set (s := flat_map unicode_escape1 p). assert (P : code_points s) by apply octet_points, unicode_escape_octets. clearbody s.
  assert (ML : one_line (name ++ bs " pattern does not match ")) by (apply one_line_app; [now apply name_line|apply one_line_lit; reflexivity]).
  rewrite check_lines, <- sum_list.
  - apply read_lines with (z := quote_of s).
    + reflexivity.
    + rewrite !forallb_app, (name_code _ A). reflexivity.
    + intros c t C. unfold repr_bytes. cbn [app]. change (98 :: ?x) with ([98] ++ x). rewrite read_code by reflexivity. change (last [98] _) with 98. rewrite read_repr by auto.
      now rewrite prepend_app.
    + destruct name as [|x name]; [vm_compute; discriminate|]. inversion A; subst. intros ->. discriminate.
    + intros v t. rewrite read_text; [|rewrite name_harmless by assumption; reflexivity|assumption]. rewrite read_text; [|reflexivity|apply one_line_lit; reflexivity].
      rewrite <- !app_assoc. reflexivity.
  - apply one_line_lit; reflexivity.
  - apply bytes_line.
  - repeat apply one_line_app; try (now apply name_line); apply one_line_lit; reflexivity.
  - exact ML.
  - apply one_line_lit; reflexivity.
Qed.
End Read.

(** ** The conditions of PySpec *)
Lemma runes_valid s : valid_utf8 s -> code_points (runes s) /\ forall c, c < 128 -> In c (runes s) -> In c s.
Proof.
  intros (cs & V & ->). assert (E : runes (List.concat (map utf8_bytes cs)) = cs).
  { rewrite <- flat_map_concat_map, <- (app_nil_r (flat_map utf8_bytes cs)), runes_app_char_list by assumption. apply app_nil_r. }
  rewrite E. split.
  - eapply Forall_impl; [|exact V]. unfold scalar_value. intros c C. lia.
  - intros c C I. apply in_concat. exists (utf8_bytes c). split; [now apply in_map|]. unfold utf8_bytes. apply N.ltb_lt in C. rewrite C. now left.
Qed.
Lemma text_harmless s : py_text s -> one_line (runes s) /\ harmless (runes s) = true.
Proof.
  intros [_ F]. split.
  - intros c C. rewrite Forall_forall in F. apply F in C. exact (proj2 (proj2 (proj2 C))).
  - induction F as [|c l (A & B & C & _) F IH]; [reflexivity|]. cbn [harmless]. apply N.eqb_neq in A, B, C. now rewrite A, B, C.
Qed.
Lemma quoted_fine s : py_quoted s -> code_points (runes s) /\ no_quotes (runes s).
Proof. intros (V & A & B). apply runes_valid in V. destruct V as [P I]. split; [exact P|]. split; intros K; apply I in K; auto; reflexivity. Qed.
Lemma regex_fine p : py_regex p -> pattern_text (runes p).
Proof.
  intros (V & F & B). rewrite Forall_forall in F. split; [|split; [|split; [split|exact B]]].
  - intros c C. apply F in C. exact (proj2 (proj2 (proj2 C))).
  - intros K. apply F in K. now elim (proj1 K).
  - intros K. apply F in K. now elim (proj1 (proj2 K)).
  - intros K. apply F in K. now elim (proj1 (proj2 (proj2 K))).
Qed.
