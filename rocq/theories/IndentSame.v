(** The two models of Jinja's filter indent agree on texts without other line boundaries than "\n". *)
From Verif Require Import Base Jinja.
From Verif Require PyLit.
Local Open Scope N_scope.

Definition later (w : nat) (l : list N) : list N := 10 :: match l with [] => [] | _ => spaces w ++ l end.
Lemma first_line s : forall d line first rest, PyLit.lines_from (d :: line) s = first :: rest -> exists t, first = d :: t.
Proof.
  induction s as [|c s IH]; intros d line first rest E; cbn [PyLit.lines_from] in E.
  - injection E as <- _. now exists line.
  - destruct (PyLit.breakb c); [injection E as <- _; now exists line | exact (IH d (line ++ [c]) _ _ E)].
Qed.
Lemma break_10 s line : PyLit.lines_from line (10 :: s) = line :: PyLit.lines_from [] s.
Proof. reflexivity. Qed.
Lemma lines_shift w s : (forall c, In c s -> PyLit.breakb c = true -> c = 10) -> forall line, exists first rest,
  PyLit.lines_from line (s ++ [10]) = first :: rest /\ first ++ flat_map (later w) rest = line ++ shift w false s.
Proof.
  induction s as [|c s IH]; intros P line.
  - exists line, []. split; reflexivity.
  - assert (P' : forall c, In c s -> PyLit.breakb c = true -> c = 10) by (intros x I; apply P; now right). cbn [app].
    destruct (N.eq_dec c 10) as [-> | N].
    + rewrite break_10. destruct (IH P' []) as (f & r & E & Q). exists line, (f :: r). split; [now rewrite E|].
      f_equal. cbn [flat_map later shift andb app negb N.eqb]. f_equal. change (10 =? 10) with true.
      destruct s as [|d s]; [cbn in E; injection E as <- <-; reflexivity|]. cbn [app] in E.
      destruct (N.eq_dec d 10) as [-> | M].
      * rewrite break_10 in E. injection E as <- <-. exact Q.
      * assert (B : PyLit.breakb d = false) by (destruct (PyLit.breakb d) eqn:B; [exfalso; apply M, P'; [now left | exact B] | reflexivity]).
        cbn [PyLit.lines_from] in E. rewrite B in E. destruct (first_line _ _ _ _ _ E) as (t & ->).
        cbn [shift andb app] in Q |- *. apply N.eqb_neq in M. rewrite M. cbn [negb]. rewrite M in Q. rewrite <- app_assoc. f_equal. exact Q.
    + assert (B : PyLit.breakb c = false) by (destruct (PyLit.breakb c) eqn:B; [exfalso; apply N, P; [now left | exact B] | reflexivity]).
      cbn [PyLit.lines_from]. rewrite B. destruct (IH P' (line ++ [c])) as (f & r & E & Q). exists f, r. split; [exact E|].
      rewrite Q. cbn [shift andb app]. apply N.eqb_neq in N. rewrite N. now rewrite <- app_assoc.
Qed.
Lemma indent_same w s : (forall c, In c s -> PyLit.breakb c = true -> c = 10) -> indent w s = PyLit.indent w s.
Proof.
  intros P. unfold PyLit.indent, PyLit.splitlines. destruct (lines_shift w s P []) as (f & r & E & Q). rewrite E. unfold indent. cbn [app] in Q. rewrite <- Q. reflexivity.
Qed.
