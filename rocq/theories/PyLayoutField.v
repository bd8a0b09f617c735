(** Single fields with rules of any type, and members of oneofs. *)
From Verif Require Import Base Jinja PyTemplates PyLines PyLayout PyLayoutSpec PyRuleSpec PyReach PyReachAlts PyReachFacts PyLayoutFacts PyLayoutCases PyFieldSpec.

Definition field_ok (e : string) : bool := forallb (run_at alts field_pos e true) (alts (bs e)).
Definition member_ok' (e : string) : bool := forallb (run_at alts member_pos e true) (alts (bs e)).
Lemma fields_ok : forallb field_ok (first_call :: other_calls ++ list_calls) = true.
Proof. vm_cast_no_check (eq_refl true). Qed.
Lemma members_ok : forallb member_ok' (member_call :: other_calls) = true.
Proof. vm_cast_no_check (eq_refl true). Qed.
Lemma fields_lines e v s : In e (first_call :: other_calls ++ list_calls) -> laid (bs e) v -> written laid_call e v s -> python_lines (field_file s) = true.
Proof.
  intros I L W. pose proof fields_ok as H. rewrite forallb_forall in H.
  exact (field_cases alts laid_call laid_covers e true _ v s W (laid_cover _ v L) (H e I)).
Qed.
Lemma members_lines e v s : In e (member_call :: other_calls) -> laid (bs e) v -> written laid_call e v s -> python_lines (member_file s) = true.
Proof.
  intros I L W. pose proof members_ok as H. rewrite forallb_forall in H.
  exact (member_cases alts laid_call laid_covers e true _ v s W (laid_cover _ v L) (H e I)).
Qed.
