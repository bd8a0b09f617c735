(** Wrappers, and lists and maps with ignore_empty: which rules give lines of a Python program. *)
From Verif Require Import Base Num Rules Py Jinja PyTemplates PyLines PyLayout PyLayoutSpec PyRuleSpec PyReach PyReachAlts PyReachFacts PyLayoutFacts
  PyLayoutCases PyWrapSpec.

Definition only (k : string) : assume := map (fun c => (bs c, String.eqb c k)) wrapped_rules.
Definition wrapper_call : string := "wrapper_template(option_value, name)".
Definition wrapper_ok (k : string * (list string * list string)) : bool :=
  let '(k, (cs, _)) := k in forallb (run_at free field_pos wrapper_call true) (map (fun a => only k ++ a) (firsts cs)).
Definition wrapper_bad (k : string * (list string * list string)) : bool :=
  let '(k, (cs, others)) := k in run_at free field_pos wrapper_call false (only k ++ all_off (cs ++ others)).
Lemma wrappers_ok : forallb wrapper_ok wrapped_kinds = true.
Proof. vm_cast_no_check (eq_refl true). Qed.
Lemma wrappers_bad : forallb wrapper_bad wrapped_kinds = true.
Proof. vm_cast_no_check (eq_refl true). Qed.

Lemma only_agrees k v : (forall c, In c wrapped_rules -> v (bs c) = String.eqb c k) -> agrees (only k) v.
Proof. intros H s b I. apply in_map_iff in I. destruct I as (c & E & I). injection E as <- <-. now apply H. Qed.
Lemma agrees_app a b v : agrees a v -> agrees b v -> agrees (a ++ b) v.
Proof. intros A B s x I. apply in_app_or in I. destruct I; [now apply A | now apply B]. Qed.
Lemma wrapper_lines k cs others v s : In (k, (cs, others)) wrapped_kinds -> (forall c, In c wrapped_rules -> v (bs c) = String.eqb c k) ->
  existsb (holds v) others = false -> written any_call wrapper_call v s -> python_lines (field_file s) = existsb (holds v) cs.
Proof.
  intros K U O W. destruct (existsb (holds v) cs) eqn:C.
  - pose proof wrappers_ok as H. rewrite forallb_forall in H. specialize (H _ K). unfold wrapper_ok in H.
    refine (field_cases free any_call any_covers wrapper_call true _ v s W _ H).
    destruct (firsts_cover cs v (existsb_checks cs v C)) as (a & I & A). exists (only k ++ a). split; [now apply (in_map (fun a => only k ++ a))|].
    apply agrees_app; [now apply only_agrees | exact A].
  - pose proof wrappers_bad as H. rewrite forallb_forall in H. specialize (H _ K). unfold wrapper_bad in H.
    refine (field_case free any_call any_covers wrapper_call false _ v s W _ H).
    apply agrees_app; [now apply only_agrees|]. apply off_agrees. now rewrite existsb_app, C, O.
Qed.

Lemma repeated_bad : run_at free field_pos "repeated_template(option_value, name, field)" false
  ((bs "o and o.repeated['ignore_empty']", true) :: all_off repeated_checks) = true.
Proof. vm_cast_no_check (eq_refl true). Qed.
Lemma repeated_lines v s : v (bs "o and o.repeated['ignore_empty']") = true -> existsb (holds v) repeated_checks = false ->
  written any_call "repeated_template(option_value, name, field)" v s -> python_lines (field_file s) = false.
Proof.
  intros I N W. refine (field_case free any_call any_covers _ false _ v s W _ repeated_bad). apply agrees_cons; [exact I | now apply off_agrees].
Qed.
Lemma map_bad : run_at free field_pos "map_template(option_value, name, field)" false
  ((bs "o and o.map['ignore_empty']", true) :: all_off map_checks) = true.
Proof. vm_cast_no_check (eq_refl true). Qed.
Lemma map_lines v s : v (bs "o and o.map['ignore_empty']") = true -> existsb (holds v) map_checks = false ->
  written any_call "map_template(option_value, name, field)" v s -> python_lines (field_file s) = false.
Proof.
  intros I N W. refine (field_case free any_call any_covers _ false _ v s W _ map_bad). apply agrees_cons; [exact I | now apply off_agrees].
Qed.
