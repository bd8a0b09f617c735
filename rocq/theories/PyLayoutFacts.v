(** Every case of the rules is among those that were run. *)
From Verif Require Import Base Jinja PyTemplates PyLines PyLayout PyLayoutSpec PyReach PyReachAlts PyReachFacts.
Local Open Scope N_scope.

Definition covered (l : list assume) (v : env) : Prop := exists a, In a l /\ agrees a v.
Lemma agrees_nil v : agrees [] v.
Proof. intros s b I. destruct I. Qed.
Lemma agrees_cons s b a v : v s = b -> agrees a v -> agrees ((s, b) :: a) v.
Proof. intros E A s' b' [I | I]; [injection I as <- <-; exact E | now apply A]. Qed.
Lemma all_covered v : covered [[]] v.
Proof. exists []. split; [now left | apply agrees_nil]. Qed.
Lemma firsts_cover l v : checks l v -> covered (firsts l) v.
Proof.
  induction l as [|c l IH]; intros (x & I & E); [destruct I|]. cbn [firsts]. destruct (v (bs c)) eqn:C.
  - exists [(bs c, true)]. split; [now left|]. apply agrees_cons; [exact C | apply agrees_nil].
  - destruct I as [-> | I]; [congruence|]. destruct IH as (a & A & B); [now exists x|].
    exists ((bs c, false) :: a). split; [right; now apply in_map | now apply agrees_cons].
Qed.
Lemma case_cover c l v : (v (bs c) = true -> checks l v) -> covered (case_of c l) v.
Proof.
  intros H. destruct (v (bs c)) eqn:C.
  - destruct (firsts_cover l v (H eq_refl)) as (a & A & B). exists ((bs c, true) :: a).
    split; [right; now apply in_map | now apply agrees_cons].
  - exists [(bs c, false)]. split; [now left|]. apply agrees_cons; [exact C | apply agrees_nil].
Qed.
Lemma just_one_cover l v : just_one l v -> covered (map (fun c => map (fun c' => (bs c', String.eqb c' c)) l) l) v.
Proof.
  intros (c & I & H). exists (map (fun c' => (bs c', String.eqb c' c)) l). split; [now apply (in_map (fun c => map (fun c' => (bs c', String.eqb c' c)) l))|].
  intros s b J. apply in_map_iff in J. destruct J as (c' & E & J). injection E as <- <-. now apply H.
Qed.

Ltac agree := repeat (apply agrees_cons; [assumption|]); apply agrees_nil.
Lemma dur_cover v : on_one_line v = false -> covered dur_cases v.
Proof.
  intros H.
  assert (U : v (has "const") = false -> v (bs "dur['in']") = false -> v (bs "dur['not_in']") = false -> covered dur_cases v).
  { intros A B C. destruct (v (has "lt")) eqn:L.
    - exists (unchecked ++ [(has "lt", true)]). split; [now left|]. cbn [app unchecked]. unfold unchecked. agree.
    - destruct (v (has "lte")) eqn:L'.
      + exists (unchecked ++ [(has "lt", false); (has "lte", true)]). split; [right; now left|]. unfold unchecked. agree.
      + exists [(has "lt", false); (has "lte", false)]. split; [do 2 right; now left|]. agree. }
  change (on_one_line v) with
    ((v (has "const") || v (bs "dur['in']") || v (bs "dur['not_in']")) &&
     (if v (has "lt") then negb (if v (has "gt") then v (has "gt") && v (over "lt" "gt") else v (has "gte") && v (over "lt" "gte"))
      else v (has "lte") && negb (if v (has "gt") then v (has "gt") && v (over "lte" "gt") else v (has "gte") && v (over "lte" "gte")))) in H.
  destruct (v (has "const")) eqn:C, (v (bs "dur['in']")) eqn:I, (v (bs "dur['not_in']")) eqn:N; try now apply U.
  all: cbn [orb andb] in H; clear U C I N.
  all: destruct (v (has "lt")) eqn:L.
  all: try (destruct (v (has "lte")) eqn:L'; cbn [andb] in H;
            [| exists [(has "lt", false); (has "lte", false)]; split; [do 2 right; now left | agree]]).
  all: destruct (v (has "gt")) eqn:G; cbn [andb] in H.
  all: try (destruct (v (has "gte")) eqn:G'; cbn [andb negb] in H; [|discriminate]).
  all: match type of H with negb ?x = false => destruct x eqn:O; [|discriminate] end.
  all: first
    [ exists [(has "lt", true); (has "gt", true); (over "lt" "gt", true)]; split; [do 3 right; now left | agree]
    | exists [(has "lt", true); (has "gt", false); (has "gte", true); (over "lt" "gte", true)]; split; [do 4 right; now left | agree]
    | exists [(has "lt", false); (has "lte", true); (has "gt", true); (over "lte" "gt", true)]; split; [do 5 right; now left | agree]
    | exists [(has "lt", false); (has "lte", true); (has "gt", false); (has "gte", true); (over "lte" "gte", true)];
      split; [do 6 right; now left | agree] ].
Qed.
Lemma ts_cover v : v (bs "ts['in']") = false -> v (bs "ts['not_in']") = false -> covered ts_cases v.
Proof.
  intros A B. unfold covered. destruct (v (bs "ts.HasField('lt')")) eqn:L; [|destruct (v (bs "ts.HasField('lte')")) eqn:L'].
  - exists [(bs "ts['in']", false); (bs "ts['not_in']", false); (bs "ts.HasField('lt')", true)]. split; [now left | agree].
  - exists [(bs "ts['in']", false); (bs "ts['not_in']", false); (bs "ts.HasField('lt')", false); (bs "ts.HasField('lte')", true)].
    split; [right; now left | agree].
  - exists [(bs "ts['in']", false); (bs "ts['not_in']", false); (bs "ts.HasField('lt')", false); (bs "ts.HasField('lte')", false)].
    split; [do 2 right; now left | agree].
Qed.

Lemma laid_cover e v : laid e v -> covered (alts e) v.
Proof.
  unfold laid, alts. cbv zeta.
  change (is "num" e) with (text_eqb n_num (callee e)). change (is "string" e) with (text_eqb n_string (callee e)).
  change (is "bytes" e) with (text_eqb n_bytes (callee e)). change (is "bool" e) with (text_eqb n_bool (callee e)).
  change (is "wrapper" e) with (text_eqb n_wrapper (callee e)). change (is "duration" e) with (text_eqb n_duration (callee e)).
  change (is "timestamp" e) with (text_eqb n_timestamp (callee e)). change (is "repeated" e) with (text_eqb n_repeated (callee e)).
  change (is "map" e) with (text_eqb n_map (callee e)).
  destruct (text_eqb n_num (callee e)).
  { intros H. destruct (in_wrapper e).
    - apply (firsts_cover num_checks). apply H. now left.
    - apply (case_cover "num.HasField('ignore_empty')" num_checks). intros E. apply H. now right. }
  destruct (text_eqb n_string (callee e)).
  { destruct (in_wrapper e); [apply (firsts_cover string_checks)|]. intros H. destruct (in_field e).
    - apply (case_cover "s['ignore_empty']" string_checks). intros E. now apply H.
    - exists [(bs "s['ignore_empty']", false)]. split; [now left|]. apply agrees_cons; [|apply agrees_nil].
      destruct (v (bs "s['ignore_empty']")); [|reflexivity]. now destruct (H eq_refl). }
  destruct (text_eqb n_bytes (callee e)).
  { intros H. destruct (in_wrapper e).
    - apply (firsts_cover bytes_checks). apply H. now left.
    - apply (case_cover "b['ignore_empty']" bytes_checks). intros E. apply H. now right. }
  destruct (text_eqb n_bool (callee e)).
  { intros H. destruct (in_wrapper e); [|apply all_covered]. apply (firsts_cover bool_checks). now apply H. }
  destruct (text_eqb n_wrapper (callee e)); [apply (just_one_cover wrapped_rules)|].
  destruct (text_eqb n_duration (callee e)); [apply dur_cover|].
  destruct (text_eqb n_timestamp (callee e)); [intros [A B]; now apply ts_cover|].
  destruct (text_eqb n_repeated (callee e)); [apply (case_cover "o and o.repeated['ignore_empty']" repeated_checks)|].
  destruct (text_eqb n_map (callee e)); [apply (case_cover "o and o.map['ignore_empty']" map_checks)|].
  intros _. apply all_covered.
Qed.

(** The templates parsed once are the templates. *)
Lemma find_parsed c : forall l,
  Forall (fun p : string * string => match template (snd p) with Some _ => True | None => False end) l ->
  match (match find (fun p => text_eqb (bs (fst p) ++ bs "_template") c) l with Some (_, s) => Some s | None => None end) with
  | Some s => template s | None => None end =
  match find (fun p => text_eqb (fst p) c) (flat_map (fun p => map (fun t => (name_of (fst p), t)) (opt_list (template (snd p)))) l) with
  | Some (_, t) => Some t | None => None end.
Proof.
  induction 1 as [|[n s] l H _ IH]; [reflexivity|]. cbn [find fst snd flat_map] in *. destruct (template s) as [t|] eqn:T; [|destruct H].
  cbn [opt_list map app find fst]. change (bs n ++ bs "_template") with (name_of n). destruct (text_eqb (name_of n) c); [exact T | exact IH].
Qed.
Lemma all_parse : Forall (fun p : string * string => match template (snd p) with Some _ => True | None => False end) callees.
Proof. unfold callees. repeat (apply Forall_cons; [vm_compute; exact I|]). apply Forall_nil. Qed.
Lemma parsed_eq : parsed = flat_map (fun p => map (fun t => (name_of (fst p), t)) (opt_list (template (snd p)))) callees.
Proof. vm_compute. reflexivity. Qed.
Lemma parsed_field_eq : template (chosen "") = parsed_field.
Proof. vm_compute. reflexivity. Qed.
Lemma parsed_member_eq : template (chosen in_oneof) = parsed_member.
Proof. vm_compute. reflexivity. Qed.
Lemma parsed_function_eq : function = parsed_function.
Proof. vm_compute. reflexivity. Qed.
Lemma parsed_same e : template_at e = parsed_at e.
Proof.
  unfold template_at, parsed_at. change (bs "rule_type(field)") with n_rule. change (bs "rule_type(field)|indent(4,True)") with n_member.
  destruct (text_eqb n_rule e); [exact parsed_field_eq|]. destruct (text_eqb n_member e); [exact parsed_member_eq|].
  rewrite parsed_eq. unfold source_of. apply (find_parsed (up_to 40 e) callees all_parse).
Qed.

Lemma laid_covers e t v : laid_call e t v -> parsed_at e = Some t /\ exists a, In a (alts e) /\ agrees a v.
Proof. intros [T L]. split; [now rewrite <- parsed_same | now apply laid_cover]. Qed.
Lemma any_covers e t v : any_call e t v -> parsed_at e = Some t /\ exists a, In a [[]] /\ agrees a v.
Proof. intros T. split; [now rewrite <- parsed_same | apply all_covered]. Qed.
