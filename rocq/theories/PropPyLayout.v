(** C64: the source that validator.py executes has the lines of a Python program, except for certain rules. *)
From Verif Require Import Base Num Rules Regex Known Outcome Example Py Jinja PyTemplates PyLines PyLayout PyLayoutSpec PyRuleSpec PyFieldSpec PyLayoutField
  PyEx PyLayoutCases PyLayoutLink PyWrapSpec PyLayoutMore PyLayoutEx.

(** ** The reader of lines tells programs from other texts *)
Definition lines (s : string) : bool := python_lines (bs s).
Example lines_accepted :
  lines "def f(p):
    if p.x < 3:
        raise E(""if it: is"")
    else:
        for i in p.l:
            g(i)

    return None" = true.
Proof. vm_compute. reflexivity. Qed.
Example lines_rejected :
  map lines ["if x:
return"; "if x:
    raise y
      raise z"; "if x:
        raise y
    raise z"; "raise x if y:
    pass"; "raise E(x)if y >= x:
    raise z"; "for i in l:    if i:
        raise z"; "if x:
    y()
z()
else:
    w()"; "try:
    y()
z()"; "if x"; "if x:"; "raise E(""x)"; "raise E(x"]%string = repeat false 12.
Proof. vm_compute. reflexivity. Qed.

(** ** A message type with one field of any kind, or a oneof with one member of any kind

    Missing to the full property: a message type with several fields and oneofs ([laid_source s -> python_lines s = true]). *)
Theorem py_field_lines_partial : forall e v s, In e (first_call :: other_calls ++ list_calls) -> laid (bs e) v -> written laid_call e v s ->
  python_lines (field_file s) = true.
Proof. exact fields_lines. Qed.
Theorem py_oneof_lines_partial : forall e v s, In e (member_call :: other_calls) -> laid (bs e) v -> written laid_call e v s ->
  python_lines (member_file s) = true.
Proof. exact members_lines. Qed.
(** A string with min_len. *)
Example ex_field : exists s, laid (bs first_call) (env_of ex_table) /\ written laid_call first_call (env_of ex_table) s /\ s <> [].
Proof.
  destruct (source ex_table ex_calls first_call) as [s|] eqn:E; [|vm_compute in E; discriminate]. exists s.
  split; [|split; [exact (source_written laid_call ex_table ex_calls first_call s ex_laid E)|]].
  - vm_compute. discriminate.
  - intros ->. vm_compute in E. discriminate.
Qed.
Example ex_member : exists s, laid (bs member_call) (env_of ex_table) /\ written laid_call member_call (env_of ex_table) s /\ s <> [].
Proof.
  destruct (source ex_table ex_calls member_call) as [s|] eqn:E; [|vm_compute in E; discriminate]. exists s.
  split; [|split; [exact (source_written laid_call ex_table ex_calls member_call s ex_laid E)|]].
  - vm_compute. discriminate.
  - intros ->. vm_compute in E. discriminate.
Qed.
(** Two fields and a oneof: one source, computed. *)
Definition ex_run : option (text * nat) :=
  match function with Some t => exec (env_of ex_table) ex_count ex_calls 6 t 0 | None => None end.
Lemma ex_run_eq : ex_run = Some (ex_source, 0).
Proof. vm_compute. reflexivity. Qed.
Example ex_source_laid : laid_source ex_source.
Proof.
  pose proof ex_run_eq as R. unfold ex_run in R. destruct function as [t|] eqn:F; [|discriminate].
  exists t, (env_of ex_table), 0. split; [exact F | exact (exec_renders _ _ ex_calls laid_call ex_laid _ _ _ _ _ R)].
Qed.
Example ex_source_lines : python_lines ex_source = true.
Proof. vm_compute. reflexivity. Qed.

(** ** One field *)

(** In each case: if the model of what the source does (Py) says that there is none to execute, and only then, the text is no program. *)
Definition has_code {A} (c : code A) : bool := match c with Some _ => true | None => false end.
Theorem py_string_lines : forall pl v r s, says v (string_table r) -> written any_call "string_template(option_value, name)" v s ->
  python_lines (field_file s) = has_code (py_string pl r).
Proof. intros pl v r s S W. rewrite (string_lines pl v r s S W). unfold no_code, has_code. now destruct (py_string pl r). Qed.
Theorem py_bytes_lines : forall pl v r s, says v (bytes_table r) -> written any_call "bytes_template(option_value, name)" v s ->
  python_lines (field_file s) = has_code (py_bytes pl r).
Proof. intros pl v r s S W. rewrite (bytes_lines pl v r s S W). unfold no_code, has_code. now destruct (py_bytes pl r). Qed.
Theorem py_num_lines : forall v float r s, says v (num_table float r) -> written any_call "num_template(option_value, name, number)" v s ->
  python_lines (field_file s) = has_code (py_num r).
Proof. intros v fl r s S W. rewrite (num_lines v fl r s S W). unfold no_code, has_code. now destruct (py_num r). Qed.
(** Strings that are members of oneofs. *)
Theorem py_member_lines : forall v r s, says v (string_table r) -> written any_call "string_template(option_value, name)" v s ->
  python_lines (member_file s) = negb (getb (s_ignore_empty r)).
Proof. exact member_string_lines. Qed.
Theorem py_duration_lines : forall v r s, says v (duration_table r) -> written any_call "duration_template(option_value, name)" v s ->
  python_lines (field_file s) = negb (py_dur_glued r).
Proof. exact dur_lines. Qed.
(** Strings with ignore_empty as items, as keys, and as values: whatever the other rules. *)
Theorem py_items_lines_refuted : forall v s, v (bs "o and str(o.repeated['items'])") = true ->
  written elements_ignore "repeated_template(option_value, name, field)" v s -> python_lines (field_file s) = false.
Proof. exact items_lines. Qed.
Theorem py_keys_lines_refuted : forall v s, v (bs "o and (str(o.map['keys']) or str(o.map['values']))") = true -> string_keys v ->
  written keys_ignore "map_template(option_value, name, field)" v s -> python_lines (field_file s) = false.
Proof. exact keys_lines. Qed.
Theorem py_values_lines_refuted : forall v s, v (bs "o and (str(o.map['keys']) or str(o.map['values']))") = true -> no_key_rules v ->
  written elements_ignore "map_template(option_value, name, field)" v s -> python_lines (field_file s) = false.
Proof. exact values_lines. Qed.
(** Wrappers with rules of one type: there has to be a check, with ignore_empty or without. *)
Theorem py_wrapper_lines : forall k cs others v s, In (k, (cs, others)) wrapped_kinds ->
  (forall c, In c wrapped_rules -> v (bs c) = String.eqb c k) -> existsb (holds v) others = false ->
  written any_call "wrapper_template(option_value, name)" v s -> python_lines (field_file s) = existsb (holds v) cs.
Proof. exact wrapper_lines. Qed.
(** Lists and maps with ignore_empty and no check. *)
Theorem py_repeated_lines_refuted : forall v s, v (bs "o and o.repeated['ignore_empty']") = true -> existsb (holds v) repeated_checks = false ->
  written any_call "repeated_template(option_value, name, field)" v s -> python_lines (field_file s) = false.
Proof. exact repeated_lines. Qed.
Theorem py_map_lines_refuted : forall v s, v (bs "o and o.map['ignore_empty']") = true -> existsb (holds v) map_checks = false ->
  written any_call "map_template(option_value, name, field)" v s -> python_lines (field_file s) = false.
Proof. exact map_lines. Qed.
Print Assumptions py_field_lines_partial.
Print Assumptions py_oneof_lines_partial.
Print Assumptions py_string_lines.
Print Assumptions py_bytes_lines.
Print Assumptions py_num_lines.
Print Assumptions py_member_lines.
Print Assumptions py_duration_lines.
Print Assumptions py_items_lines_refuted.
Print Assumptions py_keys_lines_refuted.
Print Assumptions py_values_lines_refuted.
Print Assumptions py_wrapper_lines.
Print Assumptions py_repeated_lines_refuted.
Print Assumptions py_map_lines_refuted.

(** ** Rules of each kind, with the text that is written *)
Ltac distinct := cbn; repeat (constructor; [cbn; intuition discriminate|]); constructor.
Definition rendered (l : table) (e : string) : text := match source l all_calls e with Some s => s | None => [] end.
Lemma rendered_written l e : source l all_calls e <> None -> written any_call e (env_of l) (rendered l e).
Proof. intros H. apply source_any. unfold rendered. now destruct (source l all_calls e). Qed.

Definition optional (n : option N) : string_rules := mkStringRules None None n None None None None None None None None None [] [] None None (Some true).
Definition string_text (r : string_rules) : text := rendered (string_table r) "string_template(option_value, name)".
Example string_cases : map (fun r => (python_lines (field_file (string_text r)), python_lines (member_file (string_text r)), has_code (py_string ex_pl r)))
  [optional (Some 3%N); optional None; min_len 3 (optional None)] = [(true, false, true); (false, false, false); (true, false, true)].
Proof. vm_compute. reflexivity. Qed.
Example string_written : says (env_of (string_table (optional (Some 3%N)))) (string_table (optional (Some 3%N))) /\
  written any_call "string_template(option_value, name)" (env_of (string_table (optional (Some 3%N)))) (string_text (optional (Some 3%N))).
Proof. split; [apply env_says; distinct | apply rendered_written; vm_compute; discriminate]. Qed.

Definition at_most (t c : option sn) : duration_rules := mkDurationRules None c t None None None [] [].
Definition duration_text (r : duration_rules) : text := rendered (duration_table r) "duration_template(option_value, name)".
Example duration_cases : map (fun r => (python_lines (field_file (duration_text r)), py_dur_glued r))
  [at_most (Some (mkSN 5 0)) None; at_most (Some (mkSN 5 0)) (Some (mkSN 3 0)); at_most None (Some (mkSN 3 0))] = [(true, false); (false, true); (true, false)].
Proof. vm_compute. reflexivity. Qed.
Example duration_written : says (env_of (duration_table (at_most (Some (mkSN 5 0)) None))) (duration_table (at_most (Some (mkSN 5 0)) None)) /\
  written any_call "duration_template(option_value, name)" (env_of (duration_table (at_most (Some (mkSN 5 0)) None)))
    (duration_text (at_most (Some (mkSN 5 0)) None)).
Proof. split; [apply env_says; distinct | apply rendered_written; vm_compute; discriminate]. Qed.
(** The upper bound of a duration on the line of the check before it. *)
Example duration_glued : duration_text (at_most (Some (mkSN 5 0)) (Some (mkSN 3 0))) = bs "
    
    if _has_field(p, ""x""):
    
        dur = x.seconds + round((10**-9 * x.nanos), 9)
        lt = x
        
        if dur != x:
            raise ValidationFailed(""x is not equal to x"")if dur >= lt:
            raise ValidationFailed(""x is not lesser than x"")".
Proof. vm_compute. reflexivity. Qed.

Definition blob (n : option N) : bytes_rules := mkBytesRules None None n None None None None None [] [] None (Some true).
Definition bytes_text (r : bytes_rules) : text := rendered (bytes_table r) "bytes_template(option_value, name)".
Example bytes_cases : map (fun r => (python_lines (field_file (bytes_text r)), has_code (py_bytes ex_pl r))) [blob (Some 3%N); blob None] = [(true, true); (false, false)].
Proof. vm_compute. reflexivity. Qed.
Example bytes_written : says (env_of (bytes_table (blob (Some 3%N)))) (bytes_table (blob (Some 3%N))) /\
  written any_call "bytes_template(option_value, name)" (env_of (bytes_table (blob (Some 3%N)))) (bytes_text (blob (Some 3%N))).
Proof. split; [apply env_says; distinct | apply rendered_written; vm_compute; discriminate]. Qed.

Definition number (l : list num) : num_rules := mkNumRules None None None None None l [] (Some true).
Definition num_text (r : num_rules) : text := rendered (num_table true r) "num_template(option_value, name, number)".
Example num_cases : map (fun r => (python_lines (field_file (num_text r)), has_code (py_num r))) [number [NI 3]; number []] = [(true, true); (false, false)].
Proof. vm_compute. reflexivity. Qed.
Example num_written : says (env_of (num_table true (number [NI 3]))) (num_table true (number [NI 3])) /\
  written any_call "num_template(option_value, name, number)" (env_of (num_table true (number [NI 3]))) (num_text (number [NI 3])).
Proof. split; [apply env_says; distinct | apply rendered_written; vm_compute; discriminate]. Qed.

Definition items_table : table := [("o and str(o.repeated['items'])", true); ("str(accessor.string)", true); ("s['ignore_empty']", true)]%string.
Definition keys_table : table :=
  [("o and (str(o.map['keys']) or str(o.map['values']))", true); ("str(keys.string)", true); ("s['ignore_empty']", true); ("s['min_len']", true)]%string.
Definition values_table : table :=
  [("o and (str(o.map['keys']) or str(o.map['values']))", true); ("str(accessor.string)", true); ("s['ignore_empty']", true)]%string.
Ltac off := intros c I; cbn [In] in I; repeat (destruct I as [<- | I]; [vm_compute; reflexivity|]); destruct I.
Example items_written : env_of items_table (bs "o and str(o.repeated['items'])") = true /\
  written elements_ignore "repeated_template(option_value, name, field)" (env_of items_table) (bs "
    
    for item in x:    if x:
            
            
        
    
        pass
    
    ").
Proof.
  split; [vm_compute; reflexivity|]. apply (source_written elements_ignore items_table all_calls); [|vm_compute; reflexivity].
  intros e t _ T. split; [exact T|]. intros _. split; [off | split; vm_compute; reflexivity].
Qed.
Example keys_written : env_of keys_table (bs "o and (str(o.map['keys']) or str(o.map['values']))") = true /\ string_keys (env_of keys_table) /\
  written keys_ignore "map_template(option_value, name, field)" (env_of keys_table) (bs "
    
    for key in x:    if x:
            
            
            if len(x) < x:
                raise ValidationFailed(""x length is less than x"")
        
    
        pass
    
    ").
Proof.
  split; [vm_compute; reflexivity|]. split; [split; [off | vm_compute; reflexivity]|].
  apply (source_written keys_ignore keys_table all_calls); [|vm_compute; reflexivity].
  intros e t _ T. split; [exact T|]. intros _. vm_compute. reflexivity.
Qed.
Example values_written : env_of values_table (bs "o and (str(o.map['keys']) or str(o.map['values']))") = true /\ no_key_rules (env_of values_table) /\
  written elements_ignore "map_template(option_value, name, field)" (env_of values_table) (rendered values_table "map_template(option_value, name, field)").
Proof.
  split; [vm_compute; reflexivity|]. split; [off|].
  apply (source_written elements_ignore values_table all_calls); [|vm_compute; reflexivity].
  intros e t _ T. split; [exact T|]. intros _. split; [off | split; vm_compute; reflexivity].
Qed.

Definition wrapper_text (l : table) : text := rendered l "wrapper_template(option_value, name)".
Example wrapper_cases : map (fun l => python_lines (field_file (wrapper_text l)))
  [[("str(option_value.string)", true); ("s['min_len']", true)]; [("str(option_value.string)", true); ("s['min_len']", true); ("s['ignore_empty']", true)];
   [("str(option_value.string)", true)]; [("str(option_value.bool)", true)]]%string = [true; true; false; false].
Proof. vm_compute. reflexivity. Qed.
Example wrapper_written : let v := env_of [("str(option_value.string)", true); ("s['min_len']", true)]%string in
  (forall c, In c wrapped_rules -> v (bs c) = String.eqb c "str(option_value.string)") /\ existsb (holds v) string_checks = true /\
  written any_call "wrapper_template(option_value, name)" v (wrapper_text [("str(option_value.string)", true); ("s['min_len']", true)]%string).
Proof.
  cbv zeta. split; [off|]. split; [vm_compute; reflexivity|]. apply rendered_written. vm_compute. discriminate.
Qed.
Example blank_list : let l := [("o and o.repeated['ignore_empty']", true)]%string in
  existsb (holds (env_of l)) repeated_checks = false /\
  written any_call "repeated_template(option_value, name, field)" (env_of l) (rendered l "repeated_template(option_value, name, field)").
Proof. cbv zeta. split; [vm_compute; reflexivity|]. apply rendered_written. vm_compute. discriminate. Qed.
Example blank_map : let l := [("o and o.map['ignore_empty']", true)]%string in
  existsb (holds (env_of l)) map_checks = false /\
  written any_call "map_template(option_value, name, field)" (env_of l) (rendered l "map_template(option_value, name, field)").
Proof. cbv zeta. split; [vm_compute; reflexivity|]. apply rendered_written. vm_compute. discriminate. Qed.
