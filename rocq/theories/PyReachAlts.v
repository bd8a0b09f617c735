(** The cases into which the rules of a field are split. *)
From Verif Require Import Base Jinja PyLines PyLayout PyLayoutSpec PyReach.
Local Open Scope N_scope.

(** Which of the conditions is the first that holds. *)
Fixpoint firsts (l : list string) : list assume :=
  match l with [] => [] | c :: l => [(bs c, true)] :: map (fun a => (bs c, false) :: a) (firsts l) end.
Definition case_of (c : string) (l : list string) : list assume := [(bs c, false)] :: map (fun a => (bs c, true) :: a) (firsts l).
Definition has (f : string) : text := bs ("dur.HasField('" ++ f ++ "')").
Definition over (a b : string) : text := bs ("dur_lit(dur['" ++ a ++ "']) > dur_lit(dur['" ++ b ++ "'])").
Definition unchecked : assume := [(has "const", false); (bs "dur['in']", false); (bs "dur['not_in']", false)].
Definition num_cases : list assume := Eval vm_compute in case_of "num.HasField('ignore_empty')" num_checks.
Definition num_some : list assume := Eval vm_compute in firsts num_checks.
Definition string_cases : list assume := Eval vm_compute in case_of "s['ignore_empty']" string_checks.
Definition string_some : list assume := Eval vm_compute in firsts string_checks.
Definition string_none : list assume := Eval vm_compute in [[(bs "s['ignore_empty']", false)]].
Definition bytes_cases : list assume := Eval vm_compute in case_of "b['ignore_empty']" bytes_checks.
Definition bytes_some : list assume := Eval vm_compute in firsts bytes_checks.
Definition bool_some : list assume := Eval vm_compute in firsts bool_checks.
Definition wrapper_cases : list assume :=
  Eval vm_compute in map (fun c => map (fun c' => (bs c', String.eqb c' c)) wrapped_rules) wrapped_rules.
Definition repeated_cases : list assume := Eval vm_compute in case_of "o and o.repeated['ignore_empty']" repeated_checks.
Definition map_cases : list assume := Eval vm_compute in case_of "o and o.map['ignore_empty']" map_checks.
Definition dur_cases : list assume :=
  Eval vm_compute in
  [ unchecked ++ [(has "lt", true)]; unchecked ++ [(has "lt", false); (has "lte", true)];
    [(has "lt", false); (has "lte", false)];
    [(has "lt", true); (has "gt", true); (over "lt" "gt", true)];
    [(has "lt", true); (has "gt", false); (has "gte", true); (over "lt" "gte", true)];
    [(has "lt", false); (has "lte", true); (has "gt", true); (over "lte" "gt", true)];
    [(has "lt", false); (has "lte", true); (has "gt", false); (has "gte", true); (over "lte" "gte", true)] ].
Definition ts_cases : list assume :=
  Eval vm_compute in
  map (fun l => (bs "ts['in']", false) :: (bs "ts['not_in']", false) :: l)
    [ [(bs "ts.HasField('lt')", true)]; [(bs "ts.HasField('lt')", false); (bs "ts.HasField('lte')", true)];
      [(bs "ts.HasField('lt')", false); (bs "ts.HasField('lte')", false)] ].
Definition name_of (s : string) : text := bs s ++ bs "_template".
Definition n_num : text := Eval vm_compute in name_of "num".
Definition n_string : text := Eval vm_compute in name_of "string".
Definition n_bytes : text := Eval vm_compute in name_of "bytes".
Definition n_bool : text := Eval vm_compute in name_of "bool".
Definition n_wrapper : text := Eval vm_compute in name_of "wrapper".
Definition n_duration : text := Eval vm_compute in name_of "duration".
Definition n_timestamp : text := Eval vm_compute in name_of "timestamp".
Definition n_repeated : text := Eval vm_compute in name_of "repeated".
Definition n_map : text := Eval vm_compute in name_of "map".
Definition alts (e : text) : list assume :=
  let c := callee e in
  if text_eqb n_num c then if in_wrapper e then num_some else num_cases
  else if text_eqb n_string c then if in_wrapper e then string_some else if in_field e then string_cases else string_none
  else if text_eqb n_bytes c then if in_wrapper e then bytes_some else bytes_cases
  else if text_eqb n_bool c then if in_wrapper e then bool_some else [[]]
  else if text_eqb n_wrapper c then wrapper_cases
  else if text_eqb n_duration c then dur_cases
  else if text_eqb n_timestamp c then ts_cases
  else if text_eqb n_repeated c then repeated_cases
  else if text_eqb n_map c then map_cases
  else [[]].

(** The same templates, parsed once. *)
Definition opt_list {A} (o : option A) : list A := match o with Some a => [a] | None => [] end.
Definition parsed : list (text * tpl) :=
  Eval vm_compute in flat_map (fun p => map (fun t => (name_of (fst p), t)) (opt_list (template (snd p)))) callees.
Definition parsed_field : option tpl := Eval vm_compute in template (chosen "").
Definition parsed_member : option tpl := Eval vm_compute in template (chosen in_oneof).
Definition parsed_function : option tpl := Eval vm_compute in function.
Definition n_rule : text := Eval vm_compute in bs "rule_type(field)".
Definition n_member : text := Eval vm_compute in bs "rule_type(field)|indent(4,True)".
Definition parsed_at (e : text) : option tpl :=
  if text_eqb n_rule e then parsed_field
  else if text_eqb n_member e then parsed_member
  else match find (fun p => text_eqb (fst p) (up_to 40 e)) parsed with Some (_, t) => Some t | None => None end.
