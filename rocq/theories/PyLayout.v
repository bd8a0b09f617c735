(** The source that validator.py gives a message type: its templates (PyTemplates) rendered by Jinja2 (Jinja).

    Line numbers are those of python/protoc_gen_validate/validator.py. *)
From Verif Require Import Base Jinja PyTemplates.
Local Open Scope N_scope.

(** The functions that the templates call to have another template rendered. *)
Definition callees : list (string * string) :=
  [("const", const_tmpl); ("in", in_tmpl); ("string", string_tmpl); ("required", required_tmpl); ("message", message_tmpl);
   ("bool", bool_tmpl); ("num", num_tmpl); ("duration", duration_tmpl); ("timestamp", timestamp_tmpl); ("wrapper", wrapper_tmpl);
   ("enum", enum_tmpl); ("any", any_tmpl); ("bytes", bytes_tmpl); ("switcher", switcher_tmpl); ("repeated", repeated_tmpl);
   ("map", map_tmpl)]%string.
Fixpoint up_to (c : N) (s : text) : text := match s with x :: t => if x =? c then [] else x :: up_to c t | [] => [] end.
Definition source_of (e : text) : option string :=
  match find (fun p => text_eqb (bs (fst p) ++ bs "_template") (up_to 40 e)) callees with Some (_, s) => Some s | None => None end.
Definition ends_with (p s : text) : bool := match after_prefix (rev p) (rev s) with Some _ => true | None => false end.
Fixpoint mentions (p s : text) : bool :=
  match after_prefix p s with Some _ => true | None => match s with _ :: t => mentions p t | [] => false end end.

(** rule_type, 946-1027, is no template: it chooses one, and is so written as one here.  Which one is chosen is not modelled, nor the names of the
    fields of the rules.  [word] tells the members of oneofs from other fields; in the code both are "rule_type(field)", at 1048 and 1040. *)
Definition chosen (word : string) : string :=
  ("{%- if string -%}{{ string_template(option_value, name" ++ word ++ ") }}
  {%- elif message -%}{{ message_template(option_value, field.name) }}
  {%- elif bool -%}{{ bool_template(option_value, name) }}
  {%- elif number -%}{{ num_template(option_value, name, number) }}
  {%- elif enum -%}{{ enum_template(option_value, name, field) }}
  {%- elif bytes -%}{{ bytes_template(option_value, name) }}
  {%- elif list -%}{{ repeated_template(option_value, name, field) }}
  {%- elif pairs -%}{{ map_template(option_value, name, field) }}
  {%- elif required -%}{{ required_template(option_value, name) }}
  {%- elif duration -%}{{ duration_template(option_value, name) }}
  {%- elif timestamp -%}{{ timestamp_template(option_value, name) }}
  {%- elif wrapper -%}{{ wrapper_template(option_value, name) }}
  {%- elif any -%}{{ any_template(option_value, name) }}
  {%- endif -%}")%string.
Definition in_oneof : string := " of a oneof".

Definition template_at (e : text) : option tpl :=
  if text_eqb (bs "rule_type(field)") e then template (chosen "")
  else if text_eqb (bs "rule_type(field)|indent(4,True)") e then template (chosen in_oneof)
  else match source_of e with Some s => template s | None => None end.

(** Calls.  The fields of a message, the items of a list, the keys and the values of a map have rules of their own; the templates called for the
    same rules see the same rules. *)
Definition calls (e : text) : option (bool * option nat) :=
  let w := if ends_with (bs "|indent(4,True)") e then Some 4%nat else None in
  if text_eqb (bs "rule_type") (up_to 40 e) || text_eqb (bs "switcher_template") (up_to 40 e) || mentions (bs "(keys, ") e then Some (false, w)
  else match source_of e with Some _ => Some (true, w) | None => None end.

(** file_template, 1029-1053. *)
Definition function : option tpl := template file_tmpl.
