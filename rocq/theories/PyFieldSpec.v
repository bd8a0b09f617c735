(** The calls of templates with which the source of a field begins (rule_type, validator.py:946-1027). *)
From Verif Require Import Base.
(** No member of a oneof is a list or a map; [member_call] is the call of the same template for a member (see PyLayout.chosen). *)
Definition first_call : string := "string_template(option_value, name)".
Definition member_call : string := "string_template(option_value, name of a oneof)".
Definition other_calls : list string :=
  ["message_template(option_value, field.name)"; "bool_template(option_value, name)"; "num_template(option_value, name, number)";
   "enum_template(option_value, name, field)"; "bytes_template(option_value, name)"; "required_template(option_value, name)";
   "duration_template(option_value, name)"; "timestamp_template(option_value, name)"; "wrapper_template(option_value, name)";
   "any_template(option_value, name)"]%string.
Definition list_calls : list string := ["repeated_template(option_value, name, field)"; "map_template(option_value, name, field)"]%string.
