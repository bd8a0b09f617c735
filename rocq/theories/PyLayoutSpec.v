(** Rules whose source in Python has the lines of a program, in terms of what the conditions of the templates yield. *)
From Verif Require Import Base Jinja PyLayout.
Local Open Scope N_scope.

(** The conditions under which a template writes a check. *)
Definition num_checks : list string :=
  ["num.HasField('lt')"; "num.HasField('lte')"; "num.HasField('gt')"; "num.HasField('gte')"; "value['in']"; "value['not_in']";
   "num.HasField('const') and str(o.float) == """""; "num.HasField('const') and str(o.float) != """""]%string.
Definition string_checks : list string :=
  ["str(o.string) and o.string.HasField('const')"; "value['in']"; "value['not_in']"; "s['len']"; "s['min_len']"; "s['max_len']";
   "s['len_bytes']"; "s['min_bytes']"; "s['max_bytes']"; "s['pattern']"; "s['prefix']"; "s['suffix']"; "s['contains']"; "s['not_contains']";
   "s['email']"; "s['hostname']"; "s['address']"; "s['ip']"; "s['ipv4']"; "s['ipv6']"; "s['uri']"; "s['uri_ref']"; "s['uuid']"]%string.
Definition bytes_checks : list string :=
  ["str(o.bytes) and o.bytes.HasField('const')"; "value['in']"; "value['not_in']"; "b['len']"; "b['min_len']"; "b['max_len']";
   "b['ip']"; "b['ipv4']"; "b['ipv6']"; "b['pattern']"; "b['contains']"; "b['prefix']"; "b['suffix']"]%string.
Definition bool_checks : list string := ["str(o.bool) and o.bool['const'] != """""]%string.
Definition repeated_checks : list string :=
  ["o and str(o.repeated['items'])"; "o and o.repeated['min_items']"; "o and o.repeated['max_items']"; "o and o.repeated['unique']";
   "message_type"]%string.
Definition map_checks : list string :=
  ["o and (str(o.map['keys']) or str(o.map['values']))"; "o and o.map['min_pairs']"; "o and o.map['max_pairs']";
   "field.message_type.fields[1].message_type"]%string.
Definition wrapped_rules : list string :=
  ["str(option_value.float)"; "str(option_value.double)"; "str(option_value.int32)"; "str(option_value.int64)"; "str(option_value.uint32)";
   "str(option_value.uint64)"; "str(option_value.bool)"; "str(option_value.string)"; "str(option_value.bytes)"]%string.
Definition checks (l : list string) (v : env) : Prop := exists c, In c l /\ v (bs c) = true.
Definition just_one (l : list string) (v : env) : Prop := exists c, In c l /\ forall c', In c' l -> v (bs c') = String.eqb c' c.

(** An upper bound of a duration follows a check on its line: there is such a check, and no range with its lower end below its upper end. *)
Definition holds (v : env) (c : string) : bool := v (bs c).
Definition on_one_line (v : env) : bool :=
  let has f := holds v ("dur.HasField('" ++ f ++ "')")%string in
  let over a b := has b && holds v ("dur_lit(dur['" ++ a ++ "']) > dur_lit(dur['" ++ b ++ "'])")%string in
  let lower u := if has "gt"%string then over u "gt"%string else over u "gte"%string in
  (has "const"%string || holds v "dur['in']" || holds v "dur['not_in']") &&
  (if has "lt"%string then negb (lower "lt"%string) else has "lte"%string && negb (lower "lte"%string)).

(** [laid e v]: the source that the call [e] gives for the rules [v] can stand where the call stands. *)
Definition callee (e : text) : text := up_to 40 e.
Definition is (s : string) (e : text) : bool := text_eqb (bs s ++ bs "_template") (callee e).
Definition in_wrapper (e : text) : bool := mentions (bs ".value""") e.
Definition in_field (e : text) : bool := text_eqb (bs "string_template(option_value, name)") e.
Definition laid (e : text) (v : env) : Prop :=
  if is "num" e then in_wrapper e = true \/ v (bs "num.HasField('ignore_empty')") = true -> checks num_checks v
  else if is "string" e then
    if in_wrapper e then checks string_checks v
    else v (bs "s['ignore_empty']") = true -> in_field e = true /\ checks string_checks v
  else if is "bytes" e then in_wrapper e = true \/ v (bs "b['ignore_empty']") = true -> checks bytes_checks v
  else if is "bool" e then in_wrapper e = true -> checks bool_checks v
  else if is "wrapper" e then just_one wrapped_rules v
  else if is "duration" e then on_one_line v = false
  else if is "timestamp" e then v (bs "ts['in']") = false /\ v (bs "ts['not_in']") = false   (* TimestampRules has no such fields *)
  else if is "repeated" e then v (bs "o and o.repeated['ignore_empty']") = true -> checks repeated_checks v
  else if is "map" e then v (bs "o and o.map['ignore_empty']") = true -> checks map_checks v
  else True.

(** The sources of a message type all of whose rules are laid out so. *)
Definition laid_call (e : text) (t : tpl) (v : env) : Prop := template_at e = Some t /\ laid e v.
Definition laid_source (s : text) : Prop := exists t v i, function = Some t /\ renders calls laid_call v t 0 s i.
(** All sources of a message type. *)
Definition any_call (e : text) (t : tpl) (v : env) : Prop := template_at e = Some t.
