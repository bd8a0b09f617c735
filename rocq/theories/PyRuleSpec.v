(** What the conditions of the templates of validator.py yield for rules, and the places of a source.

    The texts are the conditions as they stand in the templates; Python's HasField is presence, and as a condition the number 0 and the empty
    string are false. *)
From Verif Require Import Base Num Rules Py Jinja PyLayout PyLayoutSpec.

Definition table := list (string * bool).
Definition says (v : env) (l : table) : Prop := forall c b, In (c, b) l -> v (bs c) = b.

Definition size_on (o : option N) : bool := match o with Some n => negb (n =? 0)%N | None => false end.
Definition text_on (o : option bytes) : bool := match o with Some (_ :: _) => true | _ => false end.
Definition list_on {A} (l : list A) : bool := match l with [] => false | _ => true end.

(** 173-180: the patterns of HTTP headers take the place of a pattern. *)
Definition pattern_on (r : string_rules) : bool :=
  match s_wk r with Some (WRegex KRHeaderName) | Some (WRegex KRHeaderValue) => true | _ => text_on (s_pattern r) end.
Definition string_table (r : string_rules) : table :=
  let wk f := match s_wk r with Some w => f w | None => false end in
  [("s['ignore_empty']", getb (s_ignore_empty r));
   ("str(o.string) and o.string.HasField('const')", is_some (s_const r));
   ("str(o.bool) and o.bool['const'] != """"", false); ("str(o.enum) and o.enum['const']", false);
   ("str(o.bytes) and o.bytes.HasField('const')", false);
   ("value['in']", list_on (s_in r)); ("value['not_in']", list_on (s_not_in r));
   ("s['len']", size_on (s_len r)); ("s['min_len']", size_on (s_min_len r)); ("s['max_len']", size_on (s_max_len r));
   ("s['len_bytes']", size_on (s_len_bytes r)); ("s['min_bytes']", size_on (s_min_bytes r)); ("s['max_bytes']", size_on (s_max_bytes r));
   ("s['pattern']", pattern_on r); ("s['prefix']", text_on (s_prefix r)); ("s['suffix']", text_on (s_suffix r));
   ("s['contains']", text_on (s_contains r)); ("s['not_contains']", text_on (s_not_contains r));
   ("s['email']", wk (fun w => match w with WEmail b => b | _ => false end));
   ("s['hostname']", wk (fun w => match w with WHostname b => b | _ => false end));
   ("s['address']", wk (fun w => match w with WAddress b => b | _ => false end));
   ("s['ip']", wk (fun w => match w with WIp b => b | _ => false end));
   ("s['ipv4']", wk (fun w => match w with WIpv4 b => b | _ => false end));
   ("s['ipv6']", wk (fun w => match w with WIpv6 b => b | _ => false end));
   ("s['uri']", wk (fun w => match w with WUri b => b | _ => false end));
   ("s['uri_ref']", wk (fun w => match w with WUriRef b => b | _ => false end));
   ("s['uuid']", wk (fun w => match w with WUuid b => b | _ => false end))]%string.

Definition bytes_table (r : bytes_rules) : table :=
  let wk f := match b_wk r with Some w => f w | None => false end in
  [("b['ignore_empty']", getb (b_ignore_empty r));
   ("str(o.bytes) and o.bytes.HasField('const')", is_some (b_const r));
   ("str(o.string) and o.string.HasField('const')", false);
   ("str(o.bool) and o.bool['const'] != """"", false); ("str(o.enum) and o.enum['const']", false);
   ("value['in']", list_on (b_in r)); ("value['not_in']", list_on (b_not_in r));
   ("b['len']", size_on (b_len r)); ("b['min_len']", size_on (b_min_len r)); ("b['max_len']", size_on (b_max_len r));
   ("b['ip']", wk (fun w => match w with BIp b => b | _ => false end));
   ("b['ipv4']", wk (fun w => match w with BIpv4 b => b | _ => false end));
   ("b['ipv6']", wk (fun w => match w with BIpv6 b => b | _ => false end));
   ("b['pattern']", text_on (b_pattern r)); ("b['contains']", text_on (b_contains r)); ("b['prefix']", text_on (b_prefix r));
   ("b['suffix']", text_on (b_suffix r))]%string.

(** [float]: the rules are those for float. *)
Definition num_table (float : bool) (r : num_rules) : table :=
  [("num.HasField('ignore_empty')", is_some (n_ignore_empty r));
   ("num.HasField('const') and str(o.float) == """"", is_some (n_const r) && negb float);
   ("num.HasField('const') and str(o.float) != """"", is_some (n_const r) && float);
   ("value['in']", list_on (n_in r)); ("value['not_in']", list_on (n_not_in r));
   ("num.HasField('lt')", is_some (n_lt r)); ("num.HasField('lte')", is_some (n_lte r));
   ("num.HasField('gt')", is_some (n_gt r)); ("num.HasField('gte')", is_some (n_gte r))]%string.

(** dur_lit, 408-410: seconds as a float. *)
Definition above (a b : option sn) : bool :=
  match a, b with Some a, Some b => f_gt (py_dur_lit a) (py_dur_lit b) | _, _ => false end.
Definition duration_table (r : duration_rules) : table :=
  [("dur.HasField('const')", is_some (d_const r)); ("dur['in']", list_on (d_in r)); ("dur['not_in']", list_on (d_not_in r));
   ("dur.HasField('lt')", is_some (d_lt r)); ("dur.HasField('lte')", is_some (d_lte r));
   ("dur.HasField('gt')", is_some (d_gt r)); ("dur.HasField('gte')", is_some (d_gte r));
   ("dur_lit(dur['lt']) > dur_lit(dur['gt'])", above (d_lt r) (d_gt r));
   ("dur_lit(dur['lt']) > dur_lit(dur['gte'])", above (d_lt r) (d_gte r));
   ("dur_lit(dur['lte']) > dur_lit(dur['gt'])", above (d_lte r) (d_gt r));
   ("dur_lit(dur['lte']) > dur_lit(dur['gte'])", above (d_lte r) (d_gte r))]%string.

(** [written may e v s]: the call [e] for rules of which the conditions yield [v] writes [s]. *)
Definition written (may : text -> tpl -> env -> Prop) (e : string) (v : env) (s : text) : Prop :=
  exists t j, template_at (bs e) = Some t /\ renders calls may v t 0 s j.

(** The source of a message type with one field, 1029-1053, and of one with a oneof with one member. *)
Definition field_file (s : text) : text :=
  bs "
def generate_validate(p):
    " ++ s ++ bs "
    return None".
Definition member_file (s : text) : text :=
  bs "
def generate_validate(p):
    present = False
    if _has_field(p, ""x""):
        present = True
        " ++ indent 4 s ++ bs "
    return None".

(** Items, keys and values that are strings with ignore_empty. *)
Definition string_inside (v : env) : Prop :=
  (forall c, In c ["float"; "double"; "int32"; "int64"; "uint32"; "uint64"; "sint32"; "sint64"; "fixed32"; "fixed64"; "sfixed32"; "sfixed64"; "bool"]%string ->
     v (bs ("str(accessor." ++ c ++ ")")) = false) /\
  v (bs "str(accessor.string)") = true /\ v (bs "s['ignore_empty']") = true.
Definition elements_ignore (e : text) (t : tpl) (v : env) : Prop :=
  template_at e = Some t /\ (is "switcher" e = true -> string_inside v).
Definition keys_ignore (e : text) (t : tpl) (v : env) : Prop :=
  template_at e = Some t /\ (e = bs "string_template(keys, 'key')|indent(4,True)" -> v (bs "s['ignore_empty']") = true).
Definition string_keys (v : env) : Prop :=
  (forall c, In c ["double"; "int32"; "int64"; "uint32"; "uint64"; "sint32"; "sint64"; "fixed32"; "fixed64"; "sfixed32"; "sfixed64"; "bool"]%string ->
     v (bs ("str(keys." ++ c ++ ")")) = false) /\
  v (bs "str(keys.string)") = true.
Definition no_key_rules (v : env) : Prop :=
  forall c, In c ["double"; "int32"; "int64"; "uint32"; "uint64"; "sint32"; "sint64"; "fixed32"; "fixed64"; "sfixed32"; "sfixed64"; "bool"; "string"]%string ->
    v (bs ("str(keys." ++ c ++ ")")) = false.
