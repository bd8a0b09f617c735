(** The constants of rules in the Python source that validator.py writes.

    A text is a list of code points.  Each template pastes a constant twice: into the check, and into the text of the exception.  Modelled
    are the two lines of a check, and the Jinja filter [indent] through which they go; the rest of the templates is left out.  Line numbers
    are those of python/protoc_gen_validate/validator.py. *)
From Verif Require Import Base Py.
Local Open Scope N_scope.

Definition text := list N.

(** ** The filter indent(width, True) of Jinja2, filters.py, do_indent *)

(** str.splitlines: line boundaries, and "\r\n" is one. *)
Definition breakb (c : N) : bool := existsb (N.eqb c) [10; 11; 12; 13; 28; 29; 30; 133; 8232; 8233].
Fixpoint lines_from (line : text) (s : text) : list text :=
  match s with
  | [] => match line with [] => [] | _ => [line] end
  | c :: t =>
      if breakb c then
        line :: match c, t with
                | 13, 10 :: t' => lines_from [] t'
                | _, _ => lines_from [] t
                end
      else lines_from (line ++ [c]) t
  end.
Definition splitlines : text -> list text := lines_from [].
Definition spaces (n : nat) : text := repeat 32 n.
Definition indent (width : nat) (s : text) : text :=
  match splitlines (s ++ [10]) with
  | [] => spaces width
  | first :: rest => spaces width ++ first ++ flat_map (fun l => 10 :: match l with [] => [] | _ => spaces width ++ l end) rest
  end.
(** The filter is applied in bytes_template and string_template, 188 and 708, in switcher_template and the loops of maps and lists, and for the
    members of oneofs, 1040: the source of a check goes through all the filters around it. *)
Definition indents (widths : list nat) (s : text) : text := fold_left (fun s w => indent w s) widths s.

(** ** repr of str and bytes (CPython, Objects/unicodeobject.c unicode_repr; bytesobject.c PyBytes_Repr) *)

Section Repr.
Variable printable : N -> bool.   (* str.isprintable of a character that is not ASCII *)
Definition quote_of (s : text) : N := if existsb (N.eqb 39) s && negb (existsb (N.eqb 34) s) then 34 else 39.
Definition repr_char (q c : N) : text :=
  if (c =? q) || (c =? 92) then [92; c]
  else if c =? 9 then bs "\t"
  else if c =? 10 then bs "\n"
  else if c =? 13 then bs "\r"
  else if (32 <=? c) && (c <? 127) then [c]
  else if (128 <=? c) && printable c then [c]
  else if c <? 256 then bs "\x" ++ hexes_of 2 c
  else if c <? 65536 then bs "\u" ++ hexes_of 4 c
  else bs "\U" ++ hexes_of 8 c.
Definition repr_body (s : text) : text := flat_map (repr_char (quote_of s)) s.
Definition repr (s : text) : text := quote_of s :: repr_body s ++ [quote_of s].
End Repr.
Definition repr_bytes (s : text) : text := 98 :: repr (fun _ => false) s.
Fixpoint commas (l : list text) : text := match l with [] => [] | [a] => a | a :: l => a ++ bs ", " ++ commas l end.
(** The text of a list, and of the repeated fields of the rules. *)
Definition repr_list (l : list text) : text := bs "[" ++ commas l ++ bs "]".

(** ** Checks *)

(** [if ...:] and an exception, with the texts around the two constants. *)
Definition check (before const after message shown : text) : text :=
  bs "if " ++ before ++ const ++ after ++ bs ":" ++ [10] ++ bs "        raise ValidationFailed(""" ++ message ++ shown ++ bs """)".
Definition dq : text := [34].
Definition quoted (s : text) : text := dq ++ s ++ dq.

(** const_template, 137-138; string_template, 220-221, 224-225, 228-229, 232-233. *)
Inductive kind := Const | Prefix | Suffix | Contains | NotContains.
Definition string_check (k : kind) (name s : text) : text :=
  match k with
  | Const => check (name ++ bs " != ") (quoted s) [] (name ++ bs " not equal to ") s
  | Prefix => check (bs "not " ++ name ++ bs ".startswith(") (quoted s) (bs ")") (name ++ bs " does not start with prefix ") s
  | Suffix => check (bs "not " ++ name ++ bs ".endswith(") (quoted s) (bs ")") (name ++ bs " does not end with suffix ") s
  | Contains => check (bs "not ") (quoted s) (bs " in " ++ name) (name ++ bs " does not contain ") s
  | NotContains => check [] (quoted s) (bs " in " ++ name) (name ++ bs " contains ") s
  end.
(** string_template, 216-217. *)
Definition pattern_check (name p : text) : text :=
  check (bs "re.search(r") ([39] ++ p ++ [39]) (bs ", " ++ name ++ bs ") is None") (name ++ bs " pattern does not match ") p.
(** in_template, 161-162 and 165-166, with the text of the list; any_template, 683-684 and 693-694, has [name.type_url]. *)
Definition in_check (not_in : bool) (what name list : text) : text :=
  check (what ++ (if not_in then bs " in " else bs " not in ")) list [] (name ++ (if not_in then bs " in " else bs " not in ")) list.
(** const_template, 147-148; bytes_template, 748-749, 761-762, 770-771; the constants are written by repr. *)
Definition bytes_check (k : kind) (name s : text) : text :=
  let r := repr_bytes s in
  match k with
  | Const => check (name ++ bs " != ") r [] (name ++ bs " not equal to ") r
  | Prefix => check (bs "not " ++ name ++ bs ".startswith(") r (bs ")") (name ++ bs " does not start with prefix ") r
  | Suffix => check (bs "not " ++ name ++ bs ".endswith(") r (bs ")") (name ++ bs " does not end with suffix ") r
  | Contains | NotContains => check (bs "not ") r (bs " in " ++ name) (name ++ bs " does not contain ") r
  end.
(** 740-741: the text of the exception has no constant. *)
Definition bytes_pattern_check (name p : text) : text :=
  check (bs "re.search(") (repr_bytes (flat_map unicode_escape1 p)) (bs ", " ++ name ++ bs ") is None")
    (name ++ bs " pattern does not match ") (bs "b['pattern'].encode('unicode-escape')").
