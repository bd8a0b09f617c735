(** Jinja2 templates: the part of the language in which validator.py writes its templates.

    Not code of the repository: the lexer, the parser and the filter are those of Jinja2 (lexer.py, parser.py, filters.py do_indent) with its
    default options, restricted to the statements that occur in python/protoc_gen_validate/validator.py.  Conditions are not interpreted:
    what a condition yields is given from outside, by its text.  A text is a list of character codes. *)
From Verif Require Import Base.
Local Open Scope N_scope.

Definition text := list N.

(** ** Lexing *)

Definition blank (c : N) : bool := (c =? 32) || (c =? 10).
Fixpoint ltrim (s : text) : text := match s with c :: t => if blank c then ltrim t else s | [] => [] end.
Definition rtrim (s : text) : text := rev (ltrim (rev s)).

(** What stands before the two characters [a] and "}", and what follows them. *)
Fixpoint cut (a : N) (s : text) : text * text :=
  match s with
  | c :: t =>
      if (c =? a) && match t with d :: _ => d =? 125 | [] => false end then ([], tl t)
      else let (x, y) := cut a t in (c :: x, y)
  | [] => ([], [])
  end.

(** The text between tags, and tags: whether it is "{{", whether it begins and ends with "-", what it says. *)
Inductive raw := RData (s : text) | RTag (out before after : bool) (s : text).
Definition tag (out : bool) (s : text) : raw :=
  let before := match s with 45 :: _ => true | _ => false end in
  let s := if before then tl s else s in
  let after := match rev s with 45 :: _ => true | _ => false end in
  let s := if after then rev (tl (rev s)) else s in
  RTag out before after (rtrim (ltrim s)).
Fixpoint lex (fuel : nat) (data : text) (s : text) : list raw :=
  match fuel with
  | O => []
  | S fuel =>
      match s with
      | 123 :: 37 :: t => let (x, y) := cut 37 t in RData (rev data) :: tag false x :: lex fuel [] y
      | 123 :: 123 :: t => let (x, y) := cut 125 t in RData (rev data) :: tag true x :: lex fuel [] y
      | c :: t => lex fuel (c :: data) t
      | [] => [RData (rev data)]
      end
  end.

(** "-" at a tag removes the blanks and line breaks of the text next to it. *)
Inductive tok := TData (s : text) | TStmt (s : text) | TOut (s : text).
Fixpoint strip (after : bool) (l : list raw) : list tok :=
  match l with
  | RData s :: l =>
      let s := if after then ltrim s else s in
      let s := match l with RTag _ true _ _ :: _ => rtrim s | _ => s end in
      TData s :: strip false l
  | RTag out _ after s :: l => (if out then TOut s else TStmt s) :: strip after l
  | [] => []
  end.

(** ** Parsing *)

(** A template: texts, [{{ e }}], [{% set i = n %}], [{% if c %} a {% else %} b {% endif %}], [{% filter indent(i,True) %} b {% endfilter %}]
    and [{% for e %} b {% endfor %}], each with what follows it. *)
Inductive tpl :=
| End
| Data (s : text) (k : tpl)
| Out (e : text) (k : tpl)
| Set_i (n : nat) (k : tpl)
| Cond (c : text) (a b k : tpl)
| Filter (b k : tpl)
| Loop (e : text) (b k : tpl).

Fixpoint after_prefix (p s : text) : option text :=
  match p, s with
  | [], _ => Some s
  | a :: p, b :: s => if a =? b then after_prefix p s else None
  | _, [] => None
  end.
Definition text_eqb (a b : text) : bool := match after_prefix a b with Some [] => true | _ => false end.
Definition is_stmt (s : string) (l : list tok) : option (list tok) :=
  match l with TStmt t :: l => if text_eqb (bs s) t then Some l else None | _ => None end.

(** [{% set x = ... %}] with another variable gives a rule a name: the conditions are texts, so it is left out. *)
Fixpoint parse (fuel : nat) (l : list tok) : option (tpl * list tok) :=
  match fuel with
  | O => None
  | S fuel =>
      match l with
      | [] => Some (End, [])
      | TData [] :: l => parse fuel l
      | TData s :: l => match parse fuel l with Some (k, l) => Some (Data s k, l) | None => None end
      | TOut e :: l => match parse fuel l with Some (k, l) => Some (Out e k, l) | None => None end
      | TStmt s :: rest =>
          match after_prefix (bs "if ") s with
          | Some c =>
              match branches fuel rest with
              | Some (a, b, l) => match parse fuel l with Some (k, l) => Some (Cond c a b k, l) | None => None end
              | None => None
              end
          | None =>
          match after_prefix (bs "for ") s with
          | Some e =>
              match parse fuel rest with
              | Some (b, l) =>
                  match is_stmt "endfor" l with
                  | Some l => match parse fuel l with Some (k, l) => Some (Loop e b k, l) | None => None end
                  | None => None
                  end
              | None => None
              end
          | None =>
          match after_prefix (bs "filter indent(i,True)") s with
          | Some _ =>
              match parse fuel rest with
              | Some (b, l) =>
                  match is_stmt "endfilter" l with
                  | Some l => match parse fuel l with Some (k, l) => Some (Filter b k, l) | None => None end
                  | None => None
                  end
              | None => None
              end
          | None =>
          match after_prefix (bs "set ") s with
          | Some x =>
              match parse fuel rest with
              | Some (k, l) =>
                  match after_prefix (bs "i = ") x with
                  | Some [d] => Some (Set_i (N.to_nat (d - 48)) k, l)
                  | _ => Some (k, l)
                  end
              | None => None
              end
          | None => Some (End, l)
          end end end end
      end
  end
with branches (fuel : nat) (l : list tok) : option (tpl * tpl * list tok) :=
  match fuel with
  | O => None
  | S fuel =>
      match parse fuel l with
      | Some (a, l) =>
          match is_stmt "endif" l with
          | Some l => Some (a, End, l)
          | None =>
          match is_stmt "else" l with
          | Some l =>
              match parse fuel l with
              | Some (b, l) => match is_stmt "endif" l with Some l => Some (a, b, l) | None => None end
              | None => None
              end
          | None =>
              match l with
              | TStmt s :: l =>
                  match after_prefix (bs "elif ") s with
                  | Some c => match branches fuel l with Some (a', b', l) => Some (a, Cond c a' b' End, l) | None => None end
                  | None => None
                  end
              | _ => None
              end
          end end
      | None => None
      end
  end.
Definition template (s : string) : option tpl :=
  let s := bs s in
  let l := strip false (lex (S (List.length s)) [] s) in
  match parse (2 * List.length l + 2) l with Some (t, []) => Some t | _ => None end.

(** ** Rendering *)

(** The filter indent(width, True): [width] blanks before the first line, and before every later line that is not empty. *)
Definition spaces (n : nat) : text := repeat 32 n.
Fixpoint shift (width : nat) (fresh : bool) (s : text) : text :=
  match s with
  | [] => []
  | c :: t => (if fresh && negb (c =? 10) then spaces width else []) ++ c :: shift width (c =? 10) t
  end.
Definition indent (width : nat) (s : text) : text := spaces width ++ shift width false s.

(** What the conditions yield. *)
Definition env := text -> bool.

Section Render.
(** [{{ e }}] is a value, or the source that another template gives, indented or not.  [calls e same w]: it is a call; in the template that
    is called the conditions yield the same as here, or not; the width of the filter. *)
Variable calls : text -> option (bool * option nat).
(** The template that a call renders, and what its conditions yield. *)
Variable may : text -> tpl -> env -> Prop.

Definition filtered (w : option nat) (s : text) : text := match w with Some w => indent w s | None => s end.

(** A value is taken to be the letter x: the values are names and the constants of rules. *)
Definition value_text : text := [120].

(** [renders v t i s i']: rendering [t] where the variable i has the value [i] gives the text [s] and leaves [i'] in the variable. *)
Inductive renders : env -> tpl -> nat -> text -> nat -> Prop :=
| r_end v i : renders v End i [] i
| r_data v s k i t j : renders v k i t j -> renders v (Data s k) i (s ++ t) j
| r_value v e k i t j : calls e = None -> renders v k i t j -> renders v (Out e k) i (value_text ++ t) j
| r_call v e same w callee v' s j' k i t j :
    calls e = Some (same, w) -> may e callee v' -> (same = true -> v' = v) ->
    renders v' callee 0 s j' -> renders v k i t j ->
    renders v (Out e k) i (filtered w s ++ t) j
| r_set v n k i t j : renders v k n t j -> renders v (Set_i n k) i t j
| r_cond v c a b k i s j t h :
    renders v (if v c then a else b) i s j -> renders v k j t h -> renders v (Cond c a b k) i (s ++ t) h
| r_filter v b k i s j t h :
    renders v b i s j -> renders v k j t h -> renders v (Filter b k) i (indent i s ++ t) h
| r_loop v e b k i s t j : repeats b i s -> renders v k i t j -> renders v (Loop e b k) i (s ++ t) j
(** Any number of rounds, each with what its conditions yield.  The templates set i in no loop. *)
with repeats : tpl -> nat -> text -> Prop :=
| r_done b i : repeats b i []
| r_round b i v s t j : renders v b i s j -> repeats b i t -> repeats b i (s ++ t).
End Render.
