(** How Python reads string literals (The Python Language Reference, 2.4.1): a source is cut into the characters of the code and the values of
    its literals.  Literals in triple quotes have no reading here, and f-strings are not known. *)
From Verif Require Import Base.
Local Open Scope N_scope.

Inductive token := Chr (c : N) | Lit (v : list N).

(** Within a literal: after a backslash, in a number of [k] more digits, in a Unicode name. *)
Inductive inside := Plain | Escape | Hex (k : nat) (n : N) | Oct (k : nat) (n : N) | Name0 | Name (s : list N) | Raw | RawEscape.

Definition escape_char (c : N) : option N :=
  match c with
  | 92 => Some 92 | 39 => Some 39 | 34 => Some 34 | 97 => Some 7 | 98 => Some 8 | 102 => Some 12 | 110 => Some 10 | 114 => Some 13
  | 116 => Some 9 | 118 => Some 11 | _ => None
  end.
Definition octal (c : N) : option N := if (48 <=? c) && (c <? 56) then Some (c - 48) else None.
Definition hexadecimal (c : N) : option N :=
  if (48 <=? c) && (c <? 58) then Some (c - 48)
  else if (97 <=? c) && (c <? 103) then Some (c - 87)
  else if (65 <=? c) && (c <? 71) then Some (c - 55)
  else None.
(** The ends of physical lines, and the character that no source may contain. *)
Definition newline (c : N) : bool := (c =? 10) || (c =? 13).

Section Lex.
Variable unicode : list N -> option N.   (* the character of a Unicode name *)

(** One character of a literal that the quote [q] ends: the characters of its value, and what follows, or the end; or a syntax error. *)
Definition plain (q c : N) : option (list N * option inside) :=
  if c =? q then Some ([], None)
  else if c =? 92 then Some ([], Some Escape)
  else if newline c || (c =? 0) then None
  else Some ([c], Some Plain).
Definition step (q : N) (i : inside) (c : N) : option (list N * option inside) :=
  match i with
  | Plain => plain q c
  | Escape =>
      if newline c then Some ([], Some Plain)
      else if c =? 0 then None
      else match escape_char c with
           | Some x => Some ([x], Some Plain)
           | None =>
               match octal c with
               | Some d => Some ([], Some (Oct 2 d))
               | None =>
                   if c =? 120 then Some ([], Some (Hex 2 0))
                   else if c =? 117 then Some ([], Some (Hex 4 0))
                   else if c =? 85 then Some ([], Some (Hex 8 0))
                   else if c =? 78 then Some ([], Some Name0)
                   else Some ([92; c], Some Plain)
               end
           end
  | Oct k n =>
      match k, octal c with
      | S k, Some d => Some ([], Some (Oct k (8 * n + d)))
      | _, _ => match plain q c with Some (v, i) => Some (n :: v, i) | None => None end
      end
  | Hex k n =>
      match hexadecimal c with
      | Some d =>
          let n := 16 * n + d in
          match k with
          | S (S k) => Some ([], Some (Hex (S k) n))
          | _ => if n <? 0x110000 then Some ([n], Some Plain) else None
          end
      | None => None
      end
  | Name0 => if c =? 123 then Some ([], Some (Name [])) else None
  | Name s =>
      if c =? 125 then match unicode s with Some x => Some ([x], Some Plain) | None => None end
      else if newline c || (c =? 0) || (c =? q) then None
      else Some ([], Some (Name (s ++ [c])))
  | Raw => if c =? q then Some ([], None) else if newline c || (c =? 0) then None else Some ([c], Some (if c =? 92 then RawEscape else Raw))
  | RawEscape => if c =? 0 then None else Some ([c], Some Raw)
  end.

Inductive mode := Code (prev : N) | Comment | Literal (q : N) (i : inside) (v : list N).
Definition add (t : token) (o : option (list token)) : option (list token) := match o with Some l => Some (t :: l) | None => None end.
Definition triple (q : N) (s : list N) : bool := match s with a :: b :: _ => (a =? q) && (b =? q) | _ => false end.
Fixpoint tokens (m : mode) (s : list N) : option (list token) :=
  match s with
  | [] => match m with Literal _ _ _ => None | _ => Some [] end
  | c :: t =>
      match m with
      | Code prev =>
          if (c =? 34) || (c =? 39) then
            if triple c t then None else tokens (Literal c (if prev =? 114 then Raw else Plain) []) t
          else if c =? 35 then tokens Comment t
          else if c =? 0 then None
          else add (Chr c) (tokens (Code c) t)
      | Comment => if newline c then add (Chr c) (tokens (Code c) t) else tokens Comment t
      | Literal q i v =>
          match step q i c with
          | None => None
          | Some (e, None) => add (Lit (v ++ e)) (tokens (Code c) t)
          | Some (e, Some i) => tokens (Literal q i (v ++ e)) t
          end
      end
  end.
(** A source, from the beginning. *)
Definition reads (s : list N) : option (list token) := tokens (Code 10) s.
End Lex.

(** ** What is to be read *)

Definition chrs (s : list N) : list token := map Chr s.
(** The two lines of a check, indented by [w], with the literals [code] and the text [msg]. *)
Definition two_lines (w : nat) (before : list N) (code : list token) (after msg : list N) : list token :=
  chrs (repeat 32 w ++ bs "if " ++ before) ++ code ++
  chrs (after ++ bs ":" ++ [10] ++ repeat 32 (w + 8) ++ bs "raise ValidationFailed(") ++ [Lit msg] ++ chrs (bs ")").

(** Characters that str.splitlines takes for the end of a line. *)
Definition one_line (s : list N) : Prop := forall c, In c s -> ~ In c [10; 11; 12; 13; 28; 29; 30; 133; 8232; 8233].
(** A text that is its own literal: no double quote, no NUL, and a backslash only before a character with which it is not an escape sequence. *)
Definition starts_escape (c : N) : bool := existsb (N.eqb c) (bs "\'""abfnrtvxNuU01234567").
Fixpoint harmless (s : list N) : bool :=
  match s with
  | [] => true
  | c :: t =>
      if c =? 92 then match t with d :: t' => negb (starts_escape d) && negb (d =? 0) && harmless t' | [] => false end
      else negb (c =? 34) && negb (c =? 0) && harmless t
  end.
(** Names as the templates have them: p.x, p.x.value, p.x[key], item, key. *)
Definition name_char (c : N) : bool :=
  ((48 <=? c) && (c <=? 57)) || ((65 <=? c) && (c <=? 90)) || ((97 <=? c) && (c <=? 122)) || existsb (N.eqb c) [95; 46; 91; 93].
Definition a_name (s : list N) : Prop := Forall (fun c => name_char c = true) s.
