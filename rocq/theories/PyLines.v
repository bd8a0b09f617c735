(** A specification: which texts have the lines of a Python program.

    Read character by character, as Python's tokenizer does: strings, names, brackets, indentation.  Checked is what a template can get
    wrong: that every line is one statement or the header of one block, that a block follows every header, indented more deeply, that a line
    is indented like a block it can belong to, that [else] and [except] follow what they belong to, that [try] is followed by [except], and
    that no two operands stand side by side.  Not known here: statements after the colon of a header, lines continued in brackets, escapes in
    strings; the templates have none. *)
From Verif Require Import Base.
Local Open Scope N_scope.

(** Statements that have a block, and the others. *)
Inductive kind := KIf | KFor | KTry | KExcept | KElse | KDef | KPlain.

(** The blocks that are open, innermost first: their indentation and the statement they contain last. *)
Definition blocks := list (nat * kind).

(** Where in a line the text ends. *)
Inductive place :=
| Margin (n : nat)                                           (* after n blanks *)
| Comment
| Within (n : nat) (k : option kind) (quote : option N) (word : list N) (depth : nat) (operand colon : bool).
(* n blanks before the line, what it is (None: nothing but a name so far), the quote of an open string, the letters of an unfinished name
   (last first), open brackets, whether an operand stands last, whether the colon of the header was read. *)

(** A text so far: [need] when the last line was a header. *)
Inductive state := Wrong | State (b : blocks) (need : bool) (p : place).

Definition word_char (c : N) : bool :=
  if c <? 97 then
    if c <? 65 then if c <? 48 then c =? 46 else c <=? 57
    else if c <=? 90 then true else c =? 95
  else c <=? 122.
Fixpoint same (a b : list N) : bool :=
  match a, b with [], [] => true | x :: a, y :: b => if x =? y then same a b else false | _, _ => false end.
Fixpoint one_of (l : list (list N)) (w : list N) : bool := match l with s :: l => if same s w then true else one_of l w | [] => false end.
Definition words (l : list string) : list (list N) := map bs l.
Definition compounds : list (list N * kind * bool) :=
  Eval vm_compute in map (fun '(s, k, o) => (bs s, k, o))
    [("if", KIf, false); ("for", KFor, false); ("try", KTry, true); ("except", KExcept, false); ("else", KElse, true); ("def", KDef, false);
     ("raise", KPlain, false); ("return", KPlain, false)]%string.
Definition operators : list (list N) := Eval vm_compute in words ["in"; "not"; "or"; "and"; "is"]%string.
Definition keywords : list (list N) :=
  Eval vm_compute in words ["if"; "for"; "try"; "except"; "else"; "def"; "raise"; "return"; "pass"]%string.
Definition signs : list (list N) := Eval vm_compute in map (fun c => [c]) (bs "=<>!+-*%/,").
Definition string_prefixes : list (list N) := Eval vm_compute in words [""; "r"; "b"]%string.
Definition a_string : list N := Eval vm_compute in bs "string".

(** The first word of a line. *)
Definition first_word (w : list N) : kind * bool :=   (* the kind, and whether an operand stands last now *)
  match find (fun '(x, _, _) => same x w) compounds with Some (_, k, o) => (k, o) | None => (KPlain, true) end.
Definition header (k : kind) : bool := match k with KPlain => false | _ => true end.

(** A name, a number, a keyword or a string has been read; [None]: it cannot stand here. *)
Definition word_read (k : option kind) (w : list N) (operand colon : bool) : option (option kind * bool) :=
  if colon then None
  else match k with
       | None => let (k, o) := first_word w in Some (Some k, o)
       | Some _ =>
           if one_of operators w then Some (k, false)
           else if one_of keywords w then None
           else if operand then None else Some (k, true)
       end.

(** A line of the kind [k], indented by [n]. *)
Fixpoint leave (b : blocks) (n : nat) : option blocks :=
  match b with
  | (m, last) :: rest => if (n <? m)%nat then match last with KTry => None | _ => leave rest n end
                         else if (n =? m)%nat then Some b else None
  | [] => None
  end.
Definition follows (last k : kind) : bool :=
  match k with
  | KElse => match last with KIf | KFor => true | _ => false end
  | KExcept => match last with KTry | KExcept => true | _ => false end
  | _ => match last with KTry => false | _ => true end
  end.
Definition line (b : blocks) (need : bool) (n : nat) (k : kind) : option blocks :=
  if need then
    match b with
    | (m, _) :: _ => if (m <? n)%nat && follows KPlain k then Some ((n, k) :: b) else None
    | [] => None
    end
  else match leave b n with
       | Some ((m, last) :: rest) => if follows last k then Some ((m, k) :: rest) else None
       | _ => None
       end.

(** A character of a line, not within a string or a word, and not its end. *)
Definition sign (n : nat) (k : option kind) (depth : nat) (operand colon : bool) (c : N) : option place :=
  if c =? 32 then Some (Within n k None [] depth operand colon)
  else if c =? 35 then None
  else if colon then None
  else match k with
       | None => None
       | Some kd =>
           if (c =? 40) || (c =? 91) then Some (Within n k None [] (S depth) false colon)
           else if (c =? 41) || (c =? 93) then
             match depth with O => None | S d => Some (Within n k None [] d true colon) end
           else if c =? 58 then
             match depth with O => if header kd && operand then Some (Within n k None [] 0 false true) else None | _ => None end
           else if one_of signs [c] then Some (Within n k None [] depth false colon)
           else None
       end.

Definition wrong_or (b : blocks) (need : bool) (p : option place) : state :=
  match p with Some p => State b need p | None => Wrong end.

(** One more character. *)
Definition next (st : state) (c : N) : state :=
  match st with
  | Wrong => Wrong
  | State b need p =>
      match p with
      | Margin n =>
          if c =? 32 then State b need (Margin (S n))
          else if c =? 10 then State b need (Margin 0)
          else if c =? 35 then State b need Comment
          else if word_char c then State b need (Within n None None [c] 0 false false)
          else Wrong
      | Comment => if c =? 10 then State b need (Margin 0) else st
      | Within n k (Some q) w depth operand colon =>
          if c =? 10 then Wrong
          else if c =? q then
            match word_read k a_string operand colon with
            | Some (k, o) => State b need (Within n k None [] depth o colon)
            | None => Wrong
            end
          else st
      | Within n k None w depth operand colon =>
          if word_char c then State b need (Within n k None (c :: w) depth operand colon)
          else if if (c =? 39) || (c =? 34) then one_of string_prefixes w else false then State b need (Within n k (Some c) [] depth operand colon)
          else
            match (match w with [] => Some (k, operand) | _ => word_read k (rev w) operand colon end) with
            | None => Wrong
            | Some (k, o) =>
                if c =? 10 then
                  match k, depth with
                  | Some kd, O =>
                      if (if header kd then colon else o)
                      then match line b need n kd with Some b => State b (header kd) (Margin 0) | None => Wrong end
                      else Wrong
                  | _, _ => Wrong
                  end
                else wrong_or b need (sign n k depth o colon c)
            end
      end
  end.
Definition reads (st : state) (s : list N) : state := fold_left next s st.

(** A file: it ends where no block is awaited and no [try] is left alone. *)
Definition finished (st : state) : bool :=
  match next st 10 with
  | State b false (Margin _) => forallb (fun '(_, last) => match last with KTry => false | _ => true end) b
  | _ => false
  end.
Definition start : state := State [(0%nat, KPlain)] false (Margin 0).
Definition python_lines (s : list N) : bool := finished (reads start s).
