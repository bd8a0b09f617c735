(** What Python is to read in the lines of a check. *)
From Verif Require Import Base PyLit PyLex.
Local Open Scope N_scope.

(** The code before and after the constant, and the text of the exception. *)
Definition code_before (k : kind) (name : text) : text :=
  match k with
  | Const => name ++ bs " != " | Prefix => bs "not " ++ name ++ bs ".startswith(" | Suffix => bs "not " ++ name ++ bs ".endswith("
  | Contains => bs "not " | NotContains => []
  end.
Definition code_after (k : kind) (name : text) : text :=
  match k with Const => [] | Prefix | Suffix => bs ")" | Contains | NotContains => bs " in " ++ name end.
Definition complaint (k : kind) : text :=
  match k with
  | Const => bs " not equal to " | Prefix => bs " does not start with prefix " | Suffix => bs " does not end with suffix "
  | Contains => bs " does not contain " | NotContains => bs " contains "
  end.
(** The checks of bytes: there is none for not_contains. *)
Definition for_bytes (k : kind) : Prop := k <> NotContains.

(** A list of literals, each after [prefix], which is empty or b; and as it is shown in an exception. *)
Fixpoint literals (prefix : text) (l : list text) : list token :=
  match l with [] => [] | [s] => chrs prefix ++ [Lit s] | s :: l => chrs prefix ++ [Lit s] ++ chrs (bs ", ") ++ literals prefix l end.
Definition list_tokens (prefix : text) (l : list text) : list token := chrs (bs "[") ++ literals prefix l ++ chrs (bs "]").
Fixpoint shown_items (prefix : text) (l : list text) : text :=
  match l with [] => [] | [s] => prefix ++ [39] ++ s ++ [39] | s :: l => prefix ++ [39] ++ s ++ [39] ++ bs ", " ++ shown_items prefix l end.
Definition shown_list (prefix : text) (l : list text) : text := bs "[" ++ shown_items prefix l ++ bs "]".

Definition no_quotes (s : text) : Prop := ~ In 34 s /\ ~ In 39 s.
Definition code_points (s : text) : Prop := Forall (fun c => c < 0x110000) s.
Definition octets (s : text) : Prop := Forall (fun c => c < 256) s.
(** Control and separator characters are not printable. *)
Definition printable_ok (printable : N -> bool) : Prop := forall c, In c [133; 8232; 8233] -> printable c = false.
(** Patterns: no quotes, and a backslash before a character other than N, U, u and x. *)
Definition pattern_text (p : text) : Prop :=
  one_line p /\ ~ In 0 p /\ no_quotes p /\ forall a b, p = a ++ 92 :: b -> exists c t, b = c :: t /\ ~ In c (bs "NUux").
(** Code without quotes and comments. *)
Definition plain_code (c : text) : Prop := c <> [] /\ one_line c /\ Forall (fun x => ~ In x [0; 34; 35; 39]) c.
