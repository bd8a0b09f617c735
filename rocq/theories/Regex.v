(** Regular expressions over runes, with Brzozowski derivatives as the matcher.

    Used for the fixed patterns of /repo: the uuid pattern (templates/go/file.go:48)
    and the header patterns (module/checker.go:16-27).  A Go pattern [^e$] without flags
    matches a string iff its whole rune sequence is in the language of [e]. *)
From Verif Require Import Base Utf8.

Inductive regex :=
| RVoid | REps | RClass (f : rune -> bool) | RCat (a b : regex) | RAlt (a b : regex) | RStar (a : regex).

(** The language of an expression. *)
Inductive lang : regex -> list rune -> Prop :=
| LEps : lang REps []
| LClass f c : f c = true -> lang (RClass f) [c]
| LCat a b u v : lang a u -> lang b v -> lang (RCat a b) (u ++ v)
| LAltL a b u : lang a u -> lang (RAlt a b) u
| LAltR a b u : lang b u -> lang (RAlt a b) u
| LStar0 a : lang (RStar a) []
| LStarS a u v : lang a u -> lang (RStar a) v -> lang (RStar a) (u ++ v).

Fixpoint nullable (r : regex) : bool :=
  match r with
  | RVoid | RClass _ => false
  | REps | RStar _ => true
  | RCat a b => nullable a && nullable b
  | RAlt a b => nullable a || nullable b
  end.

Fixpoint deriv (c : rune) (r : regex) : regex :=
  match r with
  | RVoid | REps => RVoid
  | RClass f => if f c then REps else RVoid
  | RCat a b => if nullable a then RAlt (RCat (deriv c a) b) (deriv c b) else RCat (deriv c a) b
  | RAlt a b => RAlt (deriv c a) (deriv c b)
  | RStar a => RCat (deriv c a) (RStar a)
  end.

Fixpoint rmatch (r : regex) (s : list rune) : bool :=
  match s with [] => nullable r | c :: t => rmatch (deriv c r) t end.

(** [e{n}] *)
Fixpoint rep (n : nat) (r : regex) : regex :=
  match n with O => REps | S k => RCat r (rep k r) end.
Definition plus (r : regex) : regex := RCat r (RStar r).
Definition opt_re (r : regex) : regex := RAlt r REps.
Definition chr (c : N) : regex := RClass (N.eqb c).
