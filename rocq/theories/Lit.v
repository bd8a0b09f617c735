(** The source text of literals: what [lit], [byteStr], [javaStringEscape] and [byteArrayLit] write. *)
From Coq Require Import Decimal.
From Verif Require Import Base Utf8.
Local Open Scope N_scope.

(** ** Numbers *)

(** The digits of [%d], [%x], [%X] (package fmt). *)
Fixpoint dec_digits (d : uint) : bytes :=
  match d with
  | Nil => []
  | D0 d => 48 :: dec_digits d | D1 d => 49 :: dec_digits d | D2 d => 50 :: dec_digits d | D3 d => 51 :: dec_digits d
  | D4 d => 52 :: dec_digits d | D5 d => 53 :: dec_digits d | D6 d => 54 :: dec_digits d | D7 d => 55 :: dec_digits d
  | D8 d => 56 :: dec_digits d | D9 d => 57 :: dec_digits d
  end.
Definition dec_nat (n : N) : bytes := dec_digits (N.to_uint n).
(** [fmt.Sprint] of an integer. *)
Definition dec_int (z : Z) : bytes :=
  match z with
  | Zneg p => 45 :: dec_nat (Npos p)
  | _ => dec_nat (Z.to_N z)
  end.

Definition upper_digit (d : N) : N := if d <? 10 then 48 + d else 55 + d.
Definition lower_digit (d : N) : N := if d <? 10 then 48 + d else 87 + d.
(** A byte, in as few digits as possible. *)
Definition hex_byte (digit : N -> N) (b : N) : bytes := if b <? 16 then [digit b] else [digit (b / 16); digit (b mod 16)].
(** [n] digits. *)
Fixpoint hex_fixed (n : nat) (r : N) : bytes :=
  match n with O => [] | S n => hex_fixed n (r / 16) ++ [lower_digit (r mod 16)] end.

(** ** Strings *)
Section Quote.
(** [strconv.IsPrint] on runes above 0x7E is not modelled. *)
Variable is_print : rune -> bool.
Definition printable (r : rune) : bool := if r <? 0x7F then 0x20 <=? r else is_print r.

(** [strconv.Quote], which [%q] is: appendEscapedRune.  (Later Go releases write DEL as \x7f.) *)
Definition quote_rune (r : rune) : bytes :=
  if (r =? 34) || (r =? 92) then [92; r]
  else if printable r then utf8_enc r
  else if r =? 7 then bs "\a" else if r =? 8 then bs "\b" else if r =? 12 then bs "\f" else if r =? 10 then bs "\n"
  else if r =? 13 then bs "\r" else if r =? 9 then bs "\t" else if r =? 11 then bs "\v"
  else if r <? 0x20 then bs "\x" ++ hex_fixed 2 r
  else if r <? 0x10000 then bs "\u" ++ hex_fixed 4 r
  else bs "\U" ++ hex_fixed 8 r.
(** A byte that is not part of a valid encoding. *)
Definition quote_bad (b : N) : bytes := bs "\x" ++ hex_fixed 2 b.

(** The loop of appendQuotedWith (package strconv), decoding as in [runes]: one piece for each valid encoding, one for
    each other byte. *)
Fixpoint pieces {A} (good : rune -> A) (bad : N -> A) (s : bytes) : list A :=
  match s with
  | [] => []
  | b0 :: t =>
      if b0 <? 0x80 then good b0 :: pieces good bad t
      else if in_range 0xC2 0xDF b0 then
        match t with
        | b1 :: t1 => if cont b1 then good (cp2 b0 b1) :: pieces good bad t1 else bad b0 :: pieces good bad t
        | [] => bad b0 :: pieces good bad t
        end
      else if in_range 0xE0 0xEF b0 then
        match t with
        | b1 :: b2 :: t2 =>
            if acc3 b0 b1 && cont b2 then good (cp3 b0 b1 b2) :: pieces good bad t2 else bad b0 :: pieces good bad t
        | _ => bad b0 :: pieces good bad t
        end
      else if in_range 0xF0 0xF4 b0 then
        match t with
        | b1 :: b2 :: b3 :: t3 =>
            if acc4 b0 b1 && cont b2 && cont b3 then good (cp4 b0 b1 b2 b3) :: pieces good bad t3
            else bad b0 :: pieces good bad t
        | _ => bad b0 :: pieces good bad t
        end
      else bad b0 :: pieces good bad t
  end.
Definition quote_body (s : bytes) : bytes := List.concat (pieces quote_rune quote_bad s).
(** templates/goshared/register.go:176-177, templates/cc/register.go:241-242. *)
Definition quote (s : bytes) : bytes := bs """" ++ quote_body s ++ bs """".

(** [strings.Join] *)
Fixpoint join_with (sep : bytes) (l : list bytes) : bytes :=
  match l with
  | [] => []
  | [x] => x
  | x :: t => x ++ sep ++ join_with sep t
  end.

(** [lit] on a byte slice, register.go:178-185: [%T] of a [[]byte] is [[]uint8]. *)
Definition go_bytes_lit (x : bytes) : bytes :=
  bs "[]uint8{" ++ join_with (bs ", ") (map (fun b => bs "0x" ++ hex_byte upper_digit b) x) ++ bs "}".
(** byteStr, register.go:199-206; templates/cc/register.go:269-276 is the same. *)
Definition byte_str (x : bytes) : bytes :=
  bs """" ++ List.concat (map (fun b => bs "\x" ++ hex_byte upper_digit b) x) ++ bs """".
(** [lit] on a byte slice for C++, templates/cc/register.go:247-252. *)
Definition cc_bytes_lit (x : bytes) : bytes :=
  bs """" ++ List.concat (map (fun b => bs "\x" ++ hex_byte lower_digit b) x) ++ bs """".
(** byteArrayLit, templates/java/register.go:456-465: [%#x] of each byte. *)
Definition java_bytes_lit (x : bytes) : bytes :=
  bs "new byte[]{" ++ List.concat (map (fun b => bs "(byte)0x" ++ hex_byte lower_digit b ++ bs ",") x) ++ bs "}".

(** A string constant in the Java templates, templates/java/string.go:7,14,27,57,60,63,66: the text between quotes. *)
Definition java_raw (s : bytes) : bytes := bs """" ++ s ++ bs """".

(** [strings.Replace(s, old, new, -1)] for a non-empty [old]: leftmost occurrences, without overlap. [skip] bytes of
    an occurrence remain to be dropped. *)
Fixpoint replace_at (old new : bytes) (skip : nat) (s : bytes) : bytes :=
  match s with
  | [] => []
  | b :: t =>
      match skip with
      | S k => replace_at old new k t
      | O => if has_prefix s old then new ++ replace_at old new (List.length old - 1) t
             else b :: replace_at old new O t
      end
  end.
(** Also for the empty [old] when [new] is empty, which is all that occurs: Go returns [s] when [old == new]. *)
Definition replace_all (s old new : bytes) : bytes :=
  match old with [] => s | _ => replace_at old new O s end.

(** javaStringEscape, templates/java/register.go:442-450. *)
Definition java_escape (s : bytes) : bytes :=
  let s := quote_body s in
  let s := replace_all s (bs "\u00") (bs "\x") in
  let s := replace_all s (bs "\x") (bs "\\x") in
  let s := replace_all s (bs """") (bs "\""") in
  bs """" ++ s ++ bs """".
End Quote.

(** ** Output paths: module/validate.go:53.  [out] is the path computed for the language, [module] the parameter. *)
Fixpoint trim_left (c : N) (s : bytes) : bytes :=
  match s with
  | b :: t => if b =? c then trim_left c t else s
  | [] => []
  end.
Definition out_path (out module : bytes) : bytes := trim_left 47 (replace_all out module []).
