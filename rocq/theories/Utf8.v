(** UTF-8 as Go's [unicode/utf8] implements it.

    [runes] is the sequence of runes produced by [for _, r := range s] and by
    [utf8.DecodeRuneInString] (Go standard library, not in /repo).  An invalid
    or truncated sequence yields U+FFFD and advances by one byte.
    [rune_count] is [utf8.RuneCountInString], used by
    templates/goshared/string.go:15-41 and module/checker.go:216-218. *)
From Verif Require Import Base.
Local Open Scope N_scope.

Definition rune := N.
Definition rune_error : rune := 0xFFFD.

Definition cont (b : N) : bool := (0x80 <=? b) && (b <=? 0xBF).
Definition in_range (lo hi b : N) : bool := (lo <=? b) && (b <=? hi).

(** Accepted range of the second byte for a three-byte lead [b0]
    (utf8.acceptRanges). *)
Definition acc3 (b0 b1 : N) : bool :=
  if b0 =? 0xE0 then in_range 0xA0 0xBF b1
  else if b0 =? 0xED then in_range 0x80 0x9F b1
  else cont b1.

Definition acc4 (b0 b1 : N) : bool :=
  if b0 =? 0xF0 then in_range 0x90 0xBF b1
  else if b0 =? 0xF4 then in_range 0x80 0x8F b1
  else cont b1.

Definition cp2 (b0 b1 : N) : rune := (b0 - 0xC0) * 64 + (b1 - 0x80).
Definition cp3 (b0 b1 b2 : N) : rune := (b0 - 0xE0) * 4096 + (b1 - 0x80) * 64 + (b2 - 0x80).
Definition cp4 (b0 b1 b2 b3 : N) : rune :=
  (b0 - 0xF0) * 262144 + (b1 - 0x80) * 4096 + (b2 - 0x80) * 64 + (b3 - 0x80).

Fixpoint runes (s : bytes) : list rune :=
  match s with
  | [] => []
  | b0 :: t =>
      if b0 <? 0x80 then b0 :: runes t
      else if in_range 0xC2 0xDF b0 then
        match t with
        | b1 :: t1 => if cont b1 then cp2 b0 b1 :: runes t1 else rune_error :: runes t
        | [] => rune_error :: runes t
        end
      else if in_range 0xE0 0xEF b0 then
        match t with
        | b1 :: b2 :: t2 =>
            if acc3 b0 b1 && cont b2 then cp3 b0 b1 b2 :: runes t2 else rune_error :: runes t
        | _ => rune_error :: runes t
        end
      else if in_range 0xF0 0xF4 b0 then
        match t with
        | b1 :: b2 :: b3 :: t3 =>
            if acc4 b0 b1 && cont b2 && cont b3 then cp4 b0 b1 b2 b3 :: runes t3
            else rune_error :: runes t
        | _ => rune_error :: runes t
        end
      else rune_error :: runes t
  end.

Definition rune_count (s : bytes) : N := N.of_nat (List.length (runes s)).

(** [utf8.EncodeRune] for a rune; surrogates and out-of-range values encode U+FFFD. *)
Definition utf8_enc (r : rune) : bytes :=
  if r <? 0x80 then [r]
  else if r <? 0x800 then [0xC0 + r / 64; 0x80 + r mod 64]
  else if (0x110000 <=? r) || in_range 0xD800 0xDFFF r then [0xEF; 0xBF; 0xBD]
  else if r <? 0x10000 then [0xE0 + r / 4096; 0x80 + (r / 64) mod 64; 0x80 + r mod 64]
  else [0xF0 + r / 262144; 0x80 + (r / 4096) mod 64; 0x80 + (r / 64) mod 64; 0x80 + r mod 64].

Definition utf8_encode (rs : list rune) : bytes := flat_map utf8_enc rs.
