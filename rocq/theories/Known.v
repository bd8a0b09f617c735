(** The helper functions emitted by templates/goshared/known.go and the fixed regular
    expressions. *)
From Verif Require Import Base Utf8 Regex Checker.
Local Open Scope N_scope.

(** Ranges in character classes. *)
Definition rng (lo hi : N) (c : rune) : bool := (lo <=? c) && (c <=? hi).

(** [0-9a-fA-F] *)
Definition hex_class : regex :=
  RClass (fun c => rng 48 57 c || rng 97 102 c || rng 65 70 c).

(** templates/go/file.go:48:
    ^[0-9a-fA-F]{8}-[0-9a-fA-F]{4}-[0-9a-fA-F]{4}-[0-9a-fA-F]{4}-[0-9a-fA-F]{12}$ *)
Definition uuid_re : regex :=
  RCat (rep 8 hex_class) (RCat (chr 45)
  (RCat (rep 4 hex_class) (RCat (chr 45)
  (RCat (rep 4 hex_class) (RCat (chr 45)
  (RCat (rep 4 hex_class) (RCat (chr 45) (rep 12 hex_class)))))))).

(** checker.go:17, [^:?[0-9a-zA-Z!#$%&'*+-.^_|~`]+$]; the class contains the range
    [+-.] (0x2B-0x2E), hence the comma. *)
Definition header_name_re : regex :=
  RCat (opt_re (chr 58))
    (plus (RClass (fun c => rng 48 57 c || rng 97 122 c || rng 65 90 c
       || (c =? 33) || (c =? 35) || (c =? 36) || (c =? 37) || (c =? 38) || (c =? 39)
       || (c =? 42) || rng 43 46 c || (c =? 94) || (c =? 95) || (c =? 124) || (c =? 126)
       || (c =? 96)))).

(** checker.go:18, [^[^\0-\x08\n-\x1f\x7f]*$] *)
Definition header_value_re : regex :=
  RStar (RClass (fun c => negb (rng 0 8 c || rng 10 31 c || (c =? 127)))).

(** checker.go:19, [^[^\0\n\r]*$] *)
Definition header_string_re : regex :=
  RStar (RClass (fun c => negb ((c =? 0) || (c =? 10) || (c =? 13)))).

(** Errors of the helpers. *)
Inductive host_err := HTooLong | HPartLen | HPartBegin | HPartEnd | HPartChar (r : rune).

(** [unicode.ToLower].  Exact on ASCII and on the two non-ASCII runes whose lower case is
    ASCII (U+212A KELVIN SIGN, U+0130); every other rune is mapped to itself.  (Go maps
    those to some other non-ASCII rune; both are rejected below.) *)
Definition lower (r : rune) : rune :=
  if rng 65 90 r then r + 32
  else if r =? 0x212A then 107
  else if r =? 0x130 then 105
  else r.

(** [strings.ToLower]: decodes, maps, re-encodes. *)
Definition to_lower (s : bytes) : bytes := utf8_encode (map lower (runes s)).

(** The rune loop, known.go:24-28. *)
Definition host_char (r : rune) : bool := rng 97 122 r || rng 48 57 r || (r =? 45).

Definition host_part (p : bytes) : option host_err :=
  if (blen p =? 0) || (63 <? blen p) then Some HPartLen
  else if hd 0 p =? 45 then Some HPartBegin
  else if List.last p 0 =? 45 then Some HPartEnd
  else match find (fun r => negb (host_char r)) (runes p) with
       | Some r => Some (HPartChar r)
       | None => None
       end.

Fixpoint first_err {A E} (f : A -> option E) (l : list A) : option E :=
  match l with
  | [] => None
  | x :: t => match f x with Some e => Some e | None => first_err f t end
  end.

(** _validateHostname, known.go:3-33. *)
Definition validate_hostname (host : bytes) : option host_err :=
  let s := to_lower (trim_suffix host [46]) in
  if 253 <? blen host then Some HTooLong
  else first_err host_part (split_on 46 s).

(** [strings.SplitN(addr, "@", 2)]: [None] when there is no "@" (then [parts[1]] panics). *)
Fixpoint split_at (s : bytes) : option (bytes * bytes) :=
  match s with
  | [] => None
  | c :: t => if c =? 64 then Some ([], t)
              else match split_at t with Some (a, b) => Some (c :: a, b) | None => None end
  end.

Inductive email_err := EParse | ETooLong | ELocalTooLong | EHost (e : host_err) | EPanic.

(** _validateEmail, known.go:35-55; [parsed] is the result of [mail.ParseAddress]
    (the [Address] field), an oracle. *)
Definition validate_email (parsed : option bytes) : option email_err :=
  match parsed with
  | None => Some EParse
  | Some addr =>
      if 254 <? blen addr then Some ETooLong
      else match split_at addr with
           | None => Some EPanic
           | Some (local, dom) =>
               if 64 <? blen local then Some ELocalTooLong
               else match validate_hostname dom with
                    | Some e => Some (EHost e)
                    | None => None
                    end
           end
  end.

(** _validateUuid, known.go:57-65. *)
Definition validate_uuid (s : bytes) : bool := rmatch uuid_re (runes s).

(** net.IP.To4 on a 16-byte address (Go standard library): is it IPv4-mapped? *)
Definition is_mapped16 (ip : bytes) : bool :=
  (List.length ip =? 16)%nat && forallb (N.eqb 0) (firstn 10 ip)
  && bytes_eqb (firstn 2 (skipn 10 ip)) [255; 255].
Definition to4_ok (ip : bytes) : bool := (List.length ip =? 4)%nat || is_mapped16 ip.
Definition to16_ok (ip : bytes) : bool := (List.length ip =? 4)%nat || (List.length ip =? 16)%nat.
