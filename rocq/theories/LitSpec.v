(** What literals mean, from the language definitions of Go, C++ and Java. *)
From Verif Require Import Base Spec.
Local Open Scope N_scope.

(** [s] is UTF-8. *)
Definition valid_utf8 (s : bytes) : Prop := exists cs, Forall scalar_value cs /\ s = List.concat (map utf8_bytes cs).

(** ** Digits *)
Definition digit_value (c : N) : option N :=
  if (48 <=? c) && (c <=? 57) then Some (c - 48)
  else if (65 <=? c) && (c <=? 70) then Some (c - 55)
  else if (97 <=? c) && (c <=? 102) then Some (c - 87)
  else None.
(** [l] is a sequence of digits in base [k] with value [v]. *)
Inductive numeral (k : N) : bytes -> N -> Prop :=
| num_one c d : digit_value c = Some d -> d < k -> numeral k [c] d
| num_more l v c d : numeral k l v -> digit_value c = Some d -> d < k -> numeral k (l ++ [c]) (k * v + d).
Definition is_hex (c : N) : Prop := digit_value c <> None.

(** ** Go: interpreted string literals.  The escapes of one character. *)
Definition go_escape (e b : N) : Prop :=
  In (e, b) [(97, 7); (98, 8); (102, 12); (110, 10); (114, 13); (116, 9); (118, 11); (92, 92); (34, 34)].
Inductive go_body : bytes -> bytes -> Prop :=
| go_nil : go_body [] []
| go_char c t v : scalar_value c -> ~ In c [0; 10; 34; 92; 0xFEFF] -> go_body t v ->
    go_body (utf8_bytes c ++ t) (utf8_bytes c ++ v)
| go_esc e b t v : go_escape e b -> go_body t v -> go_body (92 :: e :: t) (b :: v)
| go_oct ds b t v : List.length ds = 3%nat -> numeral 8 ds b -> b < 256 -> go_body t v -> go_body (92 :: ds ++ t) (b :: v)
| go_hex ds b t v : List.length ds = 2%nat -> numeral 16 ds b -> go_body t v -> go_body (92 :: 120 :: ds ++ t) (b :: v)
| go_u ds c t v : List.length ds = 4%nat -> numeral 16 ds c -> scalar_value c -> go_body t v ->
    go_body (92 :: 117 :: ds ++ t) (utf8_bytes c ++ v)
| go_U ds c t v : List.length ds = 8%nat -> numeral 16 ds c -> scalar_value c -> go_body t v ->
    go_body (92 :: 85 :: ds ++ t) (utf8_bytes c ++ v).
Definition go_string (src v : bytes) : Prop := exists b, src = [34] ++ b ++ [34] /\ go_body b v.

(** Integer literals. *)
Inductive go_nat : bytes -> N -> Prop :=
| gn_zero : go_nat [48] 0
| gn_dec c l v : 49 <= c <= 57 -> numeral 10 (c :: l) v -> go_nat (c :: l) v
| gn_hex x ds v : x = 120 \/ x = 88 -> numeral 16 ds v -> go_nat (48 :: x :: ds) v.
Inductive go_int : bytes -> Z -> Prop :=
| gi_pos l v : go_nat l v -> go_int l (Z.of_N v)
| gi_neg l v : go_nat l v -> go_int (45 :: l) (- Z.of_N v).

(** The elements of a composite literal, separated by commas and spaces. *)
Inductive commas : list bytes -> bytes -> Prop :=
| com_one x : commas [x] x
| com_more x l t : commas l t -> commas (x :: l) (x ++ [44; 32] ++ t).
(** A [[]uint8] literal. *)
Definition go_uint8s (src v : bytes) : Prop :=
  (src = bs "[]uint8{}" /\ v = []) \/
  exists els mid, Forall2 (fun e b => go_nat e b /\ b < 256) els v /\ commas els mid /\ src = bs "[]uint8{" ++ mid ++ bs "}".

(** ** C++: narrow string literals, UTF-8 as source and execution character set.  A hexadecimal escape
    takes all the digits that follow. *)
Definition cc_escape (e b : N) : Prop :=
  In (e, b) [(97, 7); (98, 8); (102, 12); (110, 10); (114, 13); (116, 9); (118, 11); (92, 92); (34, 34); (39, 39); (63, 63)].
Definition no_digit (k : N) (t : bytes) : Prop :=
  match t with c :: _ => match digit_value c with Some d => k <= d | None => True end | [] => True end.
Inductive cc_body : bytes -> bytes -> Prop :=
| cc_nil : cc_body [] []
| cc_char c t v : scalar_value c -> ~ In c [0; 10; 13; 34; 92] -> cc_body t v ->
    cc_body (utf8_bytes c ++ t) (utf8_bytes c ++ v)
| cc_esc e b t v : cc_escape e b -> cc_body t v -> cc_body (92 :: e :: t) (b :: v)
| cc_oct ds b t v : (List.length ds <= 3)%nat -> numeral 8 ds b -> b < 256 -> (List.length ds = 3%nat \/ no_digit 8 t) ->
    cc_body t v -> cc_body (92 :: ds ++ t) (b :: v)
| cc_hex ds b t v : numeral 16 ds b -> b < 256 -> no_digit 16 t -> cc_body t v -> cc_body (92 :: 120 :: ds ++ t) (b :: v)
| cc_u ds c t v : List.length ds = 4%nat -> numeral 16 ds c -> scalar_value c -> cc_body t v ->
    cc_body (92 :: 117 :: ds ++ t) (utf8_bytes c ++ v)
| cc_U ds c t v : List.length ds = 8%nat -> numeral 16 ds c -> scalar_value c -> cc_body t v ->
    cc_body (92 :: 85 :: ds ++ t) (utf8_bytes c ++ v).
Definition cc_string (src v : bytes) : Prop := exists b, src = [34] ++ b ++ [34] /\ cc_body b v.
(** A [std::string] made from a literal ends at the first NUL. *)
Fixpoint until_nul (v : bytes) : bytes :=
  match v with [] => [] | b :: t => if b =? 0 then [] else b :: until_nul t end.

(** ** Java: string literals, as UTF-8.  Left out: [\u] escapes with several [u], of surrogates, or of the characters
    that are special in a literal. *)
Definition java_escape_char (e b : N) : Prop :=
  In (e, b) [(98, 8); (116, 9); (110, 10); (102, 12); (114, 13); (34, 34); (39, 39); (92, 92)].
Inductive java_body : bytes -> bytes -> Prop :=
| java_nil : java_body [] []
| java_char c t v : scalar_value c -> ~ In c [10; 13; 34; 92] -> java_body t v ->
    java_body (utf8_bytes c ++ t) (utf8_bytes c ++ v)
| java_esc e b t v : java_escape_char e b -> java_body t v -> java_body (92 :: e :: t) (b :: v)
| java_oct ds b t v : (List.length ds <= 3)%nat -> numeral 8 ds b -> b < 256 ->
    (List.length ds = 3%nat \/ List.length ds = 2%nat /\ 32 <= b \/ no_digit 8 t) ->
    java_body t v -> java_body (92 :: ds ++ t) (utf8_bytes b ++ v)
| java_u ds c t v : List.length ds = 4%nat -> numeral 16 ds c -> scalar_value c -> ~ In c [10; 13; 34; 92] -> java_body t v ->
    java_body (92 :: 117 :: ds ++ t) (utf8_bytes c ++ v).
Definition java_string (src v : bytes) : Prop := exists b, src = [34] ++ b ++ [34] /\ java_body b v.

(** The characters that Go writes as they are or with an escape that Java has too. *)
Definition shared_char (is_print : N -> bool) (c : N) : Prop :=
  In c [8; 9; 10; 12; 13] \/ (32 <= c < 127 /\ c <> 34) \/ (127 <= c /\ is_print c = true).

(** A [byte[]] initialiser with casts. *)
Inductive java_bytes_body : bytes -> bytes -> Prop :=
| jb_nil : java_bytes_body [] []
| jb_more e b t v : go_nat e b -> b < 2 ^ 31 -> java_bytes_body t v -> java_bytes_body (bs "(byte)" ++ e ++ [44] ++ t) (b mod 256 :: v).
Definition java_bytes (src v : bytes) : Prop := exists b, src = bs "new byte[]{" ++ b ++ bs "}" /\ java_bytes_body b v.

(** Decimal [int] and [long] constants, with sign. *)
Definition java_int (src : bytes) (z : Z) : Prop := go_int src z /\ (- 2 ^ 31 <= z < 2 ^ 31)%Z.
Definition java_long (src : bytes) (z : Z) : Prop := exists l, src = l ++ [76] /\ go_int l z /\ (- 2 ^ 63 <= z < 2 ^ 63)%Z.

(** ** Output paths: [p] is the path [out] relative to [module]. *)
Definition below (module out p : bytes) : Prop :=
  exists k, out = module ++ repeat 47 k ++ p /\ (forall t, p <> 47 :: t).
(** [p] is nowhere in [s]. *)
Definition nowhere (p s : bytes) : Prop := forall a b, s <> a ++ p ++ b.
