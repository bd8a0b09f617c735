(** The numeric domain of the numeric rules.

    The ten integer kinds are mathematical integers with a range; [float] and
    [double] are IEEE values, represented by the standard library's
    [spec_float] (signed zeros, infinities, a NaN, and sign * m * 2^e).  Go's
    comparison operators on integers and floats are [num_ltb], [num_leb],
    [num_eqb]; comparing an integer with a float is a Go compile error and never
    happens on well-typed rules ([false] here). *)
From Coq Require Import Floats.SpecFloat.
From Verif Require Import Base.
Local Open Scope Z_scope.

Inductive num := NI (z : Z) | NF (f : spec_float).

Inductive numkind :=
| KFloat | KDouble | KInt32 | KInt64 | KUInt32 | KUInt64
| KSInt32 | KSInt64 | KFixed32 | KFixed64 | KSFixed32 | KSFixed64.

Definition numkind_eqb (a b : numkind) : bool :=
  match a, b with
  | KFloat, KFloat | KDouble, KDouble | KInt32, KInt32 | KInt64, KInt64
  | KUInt32, KUInt32 | KUInt64, KUInt64 | KSInt32, KSInt32 | KSInt64, KSInt64
  | KFixed32, KFixed32 | KFixed64, KFixed64 | KSFixed32, KSFixed32
  | KSFixed64, KSFixed64 => true
  | _, _ => false
  end.

Definition is_float (k : numkind) : bool :=
  match k with KFloat | KDouble => true | _ => false end.

Definition num_ltb (a b : num) : bool :=
  match a, b with
  | NI x, NI y => x <? y
  | NF x, NF y => SFltb x y
  | _, _ => false
  end.
Definition num_leb (a b : num) : bool :=
  match a, b with
  | NI x, NI y => x <=? y
  | NF x, NF y => SFleb x y
  | _, _ => false
  end.
Definition num_eqb (a b : num) : bool :=
  match a, b with
  | NI x, NI y => x =? y
  | NF x, NF y => SFeqb x y
  | _, _ => false
  end.

(** The range of each integer kind. *)
Definition in_kind (k : numkind) (z : Z) : bool :=
  match k with
  | KInt32 | KSInt32 | KSFixed32 => (- 2^31 <=? z) && (z <? 2^31)
  | KInt64 | KSInt64 | KSFixed64 => (- 2^63 <=? z) && (z <? 2^63)
  | KUInt32 | KFixed32 => (0 <=? z) && (z <? 2^32)
  | KUInt64 | KFixed64 => (0 <=? z) && (z <? 2^64)
  | KFloat | KDouble => false
  end.

(** Precision and exponent bound of the two float kinds (IEEE 754). *)
Definition fprec (k : numkind) : Z := match k with KFloat => 24 | _ => 53 end.
Definition femax (k : numkind) : Z := match k with KFloat => 128 | _ => 1024 end.

Definition num_of_kind (k : numkind) (n : num) : bool :=
  match n with
  | NI z => negb (is_float k) && in_kind k z
  | NF f => is_float k && valid_binary (fprec k) (femax k) f
  end.

Definition num_zero (k : numkind) : num :=
  if is_float k then NF (S754_zero false) else NI 0.

Definition is_nan_num (n : num) : bool := match n with NF S754_nan => true | _ => false end.
