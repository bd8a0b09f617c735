(** Durations, timestamps and Go's [time] arithmetic (google.golang.org/protobuf
    types/known/{durationpb,timestamppb} and Go's [time] package; these are
    dependencies of /repo, transcribed here). *)
From Verif Require Import Base Rules.
Local Open Scope Z_scope.

Definition min_int64 : Z := - 2^63.
Definition max_int64 : Z := 2^63 - 1.

(** Two's-complement reduction to int64. *)
Definition wrap64 (z : Z) : Z := (z + 2^63) mod 2^64 - 2^63.

Definition second : Z := 1000000000.

(** durationpb.Duration.CheckValid: [None] is nil error; the error tells the reason. *)
Inductive sn_err := SnUnderflow | SnOverflow | SnNanosRange | SnSign.

Definition dur_check (d : sn) : option sn_err :=
  if sn_s d <? -315576000000 then Some SnUnderflow
  else if 315576000000 <? sn_s d then Some SnOverflow
  else if (sn_n d <=? -1000000000) || (1000000000 <=? sn_n d) then Some SnNanosRange
  else if ((0 <? sn_s d) && (sn_n d <? 0)) || ((sn_s d <? 0) && (0 <? sn_n d)) then Some SnSign
  else None.

(** durationpb.Duration.AsDuration: int64 nanoseconds, saturating.  [seconds] is an
    int64 and [nanos] an int32, so the products are reduced mod 2^64. *)
Definition as_duration (x : sn) : Z :=
  let secs := sn_s x in
  let nanos := sn_n x in
  let d := wrap64 (secs * second) in
  let ov1 := negb (Z.quot d second =? secs) in
  let d2 := wrap64 (d + nanos) in
  let ov := ov1 || ((secs <? 0) && (nanos <? 0) && (0 <? d2))
                || ((0 <? secs) && (0 <? nanos) && (d2 <? 0)) in
  if ov then
    if secs <? 0 then min_int64 else if 0 <? secs then max_int64 else d2
  else d2.

(** timestamppb.Timestamp.CheckValid. *)
Definition ts_check (t : sn) : option sn_err :=
  if sn_s t <? -62135596800 then Some SnUnderflow
  else if 253402300799 <? sn_s t then Some SnOverflow
  else if (sn_n t <? 0) || (1000000000 <=? sn_n t) then Some SnNanosRange
  else None.

(** A Go [time.Time] is modelled by its exact instant: nanoseconds since the Unix
    epoch, an unbounded integer.  (Go stores seconds in an int64; all instants here
    are within years 1..9999 plus or minus a duration.)  [time.Unix(s, n)] and
    [timestamppb.AsTime] are both [instant]. *)
Definition instant (t : sn) : Z := sn_s t * second + sn_n t.

(** [Time.UnixNano]: int64 nanoseconds, wraps. *)
Definition unix_nano (t : Z) : Z := wrap64 t.

(** [Time.Sub] on times without a common monotonic reading:
    [d := Duration(t.sec-u.sec)*Second + Duration(t.nsec-u.nsec)], computed mod 2^64;
    [u.Add(d).Equal(t)] decides whether it was exact, otherwise saturate. *)
Definition time_sub (t u : Z) : Z :=
  let d := wrap64 (t - u) in
  if u + d =? t then d
  else if t <? u then min_int64
  else max_int64.

(** The constant expression [time.Duration(s * time.Second + n * time.Nanosecond)]
    emitted by [durLit] (templates/goshared/register.go:251-255).  Go constant
    arithmetic is exact and a typed constant that does not fit int64 is a compile
    error: [None]. *)
Definition fits_int64 (z : Z) : bool := (min_int64 <=? z) && (z <=? max_int64).
Definition dur_lit (d : sn) : option Z :=
  if fits_int64 (sn_s d * second) && fits_int64 (sn_s d * second + sn_n d)
  then Some (sn_s d * second + sn_n d) else None.
