(** The text of errors (templates/goshared/msg.go:70-77,107-124). *)
From Verif Require Import Base Num Rules Types Iface GoSem.

Section Text.
(** [fmt.Sprint] of a reason (register.go:140), [%v] of an index or map key, and the texts of
    errors made by [errors.New] and the standard library are not modelled. *)
Variable sprint : list piece -> bytes.
Variable ix_text : ixval -> bytes.
Variable plain_text : plain -> bytes.

(** The [field] member: register.go:119-126. *)
Definition field_text (f : string) (ix : option ixval) : bytes :=
  match ix with
  | Some i => bs f ++ bs "[" ++ ix_text i ++ bs "]"
  | None => bs f
  end.

(** [strings.Join]. *)
Fixpoint join (sep : bytes) (l : list bytes) : bytes :=
  match l with
  | [] => []
  | [x] => x
  | x :: t => x ++ sep ++ join sep t
  end.

(** [Error()] of FooValidationError (msg.go:107-124), of FooMultiError (msg.go:70-77) and of others. *)
Fixpoint error_text (e : gerr) : bytes :=
  match e with
  | GErr m f ix r c k =>
      bs "invalid " ++ (if k then bs "key for " else []) ++ bs m ++ bs "." ++ field_text f ix ++ bs ": " ++ sprint r ++
      match c with Some c => bs " | caused by: " ++ error_text c | None => [] end
  | GMulti _ es => join (bs "; ") (map error_text es)
  | GPlain p => plain_text p
  end.
End Text.
