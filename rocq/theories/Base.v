(** Byte strings and small list functions used by the model.

    A Go [string] or [[]byte] is a list of byte values.  Bytes are natural
    numbers in [N]; [is_bytes] is the range condition. *)
From Coq Require Export List ZArith NArith Bool String Ascii.
Export ListNotations.
Local Open Scope N_scope.

Definition bytes := list N.

(** Literals: the bytes of an ASCII Coq string. *)
Definition bs (s : string) : bytes := map N_of_ascii (list_ascii_of_string s).

Definition is_byte (b : N) : bool := b <? 256.
Definition is_bytes (s : bytes) : bool := forallb is_byte s.
Definition is_ascii (s : bytes) : bool := forallb (fun b => b <? 128) s.

Fixpoint bytes_eqb (a b : bytes) : bool :=
  match a, b with
  | [], [] => true
  | x :: a', y :: b' => (x =? y) && bytes_eqb a' b'
  | _, _ => false
  end.

(** [len(s)] *)
Definition blen (s : bytes) : N := N.of_nat (List.length s).

(** Go [strings.HasPrefix]/[bytes.HasPrefix]:
    [len(s) >= len(prefix) && s[0:len(prefix)] == prefix]. *)
Definition has_prefix (s p : bytes) : bool :=
  (List.length p <=? List.length s)%nat && bytes_eqb (firstn (List.length p) s) p.

(** Go [strings.HasSuffix]: [len(s) >= len(suffix) && s[len(s)-len(suffix):] == suffix]. *)
Definition has_suffix (s p : bytes) : bool :=
  (List.length p <=? List.length s)%nat
  && bytes_eqb (skipn (List.length s - List.length p) s) p.

(** Go [strings.Contains]/[bytes.Contains]: [Index(s, sub) >= 0], a left-to-right scan. *)
Fixpoint contains (s sub : bytes) : bool :=
  has_prefix s sub || match s with [] => false | _ :: t => contains t sub end.

(** Go [strings.TrimSuffix]. *)
Definition trim_suffix (s suf : bytes) : bytes :=
  if has_suffix s suf then firstn (List.length s - List.length suf) s else s.

(** Go [strings.Split(s, sep)] for a one-byte separator: always at least one part. *)
Fixpoint split_on (sep : N) (s : bytes) : list bytes :=
  match s with
  | [] => [[]]
  | c :: t =>
      if c =? sep then [] :: split_on sep t
      else match split_on sep t with
           | [] => [[c]]
           | p :: ps => (c :: p) :: ps
           end
  end.

(** Association lists keyed by names. *)
Fixpoint assoc {A} (k : string) (l : list (string * A)) : option A :=
  match l with
  | [] => None
  | (k', v) :: t => if String.eqb k k' then Some v else assoc k t
  end.

Definition is_some {A} (o : option A) : bool := match o with Some _ => true | None => false end.
Definition is_none {A} (o : option A) : bool := match o with Some _ => false | None => true end.
Definition is_nil {A} (l : list A) : bool := match l with [] => true | _ => false end.

(** protobuf-go getter of an optional scalar: [GetX()] with default. *)
Definition getb (o : option bool) : bool := match o with Some b => b | None => false end.
Definition getN (o : option N) : N := match o with Some n => n | None => 0 end.
Definition getbs (o : option bytes) : bytes := match o with Some s => s | None => [] end.
