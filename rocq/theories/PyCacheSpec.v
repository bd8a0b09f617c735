(** When a cache under full names is sound. *)
From Verif Require Import Base Rules Types Py PyCache.

(** The types that the type of a field mentions. *)
Definition elems (t : ftype) : list etype := match t with FOne e | FRep e => [e] | FMap k w => [k; w] end.
Definition enum_name (e : etype) : string := match e with TEnum n => n | _ => ""%string end.

(** Two pools declare alike what the type [e] mentions: the enum, or the message (and no pool has an enum without a name). *)
Definition agree (sc sc' : schema) (e : etype) : Prop :=
  find_enum sc (enum_name e) = find_enum sc' (enum_name e) /\ find_enum sc "" = find_enum sc' "" /\
  forall n, e = TMsg n -> find_msg sc n = find_msg sc' n.

(** Message types with the same full name are declared alike, in whatever pools they are. *)
Definition one_meaning (pn : py_names) (pool : nat -> schema) : Prop :=
  forall i j n n' d d', find_msg (pool i) n = Some d -> find_msg (pool j) n' = Some d' -> pn_full pn n = pn_full pn n' ->
    d = d' /\ forall f e, In f (all_fields d) -> In e (elems (f_type f)) -> agree (pool i) (pool j) e.
