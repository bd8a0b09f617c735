(** Which rules need the Go type of an enum, and what the packages must be like for the generated file to import it. *)
From Verif Require Import Base Num Rules Types Spec Wt GoFile.

(** The rules of enums are at enums: what the checker makes sure of, but in disabled messages, which it does not look at. *)
Definition enum_at (t : ftype) (fr : option field_rules) : Prop := forall mr r, fr = Some (FR mr (Some (REnum r))) -> exists e, t = FOne (TEnum e).
Record placed (f : field) : Prop := mkPlaced {
  own_placed : enum_at (f_type f) (Some (f_rules f));
  rep_placed : forall q, fr_typ (f_rules f) = Some (RRepeated q) -> exists e, f_type f = FRep e /\ enum_at (FOne e) (r_items q);
  map_placed : forall q, fr_typ (f_rules f) = Some (RMap q) -> exists k v, f_type f = FMap k v /\ map_key k = true /\ enum_at (FOne k) (p_keys q) /\ enum_at (FOne v) (p_values q) }.

(** The rules of the values of enum type in a field: its own, those of its items or of its values. *)
Definition enum_rules_in (f : field) (e : string) (r : enum_rules) : Prop :=
  (f_type f = FOne (TEnum e) /\ fr_typ (f_rules f) = Some (REnum r)) \/
  (exists q mr, f_type f = FRep (TEnum e) /\ fr_typ (f_rules f) = Some (RRepeated q) /\ r_items q = Some (FR mr (Some (REnum r)))) \/
  (exists k q mr, f_type f = FMap k (TEnum e) /\ fr_typ (f_rules f) = Some (RMap q) /\ p_values q = Some (FR mr (Some (REnum r)))).

(** [defined_only] looks the number up in the table of the type; [in] and [not_in] (but of the values of a map) and [unique] make a set
    of values of the type. *)
Inductive needs_type (d : msgdesc) (f : field) (e : string) : Prop :=
| by_defined_only r : md_disabled d = false -> enum_rules_in f e r -> e_defined_only r = Some true -> needs_type d f e
| by_list r : enum_rules_in f e r -> (forall k v, f_type f <> FMap k v) -> (e_in r <> [] \/ e_not_in r <> []) -> needs_type d f e
| by_unique q : md_disabled d = false -> f_type f = FRep (TEnum e) -> fr_typ (f_rules f) = Some (RRepeated q) -> r_unique q = Some true ->
    needs_type d f e.
(** In the files messages. *)
Definition needed (msgs : list msgdesc) (e : string) : Prop :=
  exists d f, In d msgs /\ md_methods d <> MNone /\ In f (all_fields d) /\ needs_type d f e.

Section Places.
Variable loc : string -> place.
Variable here : place.
(** A singular field has the type [e], and neither the proto package nor the name of the Go package of [e] are those of the file. *)
Definition foreign (msgs : list msgdesc) (e : string) : Prop :=
  (exists d f, In d msgs /\ In f (all_fields d) /\ f_type f = FOne (TEnum e)) /\
  pl_proto (loc e) <> pl_proto here /\ pl_pkg (loc e) <> pl_pkg here.
(** Files in one directory are one package. *)
Definition coherent : Prop :=
  (forall e e', pl_path (loc e) = pl_path (loc e') -> pl_pkg (loc e) = pl_pkg (loc e')) /\
  (forall e, pl_path (loc e) = pl_path here -> pl_pkg (loc e) = pl_pkg here).
(** Neither the file nor the enums are in one of the packages that every file imports. *)
Definition outside : Prop :=
  ~ In (pl_path here) (map snd fixed_imports) /\ forall e, ~ In (pl_path (loc e)) (map snd fixed_imports).
(** The predeclared identifiers of Go that generated code uses. *)
Definition predeclared_all : list string := (["append"; "bool"; "byte"; "error"; "false"; "int"; "int32"; "int64"; "len"; "make"; "nil";
  "string"; "true"; "uint8"; "uint32"; "uint64"; "float32"; "float64"])%string.
(** Names that generated code does not use for itself. *)
Definition usable (q : string) : Prop :=
  ~ In q (map fst fixed_imports) /\ ~ In q predeclared_all /\ ~ In q ["m"; "all"; "idx"; "item"; "key"; "val"]%string /\ String.prefix "_" q = false.
(** The type of [e] is in the package of the file, or that package is imported. *)
Definition reachable (msgs : list msgdesc) (e : string) : Prop :=
  pl_path (loc e) = pl_path here \/ exists e', foreign msgs e' /\ pl_path (loc e') = pl_path (loc e).
End Places.
