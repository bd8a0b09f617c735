(** Which field an error should name.  Stated with the meaning of the rules (Meaning.v) only. *)
From Verif Require Import Base Rules Types Iface GoSem Spec Meaning Report.

(** The order in which a validator looks at a message: Go, Java and C++ start with the fields outside of
    oneofs, Python starts with the oneofs. *)
Inductive order := FieldsFirst | OneofsFirst.

Section Paths.
Variable ord : order.
Variable orc : oracles.
Variable sc : schema.

(** The value obeys the rules of the field, and the messages in it obey theirs. *)
Definition obeyed (f : field) (v : value) : Prop :=
  field_meaning orc sc f v /\ forall n1 m1, field_embeds sc f v n1 m1 -> meant orc sc n1 m1.
Definition fields_obeyed (l : list field) (m : msgval) : Prop :=
  forall f v, In f l -> assoc (f_name f) (mv_fields m) = Some v -> obeyed f v.
Definition oneofs_obeyed (l : list oneof) (m : msgval) : Prop :=
  forall o, In o l ->
    (assoc (o_name o) (mv_oneofs m) = Some None -> o_required o <> Some true) /\
    (forall f v, In f (o_fields o) -> assoc (o_name o) (mv_oneofs m) = Some (Some (f_name f, v)) -> obeyed f v).

(** [f] has the value [v], and nothing before it is violated. *)
Inductive up_to (d : msgdesc) (m : msgval) : field -> value -> Prop :=
| up_to_field l1 f l2 v : (ord = OneofsFirst -> oneofs_obeyed (md_oneofs d) m) -> md_fields d = (l1 ++ f :: l2)%list -> fields_obeyed l1 m ->
    assoc (f_name f) (mv_fields m) = Some v -> up_to d m f v
| up_to_member l1 o l2 f v : (ord = FieldsFirst -> fields_obeyed (md_fields d) m) -> md_oneofs d = (l1 ++ o :: l2)%list -> oneofs_obeyed l1 m ->
    In f (o_fields o) -> assoc (o_name o) (mv_oneofs m) = Some (Some (f_name f, v)) -> up_to d m f v.

(** A path from the message [m] of type [n] to a violated rule: the first violated field; then, if
    it is a message in this field that is invalid, a path in that message. *)
Inductive path_by : string -> msgval -> list cause -> Prop :=
| path_field n m d f v : find_msg sc n = Some d -> md_disabled d = false -> up_to d m f v -> ~ field_meaning orc sc f v ->
    path_by n m [FieldOf n (f_name f)]
| path_oneof n m d l1 o l2 : find_msg sc n = Some d -> md_disabled d = false -> (ord = FieldsFirst -> fields_obeyed (md_fields d) m) ->
    md_oneofs d = (l1 ++ o :: l2)%list -> oneofs_obeyed l1 m ->
    assoc (o_name o) (mv_oneofs m) = Some None -> o_required o = Some true -> path_by n m [OneofOf n (o_name o)]
| path_down n m d f v n1 m1 p : find_msg sc n = Some d -> md_disabled d = false -> up_to d m f v -> field_embeds sc f v n1 m1 ->
    path_by n1 m1 p -> path_by n m (FieldOf n (f_name f) :: p).

(** A wrapper that must be present. *)
Definition required_wrapper (n fn : string) : Prop :=
  exists d f w, find_msg sc n = Some d /\ In f (all_fields d) /\ f_name f = fn /\
    f_type f = FOne (TWrap w) /\ required (fr_msg (f_rules f)) = true.
(** What Java names at the end of a path. *)
Inductive java_names : cause -> cause -> Prop :=
| java_exact c : java_names c c
| java_garbled n fn : required_wrapper n fn -> java_names (FieldOf n fn) (Garbled n fn).
End Paths.
Notation path_to := (path_by FieldsFirst).

(** The fields that an error of Go's Validate names: its Field(), then those of its Cause(). *)
Fixpoint go_names (e : gerr) : list (string * string) :=
  match e with
  | GErr m f _ _ c _ => (m, f) :: match c with Some e' => go_names e' | None => [] end
  | _ => []
  end.
(** Go does not tell oneofs from fields. *)
Definition named (c : cause) : string * string := match c with FieldOf m f | OneofOf m f | Garbled m f => (m, f) end.
