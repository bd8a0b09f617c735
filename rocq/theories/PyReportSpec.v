(** What the text of a Python ValidationFailed may start with when a field is violated. *)
From Verif Require Import Base Rules Types GoSem Spec Meaning ErrTextFacts Report PyReport.

(** The field is named as "p.f" for its own rules; as "f" if it must be present; what is in a wrapper
    as "p.f.value", and a value of a map as "p.f[key]".  Of an item of a list, and of a key, the text does
    not name the field. *)
Inductive py_label (f : field) : label -> Prop :=
| py_rule e r : f_type f = FOne e -> fr_typ (f_rules f) = Some r ->
    (forall w, e = TWrap w -> required (fr_msg (f_rules f)) = true) -> py_label f (LField (f_name f))
| py_inside w r : f_type f = FOne (TWrap w) -> fr_typ (f_rules f) = Some r -> py_label f (LValue (f_name f))
| py_absent : required (fr_msg (f_rules f)) = true -> py_label f (LBare (f_name f))
| py_list e r : f_type f = FRep e -> fr_typ (f_rules f) = Some (RRepeated r) ->
    (r_min r <> None \/ r_max r <> None \/ r_unique r = Some true) -> py_label f (LField (f_name f))
| py_item e r fr : f_type f = FRep e -> fr_typ (f_rules f) = Some (RRepeated r) -> r_items r = Some fr ->
    (fr_typ fr <> None \/ required (fr_msg fr) = true) -> py_label f LItem
| py_pairs k w r : f_type f = FMap k w -> fr_typ (f_rules f) = Some (RMap r) ->
    (p_min r <> None \/ p_max r <> None) -> py_label f (LField (f_name f))
| py_key k w r fr : f_type f = FMap k w -> fr_typ (f_rules f) = Some (RMap r) -> p_keys r = Some fr ->
    fr_typ fr <> None -> py_label f LKey
| py_entry k w r fr : f_type f = FMap k w -> fr_typ (f_rules f) = Some (RMap r) -> p_values r = Some fr ->
    (fr_typ fr <> None \/ required (fr_msg fr) = true) -> py_label f (LEntry (f_name f)).

(** What Python says of the end of a path. *)
Inductive py_says (sc : schema) : cause -> label -> Prop :=
| py_says_field n d f l : find_msg sc n = Some d -> In f (all_fields d) -> py_label f l -> py_says sc (FieldOf n (f_name f)) l
| py_says_oneof n o : py_says sc (OneofOf n o) (LOneof o).

(** The field that a label tells. *)
Definition told_field (l : label) : option string :=
  match l with LField f | LBare f | LValue f | LEntry f => Some f | LItem | LKey | LOneof _ => None end.

(** The names in a label are identifiers. *)
Definition label_ident (l : label) : Prop :=
  match l with LField f | LBare f | LValue f | LEntry f | LOneof f => ident f | LItem | LKey => True end.
(** An item taken for a field of the name "item", and a key for one of the name "key". *)
Inductive mistaken : label -> label -> Prop :=
| mis_item : mistaken LItem (LBare "item")
| mis_key : mistaken LKey (LBare "key").
