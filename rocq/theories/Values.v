(** Conditions on all the values in a message. *)
From Verif Require Import Base Rules Types.

Section Everywhere.
Variable sc : schema.
(** The condition: [leaf inside uniq e fr v] for a value [v] of the type [e] under the rules [fr];
    [inside]: it is a list item, a map key or a map value; [uniq]: of a list with the rule [unique]. *)
Variable leaf : bool -> bool -> etype -> field_rules -> value -> Prop.

Definition no_rules : field_rules := FR None None.
Definition inner (o : option field_rules) : field_rules := match o with Some fr => fr | None => no_rules end.
Definition item_rules (fr : field_rules) : field_rules :=
  match fr with FR _ (Some (RRepeated r)) => inner (r_items r) | _ => no_rules end.
Definition is_unique (fr : field_rules) : bool :=
  match fr with FR _ (Some (RRepeated r)) => match r_unique r with Some true => true | _ => false end | _ => false end.
Definition key_rules (fr : field_rules) : field_rules :=
  match fr with FR _ (Some (RMap r)) => inner (p_keys r) | _ => no_rules end.
Definition value_rules (fr : field_rules) : field_rules :=
  match fr with FR _ (Some (RMap r)) => inner (p_values r) | _ => no_rules end.

(** A message whose rules are enforced. *)
Definition active (d : msgdesc) : bool :=
  negb (md_disabled d) && match md_methods d with MNone => false | _ => true end.

(** The messages embedded under [fr] are validated. *)
Definition descends (fr : field_rules) : Prop :=
  match fr with
  | FR (Some mr) None => m_skip mr <> Some true
  | FR None None => True
  | _ => False
  end.

(** [leaf] holds of every value in the message [m] of type [n] and in the messages embedded in it,
    as far as these have rules that are enforced. *)
Inductive all_elem : bool -> bool -> etype -> field_rules -> value -> Prop :=
| ev_leaf b u e fr v : leaf b u e fr v ->
    (forall n m, e = TMsg n -> v = VMsg (Some m) -> descends fr -> all_values n m) -> all_elem b u e fr v
with all_field : ftype -> field_rules -> value -> Prop :=
| ev_one e fr v : all_elem false false e fr v -> all_field (FOne e) fr v
| ev_rep e fr l : (forall x, In x l -> all_elem true (is_unique fr) e (item_rules fr) x) -> all_field (FRep e) fr (VList l)
| ev_map k w fr l :
    (forall x y, In (x, y) l -> all_elem true false k (key_rules fr) x /\ all_elem true false w (value_rules fr) y) ->
    all_field (FMap k w) fr (VMap l)
with all_values : string -> msgval -> Prop :=
| ev_inactive n m d : find_msg sc n = Some d -> active d = false -> all_values n m
| ev_active n d m : find_msg sc n = Some d ->
    (forall f v, In f (md_fields d) -> assoc (f_name f) (mv_fields m) = Some v -> all_field (f_type f) (f_rules f) v) ->
    (forall o f v, In o (md_oneofs d) -> In f (o_fields o) ->
       assoc (o_name o) (mv_oneofs m) = Some (Some (f_name f, v)) -> all_field (f_type f) (f_rules f) v) ->
    all_values n m.
End Everywhere.
