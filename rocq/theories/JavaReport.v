(** The field that a Java ValidationException names: the generated validator of Java.v once more, with
    the first argument of each check. *)
From Verif Require Import Base Utf8 Num Rules Types Time Iface Checker GoSem Outcome Java Report.

Section Message.
Variable jl : java_libs.
Variable sc : schema.
(** [index.validatorFor(x).assertValid(x)] for a message of type [n]: its exception goes through. *)
Variable embedded : string -> msgval -> report.

Definition jr_embedded (e : etype) (v : value) : report :=
  match e, v with
  | TMsg n, VMsg (Some m) => embedded n m
  | _, _ => if jhas v then Fine else Broken
  end.

(** All checks of a field, its items, keys and values are given ["{{ $f.FullyQualifiedName }}"],
    except one: a required wrapper that is absent (templates/java/wrapper.go:11) prints ["{{ $f }}"],
    the Go structure that describes the field. *)
Section Field.
Variable c : cause.
Variable garbled : cause.

(** messageTpl and requiredTpl, templates/java/message.go:3-13, required.go:3-11. *)
Definition jr_message (elem : bool) (e : etype) (mr : option message_rules) (v : value) : report :=
  if match mr with Some m => getb (m_skip m) | None => false end then Fine
  else rthen (names c (only_if (match mr with Some m => getb (m_required m) | None => false end) (throw_unless (elem || jhas v))))
         (rif (elem || jhas v) (jr_embedded e v)).

(** Which template is rendered, as [j_elem]. *)
Definition jr_elem (elem : bool) (e : etype) (fr : option field_rules) (v : value) : report :=
  match fr with
  | Some (FR mr (Some r)) =>
      match e, v with
      | TWrap w, VWrap (Some x) => if elem then Broken else names c (j_rule jl sc (wrapped_type w) r x)
      | TWrap w, VWrap None =>
          if elem then Broken
          else names garbled (throw_unless (negb (match mr with Some m => getb (m_required m) | None => false end)))
      | _, _ => names c (j_rule jl sc e r v)
      end
  | Some (FR mr None) => rif (is_embed e) (jr_message elem e mr v)
  | None => rif (is_embed e) (jr_message elem e None v)
  end.

(** repeatedTpl, templates/java/repeated.go:5-24. *)
Definition jr_repeated (e : etype) (r : rep_rules field_rules) (l : list value) : report :=
  let n := N.of_nat (List.length l) in
  rif (negb (getb (r_ignore_empty r) && is_nil l))
    (rall [names c (jnz (r_min r) (fun a => throw_unless (negb (n <? a)%N)));
           names c (jnz (r_max r) (fun b => throw_unless (negb (b <? n)%N)));
           names c (only_if (getb (r_unique r)) (j_unique (j_value_equals sc e) [] l));
           rall (map (jr_elem true e (r_items r)) l)]).

(** mapTpl, templates/java/map.go:11-38. *)
Definition jr_map (k w : etype) (r : map_rules field_rules) (l : list (value * value)) : report :=
  let n := N.of_nat (List.length l) in
  rif (negb (getb (p_ignore_empty r) && is_nil l))
    (rall [names c (jnz (p_min r) (fun a => throw_unless (N.min n a =? a)%N));
           names c (jnz (p_max r) (fun b => throw_unless (N.max n b =? b)%N));
           names c (only_if (getb (p_no_sparse r)) Unimplemented);
           rif (negb (j_none w (p_values r)) || negb (j_none k (p_keys r)))
             (rthen (rall (map (fun p => jr_elem true k (p_keys r) (fst p)) l))
                    (rall (map (fun p => jr_elem true w (p_values r) (snd p)) l)))]).

Definition jr_ftype (t : ftype) (fr : field_rules) (v : value) : report :=
  match t, fr_typ fr, v with
  | FOne e, _, _ => jr_elem false e (Some fr) v
  | FRep e, Some (RRepeated r), VList l => jr_repeated e r l
  | FRep e, None, VList l => jr_repeated e (mkRepRules None None None None None) l
  | FMap k w, Some (RMap r), VMap l => jr_map k w r l
  | FMap k w, None, VMap l => rif (is_embed w) (jr_map k w (mkMapRules None None None None None None) l)
  | _, _, _ => Broken
  end.
End Field.

(** [render (context .)] for a field of the message type [n]. *)
Definition jr_field (n : string) (f : field) (v : value) : report :=
  jr_ftype (FieldOf n (f_name f)) (Garbled n (f_name f)) (f_type f) (f_rules f) v.

(** oneOfTpl, templates/java/oneof.go:7-20. *)
Definition jr_oneof (n : string) (o : oneof) (set : option (string * value)) : report :=
  match set with
  | Some (fn, v) =>
      match find (fun f => String.eqb fn (f_name f)) (o_fields o) with
      | Some f => jr_field n f v
      | None => Fine
      end
  | None => names (OneofOf n (o_name o)) (throw_unless (negb (getb (o_required o))))
  end.

(** msgInnerTpl, templates/java/msg.go:14-38. *)
Definition jr_msg (d : msgdesc) (m : msgval) : report :=
  if md_disabled d then Fine
  else rthen (rall (map (fun f => match assoc (f_name f) (mv_fields m) with Some v => jr_field (md_name d) f v | None => Fine end)
                     (md_fields d)))
         (rall (map (fun o => match assoc (o_name o) (mv_oneofs m) with Some s => jr_oneof (md_name d) o s | None => Fine end)
                     (md_oneofs d))).
End Message.

Section Run.
Variable jl : java_libs.
Variable sc : schema.
Variable ignored : string -> bool.

(** As [assert_valid_f]. *)
Fixpoint java_report_f (fuel : nat) (n : string) (m : msgval) : report :=
  match fuel with
  | O => Broken
  | S k =>
      match find_msg sc n with
      | Some d =>
          match md_methods d with
          | MNone => if ignored n then Broken else Fine
          | _ => jr_msg jl sc (java_report_f k) d m
          end
      | None => Fine
      end
  end.
End Run.
