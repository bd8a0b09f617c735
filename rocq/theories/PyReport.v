(** What the text of a Python ValidationFailed starts with: the generated validator of Py.v once more,
    with the [name] that each template is given.  Line numbers are those of
    python/protoc_gen_validate/validator.py. *)
From Verif Require Import Base Utf8 Num Rules Types Outcome Py Report.

(** The [name] in a text such as ["{{ name }} is required."]; it never tells the message type. *)
Inductive label :=
| LField (f : string)    (** "p.f": rule_type, 947-1014 *)
| LBare (f : string)     (** "f": message_template is called with [field.name], 954, 1003, 1019 *)
| LValue (f : string)    (** "p.f.value": what is in a wrapper, 621-646 *)
| LEntry (f : string)    (** "p.f[key]": the values of a map, 933 *)
| LItem                  (** "item": the items of a list, 869 *)
| LKey                   (** "key": the keys of a map, 908-931 *)
| LOneof (o : string).   (** "Oneof o": 1044 *)

Definition label_text (l : label) : string :=
  match l with
  | LField f => "p." ++ f
  | LBare f => f
  | LValue f => "p." ++ f ++ ".value"
  | LEntry f => "p." ++ f ++ "[key]"
  | LItem => "item"
  | LKey => "key"
  | LOneof o => "Oneof " ++ o
  end.

(** * Sources whose exceptions have a text: as [code] and its operations in Py.v *)
Definition rcode (A : Type) := option (list (A -> report_of label)).
Definition rrun {A} (c : list (A -> report_of label)) (a : A) : report_of label := rall (map (fun s => s a) c).

Section Code.
Context {A : Type}.
Fixpoint rseq (l : list (rcode A)) : rcode A :=
  match l with
  | [] => Some []
  | c :: t => match c, rseq t with Some x, Some y => Some (x ++ y)%list | _, _ => None end
  end.
Definition rnothing : rcode A := Some [].
Definition rstmt (s : A -> report_of label) : rcode A := Some [s].
Definition rblock (cond : A -> bool) (body : rcode A) : rcode A :=
  match body with
  | None | Some [] => None
  | Some l => Some [fun a => rif (cond a) (rrun l a)]
  end.
Definition rwhen (b : bool) (s : A -> report_of label) : rcode A := if b then Some [s] else Some [].
Definition rguarded (b : bool) (cond : A -> bool) (body : rcode A) : rcode A := if b then rblock cond body else body.
(** A template all of whose texts start with [l]. *)
Definition naming (l : label) (c : code A) : rcode A := option_map (map (fun s a => names l (s a))) c.
End Code.
Definition rabout {A B} (part : B -> option A) (c : rcode A) : rcode B :=
  option_map (map (fun s b => match part b with Some a => s a | None => Broken end)) c.
Definition rfor_each {A} (c : list (A -> report_of label)) (l : list A) : report_of label := rall (map (rrun c) l).

Section Libs.
Variable pl : py_libs.
Variable sc : schema.
(** [validate] of a message of type [n]: its exception goes through. *)
Variable validate : string -> msgval -> report_of label.
Definition pr_embedded (e : etype) (v : value) : report_of label :=
  match e, v with TMsg n, VMsg (Some m) => validate n m | _, _ => Fine end.

(** message_template, 298-316. *)
Definition pr_message (l : label) (elem : bool) (e : etype) (mr : option message_rules) : rcode value :=
  rseq [naming l (py_required elem (match mr with Some m => m_required m | None => None end));
        if match mr with Some m => getb (m_skip m) | None => false end then rnothing
        else rblock (py_there elem) (rstmt (fun v => if elem then Broken else pr_embedded e v))].

(** wrapper_template, 614-655: the name is "p.f", and that of the value "p.f.value". *)
Definition pr_wrapper (f : string) (e : etype) (mr : option message_rules) (r : rule_type) : rcode value :=
  match py_scalar pl sc (match e with TWrap w => wrapped_type w | _ => e end) r with
  | None | Some [] => None
  | Some body =>
      rstmt (fun v => match v with
                      | VWrap (Some x) => names (LValue f) (run body x)
                      | VWrap None => names (LField f) (py_raise_unless (negb (match mr with Some m => getb (m_required m) | None => false end)))
                      | _ => Broken
                      end)
  end.

(** switcher_template, 783-833, with the name "item" or "p.f[key]". *)
Definition pr_switcher (l : label) (e : etype) (fr : option field_rules) : rcode value :=
  match fr with
  | None => rnothing
  | Some (FR mr typ) =>
      let otherwise :=
        if told_message mr then pr_message l true e mr
        else match typ with
             | Some (RAny r) => if told (RAny r) then naming l (py_any true r) else rnothing
             | _ => rnothing
             end in
      match typ with
      | Some ((RNum _ _ | RBool _ | RString _ | REnum _) as r) => if told r then naming l (py_inline pl sc e r) else otherwise
      | Some (RDuration r) => if told (RDuration r) then naming l (py_duration true r) else otherwise
      | Some (RTimestamp r) => if told (RTimestamp r) then naming l (py_timestamp pl true r) else otherwise
      | _ => otherwise
      end
  end.

(** repeated_template, 836-877. *)
Definition pr_repeated (f : string) (e : etype) (r : rep_rules field_rules) : rcode value :=
  rabout list_part
    (rguarded (getb (r_ignore_empty r)) (fun l => negb (is_nil l))
       (rseq [naming (LField f) (if_size (r_min r) len_ge);
              naming (LField f) (if_size (r_max r) len_le);
              naming (LField f) (when (getb (r_unique r)) (py_unique []));
              rwhen (is_embed e) (rfor_each [fun v => if items_skip (r_items r) then Fine else pr_embedded e v]);
              if told_rules (r_items r)
              then match pr_switcher LItem e (r_items r) with Some c => rstmt (rfor_each c) | None => None end
              else rnothing])).

(** map_template, 885-943, for a map. *)
Definition pr_map (f : string) (k w : etype) (r : map_rules field_rules) : rcode value :=
  rabout map_part
    (rguarded (getb (p_ignore_empty r)) (fun l => negb (is_nil l))
       (rseq [naming (LField f) (if_size (p_min r) len_ge);
              naming (LField f) (if_size (p_max r) len_le);
              if told_rules (p_keys r) || told_rules (p_values r)
              then match naming LKey (py_keys pl sc k (p_keys r)), pr_switcher (LEntry f) w (p_values r) with
                   | Some ks, Some vs => rstmt (rfor_each [fun kv => rrun ks (fst kv); fun kv => rrun vs (snd kv)])
                   | _, _ => None
                   end
              else rwhen (is_embed w) (rfor_each [fun kv => pr_embedded w (snd kv)])])).

Variable pn : py_names.

(** rule_type, 946-1020: which template is rendered, as [py_field], and with which name. *)
Definition pr_field (n : string) (f : field) : rcode value :=
  let 'FR mr typ := f_rules f in
  let here := LField (f_name f) in
  let bare := LBare (f_name f) in
  if negb (is_some mr || is_some typ) then
    match f_type f with
    | FOne (TMsg m) => if google pn m then rnothing else pr_message bare false (TMsg m) None
    | FRep (TMsg m) =>
        if google pn m then rnothing else if pn_entry pn m then naming here (py_entries sc m) else pr_repeated (f_name f) (TMsg m) no_rep
    | FMap k w => if google pn n then rnothing else pr_map (f_name f) k w no_map
    | _ => rnothing
    end
  else if fields_embed (f_type f) then
    let elem := match f_type f with FOne e | FRep e => e | FMap _ w => w end in
    match typ with
    | Some (RDuration r) =>
        if told (RDuration r) then naming here (py_duration false r) else if told_message mr then pr_message bare false elem mr else None
    | Some (RTimestamp r) =>
        if told (RTimestamp r) then naming here (py_timestamp pl false r) else if told_message mr then pr_message bare false elem mr else None
    | _ =>
        if match typ with Some r => wrapper_rule r && told r | None => false end
        then match typ with Some r => pr_wrapper (f_name f) elem mr r | None => None end
        else if told_message mr then pr_message bare false elem mr
        else match typ with
             | Some (RAny r) => if told (RAny r) then naming here (py_any false r) else None
             | Some (RRepeated r) => if told (RRepeated r) then pr_repeated (f_name f) elem r else None
             | Some (RMap r) =>
                 if told (RMap r)
                 then match f_type f with FMap k w => pr_map (f_name f) k w r | _ => rstmt (fun _ => Broken) end
                 else None
             | _ => None
             end
    end
  else
    let elem := match f_type f with FOne e | FRep e => e | FMap _ w => w end in
    match typ with
    | Some (RString r) =>
        if told (RString r) then naming here (py_scalar pl sc elem (RString r)) else if told_message mr then pr_message bare false elem mr else None
    | _ =>
        if told_message mr then pr_message bare false elem mr
        else match typ with
             | Some ((RNum _ _ | RBool _ | REnum _ | RBytes _) as r) => if told r then naming here (py_scalar pl sc elem r) else None
             | Some (RRepeated r) => if told (RRepeated r) then pr_repeated (f_name f) elem r else None
             | Some (RMap r) => if told (RMap r) then rstmt (fun _ => Broken) else None
             | _ => None
             end
    end.

(** 1034-1047. *)
Definition pr_oneof (n : string) (o : oneof) : rcode (option (string * value)) :=
  rseq (map (fun f => match (if headless_member f then None else pr_field n f) with
                      | Some c => rstmt (fun s => match s with
                                                  | Some (fn, v) => rif (String.eqb fn (f_name f)) (rrun c v)
                                                  | None => Fine
                                                  end)
                      | None => None
                      end) (o_fields o)
        ++ [naming (LOneof (o_name o)) (when (getb (o_required o)) (fun s => py_raise_unless (is_some s)))])%list.

(** file_template, 1023-1054. *)
Definition pr_body (d : msgdesc) : rcode msgval :=
  rseq (map (fun o => option_map (fun c => [fun m => match assoc (o_name o) (mv_oneofs m) with Some s => rrun c s | None => Fine end])
                        (pr_oneof (md_name d) o)) (md_oneofs d)
        ++ map (fun f => option_map (fun c => [fun m => match assoc (f_name f) (mv_fields m) with Some v => rrun c v | None => Fine end])
                        (pr_field (md_name d) f)) (md_fields d))%list.

(** As [py_msg]. *)
Definition pr_msg (d : msgdesc) (m : msgval) : report_of label :=
  match pr_body d with
  | None => Broken
  | Some c => if md_disabled d || pn_ignored pn (md_name d) then Fine else rrun c m
  end.
End Libs.

Section Run.
Variable pl : py_libs.
Variable pn : py_names.
Variable sc : schema.

(** As [py_validate_f]. *)
Fixpoint py_report_f (fuel : nat) (n : string) (m : msgval) : report_of label :=
  match fuel with
  | O => Broken
  | S k =>
      match find_msg sc n with
      | Some d => pr_msg pl sc (py_report_f k) pn d m
      | None => Fine
      end
  end.
End Run.
