(** The fields that the text of an error of C++ names: the generated Validate of Cc.v once more, with
    the errors. *)
From Verif Require Import Base Utf8 Num Rules Types Time Iface Checker GoSem Outcome Cc Report.

(** [{{ errCause . "inner_err" "embedded message failed validation" }}] (templates/cc/message.go:12;
    errIdxCause, register.go:186-218): the field, then what the error of the embedded message names. *)
Definition because (c : cause) (r : report) : report := match r with Fault p => Fault (c :: p) | x => x end.

Section Message.
Variable cl : cc_libs.
Variable sc : schema.
(** [pgv::Validator<T>::CheckMessage] with [&inner_err]. *)
Variable check_message : string -> msgval -> report.

Definition cr_embedded (e : etype) (v : value) : report :=
  match e, v with TMsg n, VMsg (Some m) => check_message n m | _, _ => Fine end.

(** errIdxCause names the message type and the field of the context, for items, keys and values
    too.  (Indexes, and "key for", are left out; so are the reasons.) *)
Section Field.
Variable c : cause.

(** messageTpl, templates/cc/message.go:3-24. *)
Definition cr_message (elem : bool) (e : etype) (mr : option message_rules) (v : value) : report :=
  rthen (names c (only_if (match mr with Some m => getb (m_required m) | None => false end) (throw_unless (cc_has elem v))))
    (rif (negb (match mr with Some m => getb (m_skip m) | None => false end))
       (rif (cc_has elem v) (because c (cr_embedded e v)))).

Definition cr_elem (elem : bool) (e : etype) (fr : option field_rules) (v : value) : report :=
  match fr with
  | Some (FR mr (Some r)) =>
      match e, v with
      | TWrap w, VWrap o => if elem then Broken else names c (cc_wrapper cl sc w mr r o)
      | _, _ => names c (cc_rule cl sc e r v)
      end
  | Some (FR mr None) => rif (is_embed e) (cr_message elem e mr v)
  | None => rif (is_embed e) (cr_message elem e None v)
  end.

(** The loop of repTpl, repeated.go:49-61. *)
Fixpoint cr_items (uniq : bool) (e : etype) (fr : option field_rules) (seen l : list value) : report :=
  match l with
  | [] => Fine
  | x :: t =>
      rthen (names c (only_if uniq (throw_unless (negb (existsb (cc_equals x) seen)))))
        (rthen (cr_elem true e fr x) (cr_items uniq e fr (x :: seen) t))
  end.

(** repTpl, templates/cc/repeated.go:3-66. *)
Definition cr_repeated (e : etype) (r : rep_rules field_rules) (l : list value) : report :=
  rif (negb (getb (r_ignore_empty r) && is_nil l))
    (rthen (names c (cc_count (N.of_nat (List.length l)) (r_min r) (r_max r)))
       (rif (getb (r_unique r) || negb (cc_none e (r_items r)))
          (cr_items (getb (r_unique r)) e (r_items r) [] l))).

(** mapTpl, templates/cc/map.go:3-54. *)
Definition cr_map (k w : etype) (r : map_rules field_rules) (l : list (value * value)) : report :=
  rif (negb (getb (p_ignore_empty r) && is_nil l))
    (rthen (names c (cc_count (N.of_nat (List.length l)) (p_min r) (p_max r)))
       (rif (getb (p_no_sparse r) || negb (cc_none w (p_values r)) || negb (cc_none k (p_keys r)))
          (rthen (rall (map (fun kv => rthen (cr_elem true k (p_keys r) (fst kv)) (cr_elem true w (p_values r) (snd kv))) l))
             (names c (only_if (getb (p_no_sparse r)) Unimplemented))))).

Definition cr_ftype (t : ftype) (fr : field_rules) (v : value) : report :=
  match t, fr_typ fr, v with
  | FOne e, _, _ => cr_elem false e (Some fr) v
  | FRep e, Some (RRepeated r), VList l => cr_repeated e r l
  | FRep e, None, VList l => cr_repeated e (mkRepRules None None None None None) l
  | FMap k w, Some (RMap r), VMap l => cr_map k w r l
  | FMap k w, None, VMap l => rif (is_embed w) (cr_map k w (mkMapRules None None None None None None) l)
  | _, _, _ => Broken
  end.
End Field.

Definition cr_field (n : string) (f : field) (v : value) : report := cr_ftype (FieldOf n (f_name f)) (f_type f) (f_rules f) v.

(** templates/cc/msg.go:105-119.  The error of a required oneof names the oneof only. *)
Definition cr_oneof (n : string) (o : oneof) (set : option (string * value)) : report :=
  match set with
  | Some (fn, v) =>
      match find (fun f => String.eqb fn (f_name f)) (o_fields o) with
      | Some f => cr_field n f v
      | None => Fine
      end
  | None => names (OneofOf n (o_name o)) (throw_unless (negb (getb (o_required o))))
  end.

(** Validate, templates/cc/msg.go:96-122. *)
Definition cr_msg (d : msgdesc) (m : msgval) : report :=
  if md_disabled d then Fine
  else rthen (rall (map (fun f => match assoc (f_name f) (mv_fields m) with Some v => cr_field (md_name d) f v | None => Fine end)
                     (md_fields d)))
         (rall (map (fun o => match assoc (o_name o) (mv_oneofs m) with Some s => cr_oneof (md_name d) o s | None => Fine end)
                     (md_oneofs d))).
End Message.

Section Run.
Variable cl : cc_libs.
Variable sc : schema.

(** As [cc_validate_f]. *)
Fixpoint cc_report_f (fuel : nat) (n : string) (m : msgval) : report :=
  match fuel with
  | O => Broken
  | S k =>
      match find_msg sc n with
      | Some d =>
          match md_methods d with
          | MNone => Fine
          | _ => cr_msg cl sc (cc_report_f k) d m
          end
      | None => Fine
      end
  end.
End Run.

(** ** The text *)

(** [std::ostringstream msg("invalid ");] (register.go:192): the stream begins with a text, and the
    put position is its beginning, since the mode is [std::ios_base::out] without [ate].  [<<]
    overwrites. *)
Definition stream : Type := bytes * nat.
Definition invalid_stream : stream := (bs "invalid ", O).
Definition put (st : stream) (s : bytes) : stream :=
  let '(buf, pos) := st in (firstn pos buf ++ s ++ skipn (pos + List.length s) buf, pos + List.length s)%nat%list.
Definition str (st : stream) : bytes := fst st.

(** errIdxCause, register.go:186-218: the text for a check of the field [field] of the message type
    [msg] ([field] is in camel case); [key]: of a key; [idx]: the printed index; [cause]: the text
    of the inner error. *)
Definition cc_error_text (key : bool) (msg field : bytes) (idx : option bytes) (reason : bytes) (cause : option bytes) : bytes :=
  let st := if key then put invalid_stream (bs "key for ") else invalid_stream in
  let st := put (put (put st (msg ++ bs "ValidationError")) (bs ".")) field in
  let st := match idx with Some i => put (put (put st (bs "[")) i) (bs "]") | None => st end in
  let st := put (put st (bs ": ")) reason in
  let st := match cause with Some c => put (put st (bs " | caused by ")) c | None => st end in
  str st.
