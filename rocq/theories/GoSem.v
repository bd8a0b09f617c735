(** Execution of the generated Go code. *)
From Verif Require Import Base Utf8 Num Rules Types Time Checker GoIR GoGen Regex Known.

(** Errors made outside the generated types: [errors.New], stdlib errors. *)
Inductive plain :=
| PlHost (e : host_err) | PlEmail (e : email_err) | PlUuid | PlUrl | PlDur (e : sn_err) | PlTs (e : sn_err).

(** Error values: FooValidationError, FooMultiError (msg.go:68,83-88), others. *)
Inductive gerr :=
| GErr (msg field : string) (ix : option ixval) (reason : list piece) (cause : option gerr) (key : bool)
| GMulti (msg : string) (errs : list gerr)
| GPlain (p : plain).

(** Runtime values of locals. *)
Inductive rval :=
| RV (v : value) | RIdx (n : nat) | RDur (z : Z) | RTime (z : Z) | RUrl (abs : bool) | RErr (e : gerr).

Definition env := list (string * rval).

(** The mutable state of one [validate] call: the [errors] slice and the sets made for
    [unique]. *)
Record state := mkSt { st_errs : list gerr; st_sets : list (string * list value) }.

(** [ONext]: fell through.  [ORet e]: returned [e].  [OStuck]: the text could not have
    been compiled, or panics. *)
Inductive out := ONext (s : state) | ORet (e : gerr) | OStuck.

(** Result of Validate()/ValidateAll(). *)
Inductive vres := VNil | VErr (e : gerr) | VStuck.

(** Equality of Go map keys (scalars). *)
Definition key_eqb (a b : value) : bool :=
  match a, b with
  | VNum x, VNum y => num_eqb x y
  | VBool x, VBool y => Bool.eqb x y
  | VStr x, VStr y => bytes_eqb x y
  | VByt x, VByt y => bytes_eqb x y
  | VEnum x, VEnum y => Z.eqb x y
  | _, _ => false
  end.

(** [m.GetF()]: a plain field, or the oneof member that is set. *)
Definition get_field (m : msgval) (f : string) : option value :=
  match assoc f (mv_fields m) with
  | Some v => Some v
  | None =>
      match find (fun p => match snd p with Some (g, _) => String.eqb f g | None => false end)
                 (mv_oneofs m) with
      | Some (_, Some (_, v)) => Some v
      | _ => None
      end
  end.

Definition eval_access (m : msgval) (en : env) (a : access) : option rval :=
  match a with
  | AField f => option_map RV (get_field m f)
  | AVar x => assoc x en
  | AUnwrap x => match assoc x en with Some (RV (VWrap (Some v))) => Some (RV v) | _ => None end
  | AUrl x => match assoc x en with Some (RV (VAny (Some u))) => Some (RV (VStr u)) | _ => None end
  end.

(** [acc == nil] on pointers; scalars do not have it. *)
Definition is_nil_val (v : rval) : option bool :=
  match v with
  | RV (VMsg o) => Some (is_none o)
  | RV (VWrap o) => Some (is_none o)
  | RV (VAny o) => Some (is_none o)
  | RV (VDur o) => Some (is_none o)
  | RV (VTs o) => Some (is_none o)
  | _ => None
  end.

Definition cmp_num (op : cmp) (a b : num) : bool :=
  match op with
  | OLt => num_ltb a b | OLe => num_leb a b
  | OGt => num_ltb b a | OGe => num_leb b a
  | ONe => negb (num_eqb a b)
  end.
Definition cmp_z (op : cmp) (a b : Z) : bool :=
  match op with
  | OLt => Z.ltb a b | OLe => Z.leb a b | OGt => Z.ltb b a | OGe => Z.leb b a
  | ONe => negb (Z.eqb a b)
  end.
Definition cmp_n (op : cmp) (a b : N) : bool :=
  match op with
  | OLt => N.ltb a b | OLe => N.leb a b | OGt => N.ltb b a | OGe => N.leb b a
  | ONe => negb (N.eqb a b)
  end.

(** A literal compared with [len(..)] must fit Go's int. *)
Definition int_lit_ok (n : N) : bool := N.ltb n (2^63).

Definition len_val (v : rval) : option N :=
  match v with
  | RV (VStr s) => Some (blen s)
  | RV (VByt s) => Some (blen s)
  | RV (VList l) => Some (N.of_nat (List.length l))
  | RV (VMap l) => Some (N.of_nat (List.length l))
  | _ => None
  end.

(** The bytes of a string or []byte. *)
Definition text_val (v : rval) : option bytes :=
  match v with RV (VStr s) => Some s | RV (VByt s) => Some s | _ => None end.

Section Exec.
Variable sc : schema.
Variable orc : oracles.
Variable decls : list (string * pkgvar).     (* package-level variables *)
Variable uuid_declared : bool.               (* _file_uuidPattern exists *)

(** [X.MatchString] / [X.Match]. *)
Definition re_match (p s : bytes) : bool := o_match orc p s.

(** [X[acc]] membership; [conv] is the [string(..)] conversion of a []byte. *)
Definition in_set (x : string) (conv : bool) (v : rval) : option bool :=
  match assoc x decls, v with
  | Some (DSet _ l), RV (VByt s) =>
      if conv then Some (existsb (key_eqb (VStr s)) l) else None
  | Some (DSet _ l), RV ((VNum _ | VStr _ | VEnum _) as w) =>
      if conv then None else Some (existsb (key_eqb w) l)
  | Some (DDurSet _ l), RDur z => if conv then None else Some (existsb (Z.eqb z) l)
  | _, _ => None
  end.

Definition eval_texp (en : env) (t : texp) : option Z :=
  match t with
  | TLocal x => match assoc x en with Some (RTime z) => Some z | _ => None end
  | TAdd x neg d =>
      match assoc x en, assoc d en with
      | Some (RTime z), Some (RDur w) => Some (if neg then z + wrap64 (- w) else z + w)%Z
      | _, _ => None
      end
  end.

Definition bad_ip_str (k : ipkind) (s : bytes) : bool :=
  match o_parse_ip orc s with
  | None => true
  | Some ip =>
      match k with IpAny => false | Ip4 => negb (to4_ok ip) | Ip6 => to4_ok ip end
  end.

Definition bad_ip_byt (k : ipkind) (s : bytes) : bool :=
  match k with
  | IpAny => negb (to16_ok s)
  | Ip4 => negb (to4_ok s)
  | Ip6 => negb (to16_ok s) || to4_ok s
  end.

(** Conditions; [None] is a compile error. *)
Fixpoint eval_cond (en : env) (v : rval) (c : cond) : option bool :=
  match c with
  | CNum op n => match v with
                 | RV (VNum x) => if num_lit_ok n then Some (cmp_num op x n) else None
                 | _ => None end
  | CBoolNe b => match v with RV (VBool x) => Some (negb (Bool.eqb x b)) | _ => None end
  | CEnumNe z => match v with RV (VEnum x) => Some (negb (Z.eqb x z)) | _ => None end
  | CStrNe s => match v with RV (VStr x) => Some (negb (bytes_eqb x s)) | _ => None end
  | CBytNe s => match v with RV (VByt x) => Some (negb (bytes_eqb x s)) | _ => None end
  | CLen op n => match len_val v with
                 | Some l => if int_lit_ok n then Some (cmp_n op l n) else None
                 | None => None end
  | CRunes op n => match v with
                   | RV (VStr s) => if int_lit_ok n then Some (cmp_n op (rune_count s) n) else None
                   | _ => None end
  | CNoPrefix p => option_map (fun s => negb (has_prefix s p)) (text_val v)
  | CNoSuffix p => option_map (fun s => negb (has_suffix s p)) (text_val v)
  | CNoContains p => option_map (fun s => negb (contains s p)) (text_val v)
  | CContains p => option_map (fun s => contains s p) (text_val v)
  | CNotInSet x conv => option_map negb (in_set x conv v)
  | CInSet x conv => in_set x conv v
  | CUndefined e => match v, find_enum sc e with
                    | RV (VEnum z), Some d => Some (negb (existsb (Z.eqb z) (en_values d)))
                    | _, _ => None end
  | CBadIpStr k => match v with RV (VStr s) => Some (bad_ip_str k s) | _ => None end
  | CBadIpByt k => match v with RV (VByt s) => Some (bad_ip_byt k s) | _ => None end
  | CNoMatch x => match assoc x decls, text_val v with
                  | Some (DRegex p), Some s => Some (negb (re_match p s))
                  | _, _ => None end
  | CNil => is_nil_val v
  | CNotAbs => match v with RUrl a => Some (negb a) | _ => None end
  | CDurNe (Some z) => match v with RDur x => Some (negb (Z.eqb x z)) | _ => None end
  | CDurNe None => None
  | CDur op x => match v, assoc x en with
                 | RDur a, Some (RDur b) => Some (cmp_z op a b)
                 | _, _ => None end
  | CTsNe t => match v with RTime x => Some (negb (Z.eqb x t)) | _ => None end
  | CSub op t => match v, eval_texp en t with
                 | RTime a, Some b => Some (cmp_z op (time_sub a b) 0)
                 | _, _ => None end
  | COr a b => match eval_cond en v a, eval_cond en v b with
               | Some x, Some y => Some (x || y) | _, _ => None end
  | CAnd a b => match eval_cond en v a, eval_cond en v b with
                | Some x, Some y => Some (x && y) | _, _ => None end
  end.

(** Calls that return an error.  [inl e]: error [e]; [inr v]: success with result [v]. *)
Definition callee_eqb (a b : callee) : bool :=
  match a, b with
  | FHostname, FHostname | FEmail, FEmail | FUuid, FUuid | FUrl, FUrl
  | FDuration, FDuration | FTime, FTime => true
  | _, _ => false
  end.
Definition has_helper (hs : list callee) (h : callee) : bool := existsb (callee_eqb h) hs.

Definition call (hs : list callee) (f : callee) (v : rval) : option (gerr + rval) :=
  match f, v with
  | FHostname, RV (VStr s) =>
      if has_helper hs FHostname
      then Some (match validate_hostname s with
                 | Some e => inl (GPlain (PlHost e)) | None => inr v end)
      else None
  | FEmail, RV (VStr s) =>
      if has_helper hs FEmail && has_helper hs FHostname
      then match validate_email (o_mail orc s) with
           | Some EPanic => None
           | Some e => Some (inl (GPlain (PlEmail e)))
           | None => Some (inr v) end
      else None
  | FUuid, RV (VStr s) =>
      if has_helper hs FUuid && uuid_declared
      then Some (if validate_uuid s then inr v else inl (GPlain PlUuid))
      else None
  | FUrl, RV (VStr s) =>
      Some (match o_url orc s with Some a => inr (RUrl a) | None => inl (GPlain PlUrl) end)
  | FDuration, RV (VDur (Some d)) =>
      Some (match dur_check d with Some e => inl (GPlain (PlDur e)) | None => inr (RDur (as_duration d)) end)
  | FTime, RV (VTs (Some t)) =>
      Some (match ts_check t with Some e => inl (GPlain (PlTs e)) | None => inr (RTime (instant t)) end)
  | _, _ => None
  end.

Definition eval_rhs (r : rhs) : option rval :=
  match r with
  | RhsDur (Some z) => Some (RDur z)
  | RhsDur None => None
  | RhsTs t => Some (RTime t)
  | RhsNow => Some (RTime (o_now orc))
  end.

(** Building an error value from its composite literal. *)
Definition mk_err (en : env) (e : errspec) : option gerr :=
  match (match es_ix e with
         | None => Some None
         | Some x => match assoc x en with
                     | Some (RIdx n) => Some (Some (IxN n))
                     | Some (RV v) => Some (Some (IxV v))
                     | _ => None end
         end),
        (if es_cause e then match assoc "err"%string en with
                            | Some (RErr c) => Some (Some c) | _ => None end
         else Some None) with
  | Some ix, Some cause => Some (GErr (es_msg e) (es_field e) ix (es_reason e) cause (es_key e))
  | _, _ => None
  end.

Definition fail (all : bool) (en : env) (e : errspec) (st : state) : out :=
  match mk_err en e with
  | None => OStuck
  | Some g => if all then ONext (mkSt (st_errs st ++ [g]) (st_sets st)) else ORet g
  end.

Definition append_err (g : gerr) (st : state) : state := mkSt (st_errs st ++ [g]) (st_sets st).

Fixpoint set_assoc {A} (k : string) (v : A) (l : list (string * A)) : list (string * A) :=
  match l with
  | [] => [(k, v)]
  | (k', w) :: t => if String.eqb k k' then (k, v) :: t else (k', w) :: set_assoc k v t
  end.

(** Methods of the static type of an embedded message (interface assertions of
    messageTpl). *)
Definition methods_of (t : etype) : option methods :=
  match t with
  | TMsg n => option_map md_methods (find_msg sc n)
  | TWrap _ | TAny | TDur | TTs => Some MNone
  | _ => None
  end.

Fixpoint loop {A} (f : A -> state -> out) (l : list A) (st : state) : out :=
  match l with
  | [] => ONext st
  | x :: t => match f x st with ONext st' => loop f t st' | r => r end
  end.

Fixpoint enum_from {A} (n : nat) (l : list A) : list (nat * A) :=
  match l with [] => [] | x :: t => (n, x) :: enum_from (S n) t end.

(** [rec all n m]: the result of [m.validate(all)] for an embedded message of type [n]. *)
Variable rec : bool -> string -> msgval -> vres.
Variable hs : list callee.                   (* helper methods of the current message *)
Variable all : bool.
Variable m : msgval.

Definition unique_key (conv : bool) (v : rval) : option value :=
  match v with
  | RV (VByt s) => if conv then Some (VStr s) else None
  | RV ((VNum _ | VStr _ | VEnum _ | VBool _) as w) => if conv then None else Some w
  | _ => None
  end.

(** The result of an embedded message: nothing, or an error for [cause: err]. *)
Definition embed_call (t : etype) (v : rval) : option vres :=
  match methods_of t, v with
  | Some MNone, RV (VMsg _ | VWrap _ | VAny _ | VDur _ | VTs _) => Some VNil
  | Some _, RV (VMsg None) => Some VNil
  | Some ms, RV (VMsg (Some mv)) =>
      match t with
      | TMsg n => Some (rec (all && match ms with MBoth => true | _ => false end) n mv)
      | _ => None
      end
  | _, _ => None
  end.

Fixpoint exec (en : env) (s : stmt) (st : state) : out :=
  match s with
  | SSkip => ONext st
  | SSeq a b => match exec en a st with ONext st' => exec en b st' | r => r end
  | SFail e => fail all en e st
  | SIf a c s1 s2 =>
      match eval_access m en a with
      | Some v => match eval_cond en v c with
                  | Some true => exec en s1 st
                  | Some false => exec en s2 st
                  | None => OStuck end
      | None => OStuck
      end
  | SBind x a s1 s2 =>
      match eval_access m en a with
      | Some v => match is_nil_val v with
                  | Some false => exec ((x, v) :: en) s1 st
                  | Some true => exec ((x, v) :: en) s2 st
                  | None => OStuck end
      | None => OStuck
      end
  | STry f x a s1 s2 =>
      match eval_access m en a with
      | Some v => match call hs f v with
                  | Some (inl e) => exec (("err"%string, RErr e) :: en) s1 st
                  | Some (inr w) => exec ((x, w) :: en) s2 st
                  | None => OStuck end
      | None => OStuck
      end
  | SLet x r s1 => match eval_rhs r with Some v => exec ((x, v) :: en) s1 st | None => OStuck end
  | SMakeSet x s1 => exec en s1 (mkSt (st_errs st) (set_assoc x [] (st_sets st)))
  | SUnique x conv a s1 =>
      match eval_access m en a with
      | Some v =>
          match unique_key conv v, assoc x (st_sets st) with
          | Some k, Some l =>
              if existsb (key_eqb k) l then exec en s1 st
              else ONext (mkSt (st_errs st) (set_assoc x (k :: l) (st_sets st)))
          | _, _ => OStuck
          end
      | None => OStuck
      end
  | SForSlice i x a s1 =>
      match eval_access m en a with
      | Some (RV (VList l)) =>
          loop (fun p st => exec ((i, RIdx (fst p)) :: (x, RV (snd p)) :: en) s1 st)
               (enum_from 0 l) st
      | _ => OStuck
      end
  | SForMap k x a s1 =>
      match eval_access m en a with
      | Some (RV (VMap l)) =>
          loop (fun p st => exec ((k, RV (fst p)) :: (x, RV (snd p)) :: en) s1 st) l st
      | _ => OStuck
      end
  | SEmbed a t e =>
      match eval_access m en a with
      | Some v => match embed_call t v with
                  | Some VNil => ONext st
                  | Some (VErr c) => fail all (("err"%string, RErr c) :: en) e st
                  | Some VStuck | None => OStuck end
      | None => OStuck
      end
  | SBad => OStuck
  end.

(** One oneof switch.  [m.X] is nil or holds one member. *)
Definition exec_oneof (oc : oneof_code) (st : state) : out :=
  match assoc (oc_name oc) (mv_oneofs m) with
  | None => OStuck
  | Some None =>
      match oc_default oc with Some e => fail all [] e st | None => ONext st end
  | Some (Some (f, _)) =>
      match assoc f (oc_cases oc) with Some s => exec [] s st | None => OStuck end
  end.

Definition exec_msg (mc : msg_code) : vres :=
  if mc_disabled mc then VNil
  else match exec [] (mc_body mc) (mkSt [] []) with
       | ORet e => VErr e
       | OStuck => VStuck
       | ONext st =>
           match loop exec_oneof (mc_oneofs mc) st with
           | ORet e => VErr e
           | OStuck => VStuck
           | ONext st' =>
               match st_errs st' with
               | [] => VNil
               | es => VErr (GMulti (mc_name mc) es)
               end
           end
       end.
End Exec.

(** A schema together with the code generated for it. *)
Definition find_code (ms : list msg_code) (n : string) : option msg_code :=
  find (fun c => String.eqb n (mc_name c)) ms.

(** The code of a message type: generated by this plugin, or (legacy) by an earlier one
    with the same checks. *)
Definition has_methods (m : msgdesc) : bool := match md_methods m with MNone => false | _ => true end.

Definition code_of (sc : schema) (n : string) : option msg_code :=
  match find_msg sc n with
  | Some d => if has_methods d then Some (msg_tpl d) else None
  | None => None
  end.

(** Everything declared at package level by the generated code. *)
Definition pkg_decls (sc : schema) : list (string * pkgvar) :=
  flat_map (fun m => mc_decls (msg_tpl m)) (filter has_methods (sc_msgs sc)).

Section Run.
Variable sc : schema.
Variable orc : oracles.

(** [m.validate(all)], with fuel for the nesting of embedded messages. *)
Fixpoint validate_f (fuel : nat) (all : bool) (n : string) (mv : msgval) : vres :=
  match fuel with
  | O => VStuck
  | S k =>
      match code_of sc n with
      | None => VStuck
      | Some mc =>
          exec_msg sc orc (pkg_decls sc) (file_uuid sc) (validate_f k) (mc_helpers mc) all mv mc
      end
  end.

(** Nesting depth of embedded messages in a value. *)
Fixpoint vheight (v : value) : nat :=
  match v with
  | VMsg (Some m) => S (mheight m)
  | VList l => list_max (map vheight l)
  | VMap l => list_max (map (fun p => vheight (snd p)) l)
  | _ => O
  end
with mheight (m : msgval) : nat :=
  match m with
  | MV fs os =>
      Nat.max (list_max (map (fun p => vheight (snd p)) fs))
        (list_max (map (fun p => match snd p with Some (_, v) => vheight v | None => O end) os))
  end.

(** [m.Validate()], [m.ValidateAll()] of a non-nil message of type [n]. *)
Definition validate (all : bool) (n : string) (mv : msgval) : vres :=
  validate_f (S (mheight mv)) all n mv.

(** The methods called on a possibly nil pointer (msg.go:28, and 25-26 when disabled). *)
Definition validate_ptr (all : bool) (n : string) (mo : option msgval) : vres :=
  match mo with None => VNil | Some mv => validate all n mv end.
End Run.
