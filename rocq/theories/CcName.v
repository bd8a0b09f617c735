(** The names in generated C++, and its tables: the sets for in and not_in and the regular expressions for pattern, which are constants of
    the namespace.  templates/cc/register.go:108-176, 218-225, 281-286, 420-422; msg.go; in.go; any.go; duration.go; string.go; bytes.go.

    The names of messages and fields are here those in the .proto file, in ASCII.  pgs and pgsgo are not in /repo: [pgg] is
    PGGUpperCamelCase and [name_split] is Split of a Name as published. *)
From Verif Require Import Base Num Rules Types JavaName JavaConst.
Local Open Scope N_scope.

(** ** Names *)

(** methodName, 108-118; accessor and hasAccessor, 120-140, without an override. *)
Definition method_name (n : bytes) : bytes :=
  if bytes_eqb n (bs "const") then bs "const_" else if bytes_eqb n (bs "inline") then bs "inline_" else n.
Definition cc_accessor (field : bytes) : bytes := bs "m." ++ method_name field ++ bs "()".
Definition cc_has (field : bytes) : bytes := bs "m.has_" ++ method_name field ++ bs "()".

(** pgsgo.PGGUpperCamelCase. *)
Fixpoint pgg_from (cap : bool) (s : bytes) : bytes :=
  match s with
  | [] => []
  | c :: t =>
      if lowerb c then (if cap then c - 32 else c) :: pgg_from false t
      else if c =? 95 then if head_is lowerb t then pgg_from true t else 95 :: pgg_from true t
      else c :: pgg_from (digitb c) t
  end.
Definition pgg (s : bytes) : bytes := if head_is (N.eqb 95) s then 88 :: pgg_from true (tl s) else pgg_from true s.

(** oneofTypeName, 281-286, behind the class. *)
Definition case_type (oneof : bytes) : bytes := pgg oneof ++ bs "Case".
Definition case_constant (field : bytes) : bytes := bs "k" ++ filter (fun c => negb (c =? 95)) (pgg field).

(** pgs.Name.Split, with [words] for its case of camel case. *)
Fixpoint last_index (c : N) (s : bytes) : option nat :=
  match s with
  | [] => None
  | a :: t => match last_index c t with Some i => Some (S i) | None => if a =? c then Some O else None end
  end.
Definition name_split (words : bytes -> list bytes) (n : bytes) : list bytes :=
  match n with
  | [] => [[]]
  | _ =>
      if existsb (N.eqb 46) n then split_on 46 n
      else match last_index 95 n with
           | Some (S _) => match split_on 95 n with [] :: b :: l => (95 :: b) :: l | l => l end
           | _ => words n
           end
  end.
Fixpoint join (sep : bytes) (l : list bytes) : bytes :=
  match l with [] => [] | [a] => a | a :: l => a ++ sep ++ join sep l end.
(** packageName, classBaseName, className, 147-159; staticVarName, 420-422. *)
Definition package_name (words : bytes -> list bytes) (pkg : bytes) : bytes := bs "::" ++ join (bs "::") (name_split words pkg).
Definition class_base (p : path) : bytes := join [95] p.
Definition class_name (words : bytes -> list bytes) (pkg : bytes) (p : path) : bytes := package_name words pkg ++ bs "::" ++ class_base p.
Definition static_var words (pkg : bytes) (p : path) : bytes :=
  bs "validator_" ++ map (fun c => if c =? 58 then 95 else c) (class_name words pkg p).

(** ** Tables *)

Inductive table := InTable | NotInTable | PatternTable.
Definition table_name (t : table) : bytes := match t with InTable => bs "InLookup" | NotInTable => bs "NotInLookup" | PatternTable => bs "Pattern" end.
(** lookup, 218-225. *)
Definition lookup (msg field : bytes) (t : table) : bytes := [95] ++ pgg msg ++ [95] ++ pgg field ++ [95] ++ table_name t.

Inductive cctype := CcFloat | CcDouble | CcInt32 | CcInt64 | CcUInt32 | CcUInt64 | CcBool | CcString | CcDuration | CcEnum (e : string) | CcRE2.
(** cTypeOfString of the Go type, 324-343. *)
Definition cc_num (k : numkind) : cctype :=
  match k with
  | KFloat => CcFloat | KDouble => CcDouble
  | KInt32 | KSInt32 | KSFixed32 => CcInt32 | KInt64 | KSInt64 | KSFixed64 => CcInt64
  | KUInt32 | KFixed32 => CcUInt32 | KUInt64 | KFixed64 => CcUInt64
  end.
(** inType, 288-304, for a singular field with rules [r].  For other lists on messages, Element() is nil and the generator panics.  An
    enum is taken to be one of the package whose name is the same in Go, as cType needs. *)
Definition in_type (e : etype) (r : rule_type) : option cctype :=
  match e with
  | TBytes => Some CcString
  | TWrap _ | TAny | TDur | TTs | TMsg _ =>
      match r with RString _ | RAny _ => Some CcString | RDuration _ => Some CcDuration | _ => None end
  | TNum k => Some (cc_num k) | TBool => Some CcBool | TString => Some CcString | TEnum n => Some (CcEnum n)
  end.

Inductive ccontent := XNums (l : list num) | XStrings (l : list bytes) | XBytes (l : list bytes) | XEnums (l : list Z) | XTimes (l : list sn) | XPattern (p : bytes).
Definition some_list {A} (f : list A -> ccontent) (l : list A) : option ccontent := match l with [] => None | _ => Some (f l) end.
Definition in_of (r : rule_type) : option ccontent :=
  match r with
  | RNum _ r => some_list XNums (n_in r) | RString r => some_list XStrings (s_in r) | RBytes r => some_list XBytes (b_in r)
  | REnum r => some_list XEnums (e_in r) | RAny r => some_list XStrings (a_in r) | RDuration r => some_list XTimes (d_in r)
  | _ => None
  end.
Definition not_in_of (r : rule_type) : option ccontent :=
  match r with
  | RNum _ r => some_list XNums (n_not_in r) | RString r => some_list XStrings (s_not_in r) | RBytes r => some_list XBytes (b_not_in r)
  | REnum r => some_list XEnums (e_not_in r) | RAny r => some_list XStrings (a_not_in r) | RDuration r => some_list XTimes (d_not_in r)
  | _ => None
  end.
Definition pattern_of (r : rule_type) : option ccontent :=
  let re o := match o with Some p => Some (XPattern p) | None => None end in
  match r with RString r => re (s_pattern r) | RBytes r => re (b_pattern r) | _ => None end.

Definition decl := (table * (cctype * ccontent))%type.
Definition declare (t : table) (c : option cctype) (o : option ccontent) : list decl :=
  match c, o with Some c, Some x => [(t, (c, x))] | _, _ => [] end.
(** msgTpl, msg.go:20-93, for one field: the lists and pattern of the field; those of items that are strings, the lists of items that are enums;
    the patterns of keys and values that are strings. *)
Definition field_tables (f : field) : list decl :=
  let typ o := match o with Some fr => fr_typ fr | None => None end in
  let re r := declare PatternTable (Some CcRE2) (pattern_of r) in
  match f_type f, fr_typ (f_rules f) with
  | FOne e, Some r => declare InTable (in_type e r) (in_of r) ++ declare NotInTable (in_type e r) (not_in_of r) ++ re r
  | FRep e, Some (RRepeated r) =>
      match typ (r_items r) with
      | Some (RString s) =>
          declare InTable (Some CcString) (in_of (RString s)) ++ declare NotInTable (Some CcString) (not_in_of (RString s)) ++ re (RString s)
      | Some (REnum s) => declare InTable (in_type e (REnum s)) (in_of (REnum s)) ++ declare NotInTable (in_type e (REnum s)) (not_in_of (REnum s))
      | _ => []
      end
  | FMap _ _, Some (RMap r) =>
      match typ (p_keys r) with Some (RString s) => re (RString s) | _ => [] end ++
      match typ (p_values r) with Some (RString s) => re (RString s) | _ => [] end
  | _, _ => []
  end.
(** The generator panics: in inType, and, in the code of the checks, in unwrap (register.go:402-412) for wrappers in lists and maps. *)
Definition bad_list (f : field) : bool :=
  match f_type f, fr_typ (f_rules f) with
  | FOne e, Some r => match in_type e r with None => is_some (in_of r) || is_some (not_in_of r) | Some _ => false end
  | _, _ => false
  end.

(** The tables that the code for rules refers to: inTpl (with else), anyTpl, durationTpl; stringTpl and bytesTpl for patterns. *)
Definition needs (r : rule_type) : list table :=
  match in_of r, not_in_of r with Some _, _ => [InTable] | None, Some _ => [NotInTable] | None, None => [] end ++
  match pattern_of r with Some _ => [PatternTable] | None => [] end.

(** A message of a file: the names of the messages it is in and its own, option ignored, and what is in it. *)
Record cc_msg := mkCcMsg { cm_path : path; cm_ignored : bool; cm_desc : msgdesc }.
Definition fields_of (m : cc_msg) : list field := md_fields (cm_desc m) ++ flat_map o_fields (md_oneofs (cm_desc m)).
Definition simple_name (m : cc_msg) : bytes := last (cm_path m) [].

Definition live (l : list cc_msg) : list cc_msg := filter (fun m => negb (cm_ignored m)) l.
Definition msg_tables (m : cc_msg) : list (bytes * (cctype * ccontent)) :=
  flat_map (fun f => map (fun d => (lookup (simple_name m) (bs (f_name f)) (fst d), snd d)) (field_tables f)) (fields_of m).
Definition fails (m : cc_msg) : bool :=
  existsb bad_list (fields_of m) || (negb (md_disabled (cm_desc m)) && existsb (fun f => existsb panics (parts f)) (fields_of m)).
(** The tables of a file, or none if the generator panics; and the references to tables, with what they are for. *)
Definition file_tables (l : list cc_msg) : option (list (bytes * (cctype * ccontent))) :=
  if existsb fails (live l) then None else Some (flat_map msg_tables (live l)).
Definition msg_needs (m : cc_msg) : list (bytes * (field * (pos * etype * rule_type) * table)) :=
  if md_disabled (cm_desc m) then []
  else flat_map (fun f => flat_map (fun x => map (fun t => (lookup (simple_name m) (bs (f_name f)) t, (f, x, t))) (needs (snd x))) (parts f)) (fields_of m).
Definition file_needs (l : list cc_msg) := flat_map msg_needs (live l).
