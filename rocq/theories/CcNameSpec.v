(** The names that protoc gives in C++, and what a C++ compiler asks of the tables. *)
From Verif Require Import Base Num Rules Types JavaName JavaNameSpec JavaConst JavaConstSpec CcName.
Local Open Scope N_scope.

(** ** Names of protoc-gen-cpp (protobuf 3) *)
Definition keywords : list bytes := map bs
  ["NULL"; "alignas"; "alignof"; "and"; "and_eq"; "asm"; "auto"; "bitand"; "bitor"; "bool"; "break"; "case"; "catch"; "char"; "class"; "compl";
   "const"; "constexpr"; "const_cast"; "continue"; "decltype"; "default"; "delete"; "do"; "double"; "dynamic_cast"; "else"; "enum"; "explicit";
   "export"; "extern"; "false"; "float"; "for"; "friend"; "goto"; "if"; "inline"; "int"; "long"; "mutable"; "namespace"; "new"; "noexcept";
   "not"; "not_eq"; "nullptr"; "operator"; "or"; "or_eq"; "private"; "protected"; "public"; "register"; "reinterpret_cast"; "return"; "short";
   "signed"; "sizeof"; "static"; "static_assert"; "static_cast"; "struct"; "switch"; "template"; "this"; "thread_local"; "throw"; "true"; "try";
   "typedef"; "typeid"; "typename"; "union"; "unsigned"; "using"; "virtual"; "void"; "volatile"; "wchar_t"; "while"; "xor"; "xor_eq"]%string.
(** The methods of a field have its name in small letters; those of keywords get an underscore at the end. *)
Definition small (n : bytes) : bytes := map loc n.
Definition cpp_name (n : bytes) : bytes := if existsb (bytes_eqb (small n)) keywords then small n ++ [95] else small n.
Definition cpp_getter (n : bytes) : bytes := bs "m." ++ cpp_name n ++ bs "()".
Definition cpp_has (n : bytes) : bytes := bs "m.has_" ++ cpp_name n ++ bs "()".
(** The enum for the cases of a oneof and its constants, in CamelCase. *)
Definition cpp_case_type (oneof : bytes) : bytes := java_camel true oneof ++ bs "Case".
Definition cpp_case_constant (field : bytes) : bytes := bs "k" ++ java_camel true field.
(** The namespaces are the parts of the package; a class has the names of the messages around it. *)
Fixpoint names_joined (l : path) : bytes := match l with [] => [] | [a] => a | a :: l => a ++ bs "_" ++ names_joined l end.
Definition cpp_class (pkg : list bytes) (p : path) : bytes := flat_map (fun n => bs "::" ++ n) pkg ++ bs "::" ++ names_joined p.
Fixpoint dotted_package (l : list bytes) : bytes := match l with [] => [] | [a] => a | a :: l => a ++ bs "." ++ dotted_package l end.

(** Each underscore is before a small letter, and none at the beginning. *)
Fixpoint tidy (s : bytes) : bool := match s with [] => true | c :: t => negb ((c =? 95) && negb (head_is lowerb t)) && tidy t end.
Definition tidy_name (s : bytes) : bool := negb (head_is (N.eqb 95) s) && tidy s.

(** ** Tables *)

(** The value of in, not_in or pattern. *)
Definition table_value (r : rule_type) (t : table) : option ccontent :=
  let re o := match o with Some p => Some (XPattern p) | None => None end in
  match r, t with
  | RNum _ r, InTable => Some (XNums (n_in r)) | RNum _ r, NotInTable => Some (XNums (n_not_in r))
  | RString r, InTable => Some (XStrings (s_in r)) | RString r, NotInTable => Some (XStrings (s_not_in r)) | RString r, PatternTable => re (s_pattern r)
  | RBytes r, InTable => Some (XBytes (b_in r)) | RBytes r, NotInTable => Some (XBytes (b_not_in r)) | RBytes r, PatternTable => re (b_pattern r)
  | REnum r, InTable => Some (XEnums (e_in r)) | REnum r, NotInTable => Some (XEnums (e_not_in r))
  | RAny r, InTable => Some (XStrings (a_in r)) | RAny r, NotInTable => Some (XStrings (a_not_in r))
  | RDuration r, InTable => Some (XTimes (d_in r)) | RDuration r, NotInTable => Some (XTimes (d_not_in r))
  | _, _ => None
  end.
(** The C++ type of the values that are looked up. *)
Definition getter_type (e : etype) : option cctype :=
  match e with
  | TNum KFloat => Some CcFloat | TNum KDouble => Some CcDouble
  | TNum (KInt32 | KSInt32 | KSFixed32) => Some CcInt32 | TNum (KInt64 | KSInt64 | KSFixed64) => Some CcInt64
  | TNum (KUInt32 | KFixed32) => Some CcUInt32 | TNum (KUInt64 | KFixed64) => Some CcUInt64
  | TString | TBytes | TAny | TWrap WkString => Some CcString
  | TDur => Some CcDuration | TEnum n => Some (CcEnum n)
  | _ => None
  end.
Definition table_type (e : etype) (t : table) : option cctype := match t with PatternTable => Some CcRE2 | _ => getter_type e end.

(** The rules whose tables exist: in and not_in of fields and of items that are strings or enums, pattern of fields and of strings. *)
Definition has_table (p : pos) (r : rule_type) (t : table) : Prop :=
  p = AtField \/
  match t, p, r with
  | PatternTable, _, RString _ => True
  | (InTable | NotInTable), AtItem, (RString _ | REnum _) => True
  | _, _, _ => False
  end.

(** The messages of a file that are not ignored, the name of a message, and its fields, in oneofs or not. *)
Definition kept (l : list cc_msg) : list cc_msg := filter (fun m => negb (cm_ignored m)) l.
Definition own_name (m : cc_msg) : bytes := last (cm_path m) [].
Definition own_fields (m : cc_msg) : list field := md_fields (cm_desc m) ++ flat_map o_fields (md_oneofs (cm_desc m)).

(** Names as the style guide has them: within a file no two messages have the same name, at any depth, up to the Go spelling, which has
    no underscore; the fields of a message are different in proto3, and none begins with an underscore. *)
Definition file_names (l : list cc_msg) : Prop :=
  NoDup (map (fun m => pgg (own_name m)) l) /\
  (forall m, In m l -> ~ In 95 (pgg (own_name m))) /\
  (forall m, In m l -> NoDup (map (fun f => squash (bs (f_name f))) (own_fields m))) /\
  (forall m f, In m l -> In f (own_fields m) -> identifier (bs (f_name f)) = true /\ head_is (N.eqb 95) (bs (f_name f)) = false).
(** Patterns for both the keys and the values of a map. *)
Definition has_string_pattern (o : option field_rules) : Prop := exists m r p, o = Some (FR m (Some (RString r))) /\ s_pattern r = Some p.
Definition two_patterns (f : field) : Prop :=
  exists k v r, f_type f = FMap k v /\ fr_typ (f_rules f) = Some (RMap r) /\ has_string_pattern (p_keys r) /\ has_string_pattern (p_values r).
Definition file_rules_for (l : list cc_msg) : Prop :=
  forall m f p e r, In m l -> In f (own_fields m) -> In (p, e, r) (parts f) -> rule_for e r.

(** Lists for the value of a wrapper other than StringValue. *)
Definition wrapper_list (f : field) : Prop :=
  exists w r, f_type f = FOne (TWrap w) /\ fr_typ (f_rules f) = Some r /\ w <> WkString /\
    match r with
    | RNum _ r => n_in r <> [] \/ n_not_in r <> []
    | RBytes r => b_in r <> [] \/ b_not_in r <> []
    | _ => False
    end.
(** A pattern for keys or values of a map that are strings. *)
Definition one_pattern (f : field) : Prop :=
  exists k v r, f_type f = FMap k v /\ fr_typ (f_rules f) = Some (RMap r) /\ (has_string_pattern (p_keys r) \/ has_string_pattern (p_values r)).
(** The rule has a list, or a pattern; not_in is only looked at without in. *)
Definition not_empty (c : ccontent) : Prop :=
  match c with XNums l => l <> [] | XStrings l | XBytes l => l <> [] | XEnums l => l <> [] | XTimes l => l <> [] | XPattern _ => True end.
Definition has_value (r : rule_type) (t : table) : Prop := exists v, table_value r t = Some v /\ not_empty v.
Definition looks_up (r : rule_type) (t : table) : Prop := has_value r t /\ (t = NotInTable -> ~ has_value r InTable).
