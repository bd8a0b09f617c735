(** The names that protoc gives to Java classes and methods, as documented for protoc-gen-java (protobuf 3). *)
From Verif Require Import Base JavaName.
Local Open Scope N_scope.

(** CamelCase: small letters become capital ones at the beginning and after anything but a letter; capital letters and digits
    stay; the rest is dropped. *)
Fixpoint java_camel (cap : bool) (s : bytes) : bytes :=
  match s with
  | [] => []
  | c :: t =>
      if lowerb c then (if cap then c - 32 else c) :: java_camel false t
      else if upperb c then c :: java_camel false t
      else if digitb c then c :: java_camel true t
      else java_camel true t
  end.

(** A type of the file has the name, at any depth. *)
Fixpoint msg_named (n : bytes) (m : jmsg) : bool :=
  match m with JMsg name _ enums nested => bytes_eqb name n || existsb (msg_named n) nested || existsb (bytes_eqb n) enums end.
Definition file_has (n : bytes) (f : jfile) : bool :=
  existsb (bytes_eqb n) (jf_enums f) || existsb (bytes_eqb n) (jf_services f) || existsb (msg_named n) (jf_msgs f).

(** A top-level type of the file has the name. *)
Definition top_has (n : bytes) (f : jfile) : bool :=
  existsb (bytes_eqb n) (jf_enums f) || existsb (fun m => bytes_eqb (jm_name m) n) (jf_msgs f) || existsb (bytes_eqb n) (jf_services f).

(** The name of the file without directories and ".proto". *)
Definition proto_base (s : bytes) : bytes := trim_suffix (base s) (bs ".proto").
(** The outer class: the option java_outer_classname, or the name of the file in CamelCase, with "OuterClass" after it if some
    type in the file has that name. *)
Definition outer_class (f : jfile) : bytes :=
  match jf_options f with
  | Some (mkJOptions _ (Some o) _) => o
  | _ => let n := java_camel true (proto_base (jf_name f)) in if file_has n f then n ++ bs "OuterClass" else n
  end.
(** The package: the option java_package, or the package of the file. *)
Definition package_of (f : jfile) : bytes :=
  match jf_options f with Some (mkJOptions _ _ (Some p)) => p | _ => jf_package f end.
(** The top-level class in which the class of a message is, and the canonical name of that class. *)
Definition multiple_files (f : jfile) : bool := match jf_options f with Some o => jo_multi o | None => false end.
Definition top_class (f : jfile) (p : path) : bytes :=
  full_name (package_of f) (if multiple_files f then hd [] p else outer_class f).
Definition message_class (f : jfile) (p : path) : bytes :=
  if multiple_files f then full_name (package_of f) (hd [] p) ++ dotted (tl p)
  else full_name (package_of f) (outer_class f) ++ dotted p.
Definition has_message (f : jfile) (p : path) : Prop := exists i, In (p, i) (all_messages f).

(** A letter or underscore, then letters, digits and underscores. *)
Definition ident_char (c : N) : bool := letterb c || digitb c || (c =? 95).
Definition identifier (s : bytes) : bool :=
  match s with c :: t => (letterb c || (c =? 95)) && forallb ident_char t | [] => false end.

(** No small letter at the beginning ([d]) and after a digit. *)
Fixpoint keeps (d : bool) (s : bytes) : bool :=
  match s with [] => true | c :: t => negb (d && lowerb c) && keeps (digitb c) t end.
(** A word (after the beginning or anything but a letter) that starts with a single small letter, a capital letter, and no small letter. *)
Fixpoint odd (w : bool) (s : bytes) : bool :=
  match s with
  | [] => false
  | a :: t => (w && lowerb a && head_is upperb t && negb (head_is lowerb (tl t))) || odd (negb (letterb a)) t
  end.
(** The name is not taken for one with underscores: it does not have "Underscore" before an underscore or three times in a row. *)
Definition unambiguous (s : bytes) : Prop :=
  ~ (exists a b, s = a ++ bs "Underscore_" ++ b) /\ ~ (exists a b, s = a ++ bs "UnderscoreUnderscoreUnderscore" ++ b).

(** What protobuf guarantees of a file. *)
Record proper (f : jfile) : Prop := mkProper {
  pf_distinct : NoDup (map fst (all_messages f));
  pf_names : forall p n, has_message f p -> In n p -> identifier n = true;
  pf_outer : identifier (outer_class f) = true }.

(** What javac asks of the classes generated for a file, besides the code in the methods: the package has a name; the classes
    that they mention exist, those of which instances are made in the class itself; the classes in a package or inside of a class have different names. *)
Definition mentions (f : jfile) (q : bytes) : Prop := exists p, has_message f p /\ q = message_class f p.
Record compiles (f : jfile) (cs : list vclass) : Prop := mkCompiles {
  co_package : forall c, In c cs -> vc_package c <> [];
  co_distinct : NoDup (map vc_name cs);
  co_inner : forall c, In c cs -> NoDup (vc_name c :: map fst (vc_inner c));
  co_mentions : forall c q s, In c cs -> In (q, s) (vc_cases c) -> mentions f q;
  co_instances : forall c q s, In c cs -> In (q, s) (vc_cases c) ->
    In s (map fst (vc_inner c)) \/ (vc_self c <> None /\ s = vc_name c) }.

(** The getters.  protoc changes the names of some fields, which ones depends on the release; [class] is one of them in all:
    it gets an underscore behind. *)
Definition getter (name : bytes) (l : label) : bytes :=
  bs "get" ++ java_camel true name ++ match l with Single => [] | Repeated => bs "List" | Map => bs "Map" end.
Definition has_method (name : bytes) : bytes := bs "has" ++ java_camel true name.
Definition case_method (oneof : bytes) : bytes := bs "get" ++ java_camel true oneof ++ bs "Case".
