(** The names in generated Java: templates/java/register.go:120-300, templates/java/file.go and msg.go, and how
    ReflectiveValidatorIndex looks them up.

    register.go uses github.com/iancoleman/strcase at 3605ed457bf7 (go.mod:6), which is not in /repo; its functions are modelled
    after the published source of that version.  All names are taken as ASCII, so that runes are bytes. *)
From Verif Require Import Base Lit.
Local Open Scope N_scope.

Definition upperb (c : N) : bool := (65 <=? c) && (c <=? 90).
Definition lowerb (c : N) : bool := (97 <=? c) && (c <=? 122).
Definition digitb (c : N) : bool := (48 <=? c) && (c <=? 57).
Definition letterb (c : N) : bool := upperb c || lowerb c.
(** unicode.ToUpper, strings.ToUpper and ToLower on ASCII. *)
Definition upc (c : N) : N := if lowerb c then c - 32 else c.
Definition loc (c : N) : N := if upperb c then c + 32 else c.
Definition head_is (p : N -> bool) (s : bytes) : bool := match s with c :: _ => p c | [] => false end.

(** ** strcase *)

(** addWordBoundariesToNumbers, numbers.go: each match of "([a-zA-Z])(\d+)([a-zA-Z]?)" becomes "$1 $2 $3".
    [d]: inside of the digits of a match. *)
Fixpoint boundaries (d : bool) (s : bytes) : bytes :=
  match s with
  | [] => if d then [32] else []
  | c :: t =>
      if d then if digitb c then c :: boundaries true t else 32 :: c :: boundaries false t
      else if letterb c && head_is digitb t then c :: 32 :: boundaries true t
      else c :: boundaries false t
  end.
(** strings.Trim(s, " "). *)
Definition trim (s : bytes) : bytes := rev (trim_left 32 (rev (trim_left 32 s))).

(** toCamelInitCase, camel.go. *)
Fixpoint camel (cap : bool) (s : bytes) : bytes :=
  match s with
  | [] => []
  | c :: t =>
      (if upperb c || digitb c then [c] else if lowerb c then [if cap then upc c else c] else []) ++
      camel ((c =? 95) || (c =? 32) || (c =? 45)) t
  end.
(** ToCamel. *)
Definition to_camel (s : bytes) : bytes := camel true (trim (boundaries false s)).

(** The loop of ToScreamingDelimited, snake.go, for the delimiter "_".  [last]: the last byte written so far, none at i = 0. *)
Fixpoint snake (last : option N) (s : bytes) : bytes :=
  match s with
  | [] => []
  | c :: t =>
      let changed := (upperb c && head_is lowerb t) || (lowerb c && head_is upperb t) in
      let inside := match last with Some l => negb (l =? 95) | None => false end in
      if inside && changed then if upperb c then 95 :: c :: snake (Some c) t else c :: 95 :: snake (Some 95) t
      else if (c =? 32) || (c =? 95) || (c =? 45) then 95 :: snake (Some 95) t
      else c :: snake (Some c) t
  end.
(** ToSnake. *)
Definition to_snake (s : bytes) : bytes := map loc (snake None (trim (boundaries false s))).

(** ** register.go *)

(** makeInvalidClassnameCharactersUnderscores, 227-243. *)
Definition valid_chars (s : bytes) : bytes := map (fun c => if digitb c || letterb c then c else 95) s.
(** upperCaseAfterNumber, 245-258.  [d]: the character before is a digit. *)
Fixpoint upper_after (d : bool) (s : bytes) : bytes :=
  match s with [] => [] | c :: t => (if d then upc c else c) :: upper_after (digitb c) t end.
(** underscoreBetweenConsecutiveUppercase, 260-273.  [u]: the character before is a capital letter. *)
Fixpoint split_upper (u : bool) (s : bytes) : bytes :=
  match s with [] => [] | c :: t => (if u && upperb c then [95; c] else [c]) ++ split_upper (upperb c) t end.
(** sanitizeClassName, 182-188. *)
Definition sanitize (s : bytes) : bytes := upper_after false (to_camel (to_snake (split_upper false (valid_chars s)))).

(** classNameMessage, 170-180. *)
Definition escape : bytes := bs "UnderscoreUnderscoreUnderscore".
Definition class_msg (name : bytes) : bytes := replace_all (sanitize (replace_all name [95] escape)) escape [95].

(** A message type with its nested types.  [ignored]: the option of validate.proto. *)
Inductive jmsg := JMsg (name : bytes) (ignored : bool) (enums : list bytes) (nested : list jmsg).
Definition jm_name (m : jmsg) : bytes := match m with JMsg n _ _ _ => n end.
Definition jm_ignored (m : jmsg) : bool := match m with JMsg _ i _ _ => i end.
Definition jm_nested (m : jmsg) : list jmsg := match m with JMsg _ _ _ l => l end.
(** FileOptions: java_multiple_files, java_outer_classname, java_package. *)
Record joptions := mkJOptions { jo_multi : bool; jo_outer : option bytes; jo_package : option bytes }.
Record jfile := mkJFile {
  jf_name : bytes; jf_package : bytes; jf_options : option joptions; jf_deps : list bytes;
  jf_enums : list bytes; jf_services : list bytes; jf_msgs : list jmsg }.

(** FilePath.BaseName of protoc-gen-star: the last element of the path without what follows its last dot. *)
Definition base (s : bytes) : bytes := last (split_on 47 s) [].
Fixpoint cut_ext (s : bytes) : bytes :=
  match s with
  | [] => []
  | c :: t => if existsb (N.eqb 46) t then c :: cut_ext t else if c =? 46 then [] else c :: cut_ext t
  end.

(** importsPvg, 139-146. *)
Definition imports (f : jfile) : bool := existsb (fun d => has_suffix d (bs "validate.proto")) (jf_deps f).
Definition multi (f : jfile) : bool := match jf_options f with Some o => jo_multi o | None => false end.
(** appendOuterClassName, 275-302: top-level types only. *)
Definition append_outer (name : bytes) (f : jfile) : bytes :=
  if existsb (bytes_eqb name) (jf_enums f) || existsb (fun m => bytes_eqb (jm_name m) name) (jf_msgs f) || existsb (bytes_eqb name) (jf_services f)
  then name ++ bs "OuterClass" else name.
(** classNameFile, 148-162. *)
Definition class_file (f : jfile) : bytes :=
  match jf_options f with
  | Some (mkJOptions false (Some o) _) => o
  | _ => append_outer (sanitize (cut_ext (base (jf_name f)))) f
  end.
(** javaPackage, 190-197. *)
Definition java_pkg (f : jfile) : bytes :=
  match jf_options f with Some (mkJOptions _ _ (Some p)) => p | _ => jf_package f end.

(** A message type is named by the names on the way to it, beginning with a message of the file. *)
Definition path := list bytes.
(** The types below a message at the path [p], with the option [ignored]: Message.AllMessages. *)
Fixpoint below (p : path) (m : jmsg) : list (path * bool) :=
  match m with JMsg _ _ _ l =>
    map (fun n => (p ++ [jm_name n], jm_ignored n)) l ++ flat_map (fun n => below (p ++ [jm_name n]) n) l
  end.
(** File.AllMessages. *)
Definition all_messages (f : jfile) : list (path * bool) :=
  map (fun m => ([jm_name m], jm_ignored m)) (jf_msgs f) ++ flat_map (fun m => below [jm_name m] m) (jf_msgs f).

Definition dotted (l : list bytes) : bytes := flat_map (fun n => 46 :: n) l.
(** qualifiedName of a message, 199-224. *)
Definition qualified (f : jfile) (p : path) : bytes :=
  java_pkg f ++ (if multi f then [] else 46 :: class_file f) ++ dotted p.

Section Generated.
(** simpleName: Context.Name of pgsgo, the name of the Go type. *)
Variable simple : path -> bytes.
Definition validator (n : bytes) : bytes := n ++ bs "Validator".

(** A generated class: its name; the lines "if (clazz.equals(Q.class)) return new S();" of validatorFor, as pairs of [Q] and [S];
    the static classes inside with the message types whose rules they check; and, if the class itself checks the rules of a
    message type, that type. *)
Record vclass := mkVClass { vc_package : bytes; vc_name : bytes; vc_cases : list (bytes * bytes); vc_inner : list (bytes * path); vc_self : option path }.

Definition named (l : list (path * bool)) : list path := map fst (filter (fun x => negb (snd x)) l).
Definition cases (f : jfile) (l : list path) : list (bytes * bytes) := map (fun p => (qualified f p, validator (simple p))) l.
(** fileTpl for a file, file.go:9-26, with msgTpl, msg.go:3-12. *)
Definition file_class (f : jfile) : vclass :=
  let l := named (all_messages f) in
  mkVClass (java_pkg f) (validator (class_file f)) (cases f l) (map (fun p => (validator (simple p), p)) l) None.
(** fileTpl for a message, file.go:28-43: whether the message itself is ignored is not asked. *)
Definition msg_class (f : jfile) (m : jmsg) : vclass :=
  let l := named (below [jm_name m] m) in
  mkVClass (java_pkg f) (validator (class_msg (jm_name m))) (cases f ([jm_name m] :: l)) (map (fun p => (validator (simple p), p)) l) (Some [jm_name m]).
(** JavaFilePath, 121-131, and module/validate.go:47-65: the classes for a file. *)
Definition classes (f : jfile) : list vclass :=
  if imports f then if multi f then map (msg_class f) (jf_msgs f) else [file_class f] else [].
End Generated.

(** ** reflectiveValidatorFor, ReflectiveValidatorIndex.java:41-53, for the message class with the canonical name [canonical] inside of
    the top-level class [top].  The result: the validator for a type; null; or an exception, after which the fallback is asked. *)
Inductive finds := Finds (p : path) | Null | Throws.
Definition full_name (pkg name : bytes) : bytes := match pkg with [] => name | _ => pkg ++ 46 :: name end.
Definition instance (c : vclass) (s : bytes) : finds :=
  match find (fun i => bytes_eqb (fst i) s) (vc_inner c) with
  | Some (_, p) => Finds p
  | None => match vc_self c with Some p => if bytes_eqb (vc_name c) s then Finds p else Null | None => Null end
  end.
Definition reflective (cs : list vclass) (top canonical : bytes) : finds :=
  match find (fun c => bytes_eqb (full_name (vc_package c) (vc_name c)) (validator top)) cs with
  | None => Throws
  | Some c =>
      match find (fun q => bytes_eqb (fst q) canonical) (vc_cases c) with
      | None => Null
      | Some (_, s) => instance c s
      end
  end.

(** ** The accessors of fields and oneofs *)

(** fieldAccessor, 311-323, and hasAccessor, 325-332. *)
Inductive label := Single | Repeated | Map.
Definition field_accessor (name : bytes) (l : label) : bytes :=
  bs "proto.get" ++ upper_after false (to_camel name ++ match l with Single => [] | Repeated => bs "List" | Map => bs "Map" end) ++ bs "()".
Definition has_accessor (name : bytes) : bytes := bs "proto.has" ++ upper_after false (to_camel name) ++ bs "()".
(** oneOfTpl, oneof.go:8-9, with camelCase, 452-454, and oneofTypeName, 479-481. *)
Definition case_accessor (oneof : bytes) : bytes := bs "proto.get" ++ to_camel oneof ++ bs "Case()".
Definition case_label (field : bytes) : bytes := map upc field.
