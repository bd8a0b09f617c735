(** The import block of a generated Go file, and the enum types that the code of the file names:
    templates/go/file.go:8-43 and externalEnums, enumPackages (templates/goshared/register.go:304-326). *)
From Verif Require Import Base Num Rules Types Time Iface Checker GoIR GoGen.

(** Where an entity is declared: ImportPath, PackageName (pgsgo) and Package().ProtoName(). *)
Record place := Place { pl_path : string; pl_pkg : string; pl_proto : string }.

Section File.
Local Open Scope string_scope.
(** Where the enums are declared, and where the file is. *)
Variable loc : string -> place.
Variable here : place.

(** importableTypeName of pgsgo (as of v0.5.3): the name of a type is preceded by that of its package if
    the import paths differ. *)
Definition qualifier (e : string) : option string :=
  if String.eqb (pl_path (loc e)) (pl_path here) then None else Some (pl_pkg (loc e)).

(** externalEnums, register.go:304-316.  IsEnum is false for repeated fields and maps.  [msgs]: AllMessages(). *)
Definition external_enum (f : field) : list string :=
  match f_type f with
  | FOne (TEnum e) =>
      if negb (String.eqb (pl_proto (loc e)) (pl_proto here)) && negb (String.eqb (pl_pkg (loc e)) (pl_pkg here)) then [e] else []
  | _ => []
  end.
Definition external_enums (msgs : list msgdesc) : list string := flat_map external_enum (flat_map all_fields msgs).

(** enumPackages, register.go:318-326: a Go map from paths to names. *)
Fixpoint put (path name : string) (l : list (string * string)) : list (string * string) :=
  match l with
  | [] => [(path, name)]
  | (p, n) :: t => if String.eqb p path then (p, name) :: t else (p, n) :: put path name t
  end.
Definition enum_packages (es : list string) : list (string * string) :=
  fold_left (fun l e => put (pl_path (loc e)) (pl_pkg (loc e)) l) es [].

(** The imports, file.go:8-25: name and path. *)
Definition fixed_imports : list (string * string) :=
  [("bytes", "bytes"); ("errors", "errors"); ("fmt", "fmt"); ("net", "net"); ("mail", "net/mail"); ("url", "net/url");
   ("regexp", "regexp"); ("strings", "strings"); ("time", "time"); ("utf8", "unicode/utf8");
   ("anypb", "google.golang.org/protobuf/types/known/anypb")].
Definition imports (msgs : list msgdesc) : list (string * string) :=
  fixed_imports ++ map (fun p => (snd p, fst p)) (enum_packages (external_enums msgs)).

(** * The enum types in the code

    Each with the local names that are in scope there. *)
Fixpoint cond_enums (c : cond) : list string :=
  match c with
  | CUndefined e => [e]                                        (* E_name[..], enum.go:9 *)
  | COr a b | CAnd a b => cond_enums a ++ cond_enums b
  | _ => []
  end.
(** [elem]: the type of the items if it is an enum, which is named in the set of items seen (repeated.go:42). *)
Fixpoint stmt_enums (elem : option string) (env : list string) (s : stmt) : list (list string * string) :=
  match s with
  | SSkip | SFail _ | SEmbed _ _ _ | SBad => []
  | SSeq a b => stmt_enums elem env a ++ stmt_enums elem env b
  | SIf _ c a b => map (pair env) (cond_enums c) ++ stmt_enums elem env a ++ stmt_enums elem env b
  | SBind x _ a b => stmt_enums elem (x :: env) a ++ stmt_enums elem (x :: env) b
  | STry _ x _ a b => stmt_enums elem (x :: "err" :: env) a ++ stmt_enums elem (x :: "err" :: env) b
  | SLet x _ a => stmt_enums elem (x :: env) a
  | SMakeSet x a => match elem with Some e => [(env, e)] | None => [] end ++ stmt_enums elem (x :: env) a
  | SUnique _ _ _ a => stmt_enums elem ("exists" :: env) a
  | SForSlice i x _ a => stmt_enums elem (i :: x :: env) a
  | SForMap k v _ a => stmt_enums elem (k :: v :: env) a
  end.
Definition item_enum (t : ftype) : option string := match t with FRep (TEnum e) => Some e | _ => None end.
(** In validate the receiver, its parameter and the list of errors are in scope, msg.go:24-30. *)
Definition field_enums (mn : string) (f : field) : list (list string * string) :=
  stmt_enums (item_enum (f_type f)) ["errors"; "all"; "m"] (field_tpl mn f).
(** The key types of the package-level sets of an enum's values, msg.go:136-150, 172-190: inType, register.go:212-232, which
    [field_decls] of GoGen.v gives to them too. *)
Definition set_enums (f : field) : list string :=
  let sets r := match e_in r, e_not_in r, in_type (f_type f) GI32 with
                | [], [], _ => []
                | _, _, GEnum e => [e]
                | _, _, _ => []
                end in
  match fr_typ (f_rules f) with
  | Some (REnum r) => sets r
  | Some (RRepeated q) => match enum_rules_of (r_items q) with Some r => sets r | None => [] end
  | _ => []
  end.
Definition msg_enums (d : msgdesc) : list (list string * string) :=
  match md_methods d with
  | MNone => []
  | _ => (if md_disabled d then [] else flat_map (field_enums (md_name d)) (all_fields d))
         ++ map (pair []) (flat_map set_enums (all_fields d))
  end.

(** * The Go compiler on these names

    A name denotes what is declared in the innermost scope.  [None]: a local variable, or nothing. *)
Fixpoint denotes (env : list string) (imps : list (string * string)) (q : string) : option string :=
  if existsb (String.eqb q) env then None
  else match imps with
       | [] => None
       | (n, p) :: t => if String.eqb n q then Some p else denotes env t q
       end.
(** The predeclared identifiers in the code of every message, msg.go:10-125.  (There are others in the code of some rules, such as "make" and
    "int32": a file that uses them must not import a package of that name either.  They are not followed here.) *)
Definition predeclared : list string := ["append"; "bool"; "error"; "nil"; "string"].
Definition ref_ok (imps : list (string * string)) (r : list string * string) : Prop :=
  match qualifier (snd r) with
  | None => True
  | Some q => denotes (fst r) imps q = Some (pl_path (loc (snd r)))
  end.
(** "redeclared in this block"; an import must not hide a predeclared identifier that the file uses; a package cannot
    import itself; file.go:40-42 mentions each external enum once as [pkg.Name(0)]; and all the types are found. *)
Record names_ok (msgs : list msgdesc) : Prop := mkNamesOk {
  no_redeclared : NoDup (map fst (imports msgs));
  no_hidden : Forall (fun i => ~ In (fst i) predeclared) (imports msgs);
  no_self : ~ In (pl_path here) (map snd (imports msgs));
  mentioned : Forall (fun e => denotes [] (imports msgs) (pl_pkg (loc e)) = Some (pl_path (loc e))) (external_enums msgs);
  types_found : Forall (ref_ok (imports msgs)) (flat_map msg_enums msgs) }.
(** No import without a use. *)
Definition all_used (msgs : list msgdesc) : Prop :=
  forall i, In i (imports msgs) -> In i fixed_imports \/ exists e, In e (external_enums msgs) /\ i = (pl_pkg (loc e), pl_path (loc e)).
End File.
