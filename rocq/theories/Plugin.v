(** A run of the plugin: module/validate.go, templates/pkg.go and the file names of templates/java/register.go and
    templates/cc/register.go.

    protoc-gen-star hands the module the files to generate for, as a map (so in any order), collects the artifacts that
    [Execute] returns, renders and writes them afterwards; [Assert] and [CheckErr] end the process with an error and
    without output. *)
From Verif Require Import Base Rules Types Checker Lit.

(** What [Execute] asks of a file. *)
Record pfile := mkFile {
  fl_name : bytes;                       (* f.Name() *)
  fl_top : list msgdesc;                 (* f.Messages() *)
  fl_nested : list msgdesc;              (* the rest of f.AllMessages() *)
  fl_deps : list bytes;                  (* f.Descriptor().Dependency: the direct imports *)
  fl_package : bytes;                    (* f.Package().ProtoName() *)
  fl_options : bool;                     (* GetOptions() != nil *)
  fl_multi : bool;                       (* GetJavaMultipleFiles() *)
  fl_java_package : option bytes }.      (* JavaPackage *)

(** What a template is executed on: a file or a message, with the rules as the checker left them. *)
Inductive subject := OnFile (f : pfile) | OnMessage (m : msgdesc).
(** AddGeneratorTemplateFile: the path, the template's name, and what it is executed on. *)
Record artifact := mkArtifact { at_path : bytes; at_tpl : bytes; at_on : subject }.

Section Plugin.
(** protoc-gen-star: FilePath.SetExt, JoinPaths, and Context.OutputPath of pgsgo. *)
Variable set_ext : bytes -> bytes -> bytes.
Variable join : bytes -> bytes -> bytes.
Variable go_path : pfile -> bytes.
(** classNameFile and classNameMessage, templates/java/register.go:147-177: they use the strcase library. *)
Variable class_file : pfile -> bytes.
Variable class_msg : string -> bytes.
Variable re_ok : bytes -> bool.
(** All messages and enums that the files may refer to. *)
Variable all : schema.

(** Template, templates/pkg.go:26-32: the names of the templates of a language. *)
Definition templates_of (lang : bytes) : option (list bytes) :=
  if bytes_eqb lang (bs "cc") then Some [bs "h"; bs "cc"]
  else if bytes_eqb lang (bs "go") then Some [bs "go"]
  else if bytes_eqb lang (bs "java") then Some [bs "java"]
  else None.

(** importsPvg, templates/java/register.go:138-145. *)
Definition imports_pgv (f : pfile) : bool := existsb (fun d => has_suffix d (bs "validate.proto")) (fl_deps f).
(** javaPackage, 190-197. *)
Definition java_package (f : pfile) : bytes :=
  match fl_options f, fl_java_package f with true, Some p => p | _, _ => fl_package f end.
Definition java_dir (f : pfile) : bytes := replace_all (java_package f) (bs ".") (bs "/").

(** FilePathFor, templates/pkg.go:34-49; CcFilePath, cc/register.go:110-114; JavaFilePath, java/register.go:120-130 (where
    the path separator is "/"). *)
Definition file_path (tpl : bytes) (f : pfile) : option bytes :=
  if bytes_eqb tpl (bs "h") || bytes_eqb tpl (bs "cc") then Some (set_ext (fl_name f) (bs ".pb.validate." ++ tpl))
  else if bytes_eqb tpl (bs "java")
  then if imports_pgv f then Some (join (java_dir f) (class_file f ++ bs "Validator.java")) else None
  else Some (set_ext (go_path f) (bs ".validate." ++ tpl)).

(** JavaMultiFilePath, 132-137. *)
Definition multi_path (f : pfile) (m : msgdesc) : bytes := join (java_dir f) (class_msg (md_name m) ++ bs "Validator.java").

(** validate.go:43-45: the checker on all messages of the file; it may fill in patterns. *)
Definition check_file (f : pfile) : option pfile :=
  match map_opt (check_msg re_ok all) (fl_top f), map_opt (check_msg re_ok all) (fl_nested f) with
  | Some top, Some nested =>
      Some (mkFile (fl_name f) top nested (fl_deps f) (fl_package f) (fl_options f) (fl_multi f) (fl_java_package f))
  | _, _ => None
  end.

(** 47-65: the artifacts of one file. *)
Definition file_artifacts (lang module : bytes) (tpls : list bytes) (f : pfile) : list artifact :=
  flat_map (fun tpl =>
    match file_path tpl f with
    | None => []
    | Some out =>
        if fl_options f && fl_multi f && bytes_eqb lang (bs "java")
        then map (fun m => mkArtifact (multi_path f m) tpl (OnMessage m)) (fl_top f)
        else [mkArtifact (out_path out module) tpl (OnFile f)]
    end) tpls.

(** Execute, 31-71.  [files]: the targets in the order of the iteration.  [None]: the plugin fails. *)
Definition execute (lang module : bytes) (files : list pfile) : option (list artifact) :=
  match lang with
  | [] => None
  | _ =>
      match templates_of lang with
      | None => None
      | Some tpls =>
          match map_opt check_file files with
          | Some fs => Some (flat_map (file_artifacts lang module tpls) fs)
          | None => None
          end
      end
  end.
End Plugin.
