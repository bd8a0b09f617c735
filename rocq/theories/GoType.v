(** When does the emitted Go compile?  The rules of the Go language specification (scopes of
    locals, unused locals, redeclarations, assignability, comparisons, constants) for the
    statements of [GoIR], and what a package generated for a schema must satisfy.

    Nothing here runs the templates or the code: a statement is judged from its syntax, the
    types of the message's fields and the package-level declarations. *)
From Coq Require Import Floats.SpecFloat.
From Verif Require Import Base Num Rules Types Time GoIR GoGen GoSem.
Local Open Scope string_scope.

(** * Types *)

(** The Go type that protoc-gen-go gives to a field or element. *)
Definition go_type (e : etype) : gty :=
  match e with
  | TNum k =>
      match k with
      | KFloat => GF32 | KDouble => GF64
      | KInt32 | KSInt32 | KSFixed32 => GI32
      | KInt64 | KSInt64 | KSFixed64 => GI64
      | KUInt32 | KFixed32 => GU32
      | KUInt64 | KFixed64 => GU64
      end
  | TBool => GBool | TString => GString | TBytes => GBytes
  | TEnum n => GEnum n
  | TMsg _ | TWrap _ | TAny | TDur | TTs => GPtr e
  end.
Definition go_ftype (t : ftype) : gty :=
  match t with FOne e => go_type e | FRep e => GSlice e | FMap k v => GMap k v end.

(** Types whose values can be compared with [nil]. *)
Definition nilable (t : gty) : Prop :=
  match t with GPtr _ | GBytes | GSlice _ | GMap _ _ | GUrl | GError => True | _ => False end.

(** Types that can be map keys. *)
Definition comparable (t : gty) : Prop :=
  match t with GBytes | GSlice _ | GMap _ _ => False | _ => True end.

(** Types that [len] applies to. *)
Definition has_len (t : gty) : Prop :=
  match t with GString | GBytes | GSlice _ | GMap _ _ => True | _ => False end.

Definition is_text (t : gty) : Prop := match t with GString | GBytes => True | _ => False end.

(** A literal that is a constant of a numeric type.  Values of float32 rules are float32
    values, so only NaN and the infinities (which have no literal) can fail. *)
Definition lit_fits (t : gty) (n : num) : Prop :=
  match t, n with
  | GI32, NI z => (- 2^31 <= z < 2^31)%Z
  | GI64, NI z => (- 2^63 <= z < 2^63)%Z
  | GU32, NI z => (0 <= z < 2^32)%Z
  | GU64, NI z => (0 <= z < 2^64)%Z
  | (GF32 | GF64), NF (S754_zero _ | S754_finite _ _ _) => True
  | _, _ => False
  end.
Definition int_fits (n : N) : Prop := (n < 2^63)%N.
Definition enum_fits (z : Z) : Prop := (- 2^31 <= z < 2^31)%Z.

(** * Package-level declarations *)

(** A constant key of a map literal. *)
Definition key_fits (t : gty) (v : value) : Prop :=
  match v with
  | VNum n => lit_fits t n
  | VStr _ => t = GString
  | VEnum z => (exists e, t = GEnum e) /\ enum_fits z
  | _ => False
  end.

(** A declaration that compiles: a map literal has a comparable key type and distinct constant
    keys of that type. *)
Definition decl_ok (d : pkgvar) : Prop :=
  match d with
  | DSet k l => comparable k /\ Forall (key_fits k) l /\ NoDup l
  | DDurSet k l => k = GDuration /\ NoDup l
  | DRegex _ | DType => True
  | DBadSet => False
  end.

(** * Names *)

(** Locals: ordinary ones, and the set of the values seen so far of a unique list. *)
Inductive local := LVar (t : gty) | LSet.

(** The names a statement declares in the block it stands in.  Bodies of [if], [else] and
    [for] are blocks of their own. *)
Fixpoint declares (s : stmt) : list string :=
  match s with
  | SSeq a b => declares a ++ declares b
  | SFail _ => ["err"]
  | SLet x _ s => x :: declares s
  | SMakeSet x s => x :: declares s
  | _ => []
  end.

(** Does a statement use the local [x] that is in scope where it starts? *)
Definition acc_uses (x : string) (a : access) : bool :=
  match a with AField _ => false | AVar y | AUnwrap y | AUrl y => String.eqb x y end.
Definition texp_uses (x : string) (t : texp) : bool :=
  match t with TLocal y => String.eqb x y | TAdd y _ d => String.eqb x y || String.eqb x d end.
Fixpoint cond_uses (x : string) (c : cond) : bool :=
  match c with
  | CDur _ y => String.eqb x y
  | CSub _ t => texp_uses x t
  | COr a b | CAnd a b => cond_uses x a || cond_uses x b
  | _ => false
  end.
Definition err_uses (x : string) (e : errspec) : bool :=
  match es_ix e with Some y => String.eqb x y | None => false end || (es_cause e && String.eqb x "err").
Fixpoint uses (x : string) (s : stmt) : bool :=
  match s with
  | SSkip | SBad => false
  | SSeq a b => uses x a || uses x b
  | SFail e => err_uses x e
  | SIf a c s1 s2 => acc_uses x a || cond_uses x c || uses x s1 || uses x s2
  | SBind y a s1 s2 => acc_uses x a || (negb (String.eqb x y) && (uses x s1 || uses x s2))
  | STry _ y a s1 s2 =>
      acc_uses x a || (negb (String.eqb x y) && negb (String.eqb x "err") && (uses x s1 || uses x s2))
  | SLet y _ s => negb (String.eqb x y) && uses x s
  | SMakeSet y s => negb (String.eqb x y) && uses x s
  | SUnique y _ a s => String.eqb x y || acc_uses x a || uses x s
  | SForSlice i y a s =>
      acc_uses x a || (negb (String.eqb x i) && negb (String.eqb x y) && uses x s)
  | SForMap k v a s =>
      acc_uses x a || (negb (String.eqb x k) && negb (String.eqb x v) && uses x s)
  | SEmbed a _ e => acc_uses x a || (negb (String.eqb x "err") && err_uses x e)
  end.

(** * Statements *)

Section Static.
Variable fields : list (string * gty).       (* types of [m.GetF()] *)
Variable decls : list (string * pkgvar).     (* package level *)
Variable enums : list string.                (* [E_name] exists *)
Variable helpers : list callee.              (* methods of the message: [_validateHostname], .. *)

Definition var_ty (G : list (string * local)) (x : string) : option gty :=
  match assoc x G with Some (LVar t) => Some t | _ => None end.

(** A local hides a package-level name. *)
Definition pkg_ref (G : list (string * local)) (x : string) : option pkgvar :=
  match assoc x G with None => assoc x decls | Some _ => None end.

(** The type of an access.  Simplification: [x.GetTypeUrl()] is typed for Any only (an
    ordinary message with a string field [type_url] has that method too). *)
Definition acc_ty (G : list (string * local)) (a : access) : option gty :=
  match a with
  | AField f => assoc f fields
  | AVar x => var_ty G x
  | AUnwrap x =>
      match var_ty G x with Some (GPtr (TWrap w)) => Some (go_type (wrapped_type w)) | _ => None end
  | AUrl x => match var_ty G x with Some (GPtr TAny) => Some GString | _ => None end
  end.

Definition texp_ok (G : list (string * local)) (t : texp) : Prop :=
  match t with
  | TLocal x => var_ty G x = Some GTime
  | TAdd x _ d => var_ty G x = Some GTime /\ var_ty G d = Some GDuration
  end.

(** [X[acc]], or [X[string(acc)]]. *)
Definition member_ok (G : list (string * local)) (t : gty) (x : string) (conv : bool) : Prop :=
  exists d, pkg_ref G x = Some d /\
    match d with
    | DSet k _ | DDurSet k _ => if conv then t = GBytes /\ k = GString else t = k
    | DBadSet => True                (* reported where it is declared *)
    | DRegex _ | DType => False
    end.

(** A condition on a value of type [t]. *)
Fixpoint cond_ok (G : list (string * local)) (t : gty) (c : cond) : Prop :=
  match c with
  | CNum _ n => lit_fits t n
  | CBoolNe _ => t = GBool
  | CEnumNe z => (exists e, t = GEnum e) /\ enum_fits z
  | CStrNe _ => t = GString
  | CBytNe _ => t = GBytes
  | CLen _ n => has_len t /\ int_fits n
  | CRunes _ n => t = GString /\ int_fits n
  | CNoPrefix _ | CNoSuffix _ | CNoContains _ | CContains _ => is_text t
  | CNotInSet x conv | CInSet x conv => member_ok G t x conv
  | CUndefined e => (exists e', t = GEnum e') /\ In e enums
  | CBadIpStr _ => t = GString
  | CBadIpByt _ => t = GBytes
  | CNoMatch x => is_text t /\ exists p, pkg_ref G x = Some (DRegex p)
  | CNil => nilable t
  | CNotAbs => t = GUrl
  | CDurNe z => t = GDuration /\ z <> None
  | CDur _ x => t = GDuration /\ var_ty G x = Some GDuration
  | CTsNe _ => t = GTime
  | CSub _ e => t = GTime /\ texp_ok G e
  | COr a b | CAnd a b => cond_ok G t a /\ cond_ok G t b
  end.

(** [MValidationError{field: .., key: fmt.Sprintf(.., ix), cause: err}]. *)
Definition err_ok (G : list (string * local)) (e : errspec) : Prop :=
  pkg_ref G (es_msg e ++ "ValidationError") = Some DType /\
  (forall x, es_ix e = Some x -> var_ty G x <> None) /\
  (es_cause e = true -> var_ty G "err" = Some GError).

(** Argument, and result other than the error, of a call. *)
Definition call_ty (f : callee) (t : gty) : option (option gty) :=
  match f, t with
  | (FHostname | FEmail | FUuid), GString => Some None
  | FUrl, GString => Some (Some GUrl)
  | FDuration, GPtr TDur => Some (Some GDuration)
  | FTime, GPtr TTs => Some (Some GTime)
  | _, _ => None
  end.
Definition is_helper (f : callee) : Prop :=
  match f with FHostname | FEmail | FUuid => True | _ => False end.

Definition rhs_ty (r : rhs) : gty := match r with RhsDur _ => GDuration | RhsTs _ | RhsNow => GTime end.
Definition rhs_ok (r : rhs) : Prop := match r with RhsDur z => z <> None | RhsTs _ | RhsNow => True end.

Fixpoint stmt_ok (G : list (string * local)) (s : stmt) : Prop :=
  let block G s := stmt_ok G s /\ NoDup (declares s) in
  match s with
  | SSkip => True
  | SSeq a b => stmt_ok G a /\ stmt_ok G b
  | SFail e => err_ok G e
  | SIf a c s1 s2 =>
      (exists t, acc_ty G a = Some t /\ cond_ok G t c) /\ block G s1 /\ block G s2
  | SBind x a s1 s2 =>
      exists t, acc_ty G a = Some t /\ nilable t /\
        block ((x, LVar t) :: G) s1 /\ block ((x, LVar t) :: G) s2
  | STry f x a s1 s2 =>
      (is_helper f -> In f helpers) /\
      exists t r, acc_ty G a = Some t /\ call_ty f t = Some r /\
        if String.eqb x "" then
          block (("err", LVar GError) :: G) s1 /\ block (("err", LVar GError) :: G) s2
        else
          uses x s1 || uses x s2 = true /\
          exists u, r = Some u /\
            block (("err", LVar GError) :: (x, LVar u) :: G) s1 /\
            block (("err", LVar GError) :: (x, LVar u) :: G) s2
  | SLet x r s => rhs_ok r /\ uses x s = true /\ stmt_ok ((x, LVar (rhs_ty r)) :: G) s
  | SMakeSet x s => uses x s = true /\ stmt_ok ((x, LSet) :: G) s
  | SUnique x conv a s =>
      assoc x G = Some LSet /\
      (exists t, acc_ty G a = Some t /\ (if conv then t = GBytes else comparable t)) /\ block G s
  | SForSlice i x a s =>
      exists e, acc_ty G a = Some (GSlice e) /\
        block ((x, LVar (go_type e)) :: (i, LVar GInt) :: G) s
  | SForMap k v a s =>
      exists kt vt, acc_ty G a = Some (GMap kt vt) /\ uses k s = true /\
        block ((v, LVar (go_type vt)) :: (k, LVar (go_type kt)) :: G) s
  | SEmbed a _ e => acc_ty G a <> None /\ err_ok (("err", LVar GError) :: G) e
  | SBad => False
  end.

Definition block_ok (G : list (string * local)) (s : stmt) : Prop :=
  stmt_ok G s /\ NoDup (declares s).

(** The methods of one message: the helpers it calls exist, its [validate] compiles. *)
Definition code_ok (uuid : bool) (mc : msg_code) : Prop :=
  (In FEmail helpers -> In FHostname helpers) /\
  (In FUuid helpers -> uuid = true) /\
  (mc_disabled mc = false ->
     block_ok [] (mc_body mc) /\
     Forall (fun oc =>
       Forall (fun p => assoc (fst p) fields <> None /\ block_ok [] (snd p)) (oc_cases oc) /\
       (forall e, oc_default oc = Some e -> err_ok [] e)) (mc_oneofs mc)).
End Static.

(** * Packages *)

(** The types of the getters of a message. *)
Definition getters (d : msgdesc) : list (string * gty) :=
  map (fun f => (f_name f, go_ftype (f_type f))) (all_fields d).

(** Names declared in the package: the message and enum types (by protoc-gen-go), and what
    this plugin adds. *)
Definition package_names (sc : schema) : list string :=
  map md_name (sc_msgs sc) ++ map en_name (sc_enums sc) ++ map fst (pkg_decls sc).

(** The package generated from a schema compiles. *)
Definition compiles (sc : schema) : Prop :=
  NoDup (package_names sc) /\
  Forall (fun p => decl_ok (snd p)) (pkg_decls sc) /\
  forall d, In d (sc_msgs sc) -> has_methods d = true ->
    code_ok (getters d) (pkg_decls sc) (map en_name (sc_enums sc)) (mc_helpers (msg_tpl d))
      (file_uuid sc) (msg_tpl d).
