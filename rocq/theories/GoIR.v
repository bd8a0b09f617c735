(** Abstract syntax of the Go text that the templates emit.

    One constructor per statement shape that occurs in templates/goshared and
    templates/go.  A condition is a predicate on one accessed value, because every
    [if] in the templates tests one accessor (or one local bound from it). *)
From Verif Require Export Iface.
From Verif Require Import Base Num Rules Types Time.

(** How a value is accessed: [m.GetF()] (register.go:94-100), a local variable
    ([item], [val], [key], [a], [d], [dur], ...), [x.GetValue()] of a wrapper
    local (register.go:288-298), or [x.GetTypeUrl()] (any.go:8,14). *)
Inductive access := AField (f : string) | AVar (x : string) | AUnwrap (x : string) | AUrl (x : string).

Inductive cmp := OLt | OLe | OGt | OGe | ONe.

Inductive ipkind := IpAny | Ip4 | Ip6.

(** Time expressions inside [ts.Sub(..)]: a local, or [now.Add(+-within)]. *)
Inductive texp := TLocal (x : string) | TAdd (x : string) (neg : bool) (d : string).

(** A composite literal [FooValidationError{field:.., reason:.., cause:.., key:..}]
    (errIdxCause, register.go:110-143).  [es_ix] is the variable printed with
    [fmt.Sprintf("F[%v]", ix)]; [es_cause] is true for [cause: err]. *)
Record errspec := mkErr {
  es_msg : string; es_field : string; es_ix : option string;
  es_reason : list piece; es_cause : bool; es_key : bool }.

(** Set literals and patterns are package-level variables. *)
Inductive cond :=
| CNum (op : cmp) (n : num)                 (* acc op LIT *)
| CBoolNe (b : bool)                        (* acc != true *)
| CEnumNe (z : Z)                           (* acc != 3 (an enum) *)
| CStrNe (s : bytes)                        (* acc != "..." *)
| CBytNe (s : bytes)                        (* !bytes.Equal(acc, []uint8{..}) *)
| CLen (op : cmp) (n : N)                   (* len(acc) op LIT *)
| CRunes (op : cmp) (n : N)                 (* utf8.RuneCountInString(acc) op LIT *)
| CNoPrefix (s : bytes)                     (* !strings/bytes.HasPrefix(acc, LIT) *)
| CNoSuffix (s : bytes)
| CNoContains (s : bytes)
| CContains (s : bytes)
| CNotInSet (x : string) (conv : bool)      (* _, ok := X[acc]; !ok   (conv: X[string(acc)]) *)
| CInSet (x : string) (conv : bool)         (* _, ok := X[acc]; ok *)
| CUndefined (e : string)                   (* _, ok := E_name[int32(acc)]; !ok *)
| CBadIpStr (k : ipkind)                    (* net.ParseIP(acc) tests *)
| CBadIpByt (k : ipkind)                    (* net.IP(acc).To16()/To4() tests *)
| CNoMatch (x : string)                     (* !X.MatchString(acc) / !X.Match(acc) *)
| CNil                                      (* acc == nil *)
| CNotAbs                                   (* !acc.IsAbs() *)
| CDurNe (z : option Z)                     (* acc != time.Duration(...); None: constant overflow *)
| CDur (op : cmp) (x : string)              (* acc op x, both time.Duration *)
| CTsNe (t : Z)                             (* !acc.Equal(time.Unix(..)) *)
| CSub (op : cmp) (t : texp)                (* acc.Sub(t) op 0 *)
| COr (a b : cond)
| CAnd (a b : cond).

(** Right-hand sides of the locals declared by durationcmp/timestampcmp. *)
Inductive rhs := RhsDur (z : option Z) | RhsTs (t : Z) | RhsNow.

(** Calls returning an error: [m._validateHostname(acc)], ..., [url.Parse(acc)],
    [d.AsDuration(), d.CheckValid()], [t.AsTime(), t.CheckValid()]. *)
Inductive callee := FHostname | FEmail | FUuid | FUrl | FDuration | FTime.

Inductive stmt :=
| SSkip
| SSeq (s1 s2 : stmt)
| SFail (e : errspec)            (* err := E; if !all { return err }; errors = append(errors, err) *)
| SIf (a : access) (c : cond) (s1 s2 : stmt)
| SBind (x : string) (a : access) (s1 s2 : stmt)   (* if x := acc; x != nil {s1} else {s2} *)
| STry (f : callee) (x : string) (a : access) (s1 s2 : stmt)
    (* if x, err := f(acc); err != nil {s1} else {s2} *)
| SLet (x : string) (r : rhs) (s : stmt)           (* x := r; s *)
| SMakeSet (x : string) (s : stmt)                 (* x := make(map[..]struct{}, len(..)); s *)
| SUnique (x : string) (conv : bool) (a : access) (s : stmt)
    (* if _, exists := x[a]; exists { s } else { x[a] = struct{}{} } *)
| SForSlice (i x : string) (a : access) (s : stmt) (* for i, x := range acc { _, _ = i, x; s } *)
| SForMap (k v : string) (a : access) (s : stmt)   (* for k, v := range acc { _ = v; s } *)
| SEmbed (a : access) (t : etype) (e : errspec)    (* messageTpl; [t] is the static type *)
| SBad.                          (* the template engine fails, or the text is not Go *)

(** Go types of accessed values, as far as the emitted code depends on them. *)
Inductive gty :=
| GI32 | GI64 | GU32 | GU64 | GF32 | GF64 | GBool | GString | GBytes | GEnum (e : string)
| GPtr (e : etype)              (* *T of an embedded message *)
| GSlice (e : etype) | GMap (k v : etype)
| GInt | GDuration | GTime | GUrl | GError.

(** Package-level variables. *)
Inductive pkgvar :=
| DSet (key : gty) (vals : list value)
| DDurSet (key : gty) (vals : list Z)
| DRegex (p : bytes)
| DBadSet                        (* a set literal that is not valid Go *)
| DType.                         (* a declared type *)

(** One oneof: the [switch m.X.(type)] statement (msg.go:36-52). *)
Record oneof_code := mkOC {
  oc_name : string;
  oc_cases : list (string * stmt);
  oc_default : option errspec }.

(** The code generated for one message. *)
Record msg_code := mkMC {
  mc_name : string;
  mc_disabled : bool;
  mc_body : stmt;
  mc_oneofs : list oneof_code;
  mc_helpers : list callee;
  mc_decls : list (string * pkgvar) }.

