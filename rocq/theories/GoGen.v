(** The Go templates as functions from rules to syntax. *)
From Verif Require Import Base Utf8 Num Rules Types Time Checker GoIR.

Definition orb3 a b c := a || b || c.

(** A RuleContext (templates/shared/context.go:13-24): the enclosing message and field,
    the accessor, the index variable.  [OnKey] is never set by context.go. *)
Record ctx := mkCtx {
  cx_msg : string; cx_field : string; cx_ftype : ftype;
  cx_acc : access; cx_ix : option string }.

(** err / errCause / errIdx, register.go:145-155. *)
Definition err (c : ctx) (reason : list piece) : errspec :=
  mkErr (cx_msg c) (cx_field c) (cx_ix c) reason false false.
Definition err_cause (c : ctx) (reason : list piece) : errspec :=
  mkErr (cx_msg c) (cx_field c) (cx_ix c) reason true false.
Definition err_idx (c : ctx) (ix : string) (reason : list piece) : errspec :=
  mkErr (cx_msg c) (cx_field c) (Some ix) reason false false.

(** lookup, register.go:157-164. *)
Definition lookup_name (m f k : string) : string := ("_" ++ m ++ "_" ++ f ++ "_" ++ k)%string.
Definition lookup (c : ctx) (k : string) : string := lookup_name (cx_msg c) (cx_field c) k.

(** if acc FAILS { err := ..; if !all { return err }; errors = append(errors, err) } *)
Definition chk (c : ctx) (f : cond) (reason : list piece) : stmt :=
  SIf (cx_acc c) f (SFail (err c reason)) SSkip.

Fixpoint seq (l : list stmt) : stmt :=
  match l with [] => SSkip | [s] => s | s :: t => SSeq s (seq t) end.

Definition opt {A} (o : option A) (f : A -> stmt) : stmt :=
  match o with Some a => f a | None => SSkip end.

Section Strings.
Local Open Scope string_scope.

(** The value that the literal text of a number denotes when read back as Go source:
    ["-0"] is the constant zero (register.go:188-189, [fmt.Sprint]); other finite values
    round-trip. *)
Definition lit_num (n : num) : num :=
  match n with NF (SpecFloat.S754_zero _) => NF (SpecFloat.S754_zero false) | _ => n end.

(** constTpl, templates/goshared/const.go:3-11, for numbers. *)
Definition const_num (c : ctx) (o : option num) : stmt :=
  opt o (fun n => chk c (CNum ONe (lit_num n)) [PStr "value must equal "; PNum n]).

(** text/template's [gt]: [not (lt or eq)] (so true when unordered). *)
Definition tpl_gt (a b : num) : bool := negb (num_ltb a b || num_eqb a b).

(** ltgtTpl, templates/goshared/ltgt.go:3-89. *)
Definition ltgt_num (c : ctx) (r : num_rules) : stmt :=
  let L := lit_num in
  match n_lt r with
  | Some lt =>
      match n_gt r with
      | Some gt =>
          if tpl_gt lt gt
          then chk c (COr (CNum OLe (L gt)) (CNum OGe (L lt)))
                 [PStr "value must be inside range ("; PNum gt; PStr ", "; PNum lt; PStr ")"]
          else chk c (CAnd (CNum OGe (L lt)) (CNum OLe (L gt)))
                 [PStr "value must be outside range ["; PNum lt; PStr ", "; PNum gt; PStr "]"]
      | None =>
          match n_gte r with
          | Some gte =>
              if tpl_gt lt gte
              then chk c (COr (CNum OLt (L gte)) (CNum OGe (L lt)))
                     [PStr "value must be inside range ["; PNum gte; PStr ", "; PNum lt; PStr ")"]
              else chk c (CAnd (CNum OGe (L lt)) (CNum OLt (L gte)))
                     [PStr "value must be outside range ["; PNum lt; PStr ", "; PNum gte; PStr ")"]
          | None =>
              chk c (CNum OGe (L lt)) [PStr "value must be less than "; PNum lt]
          end
      end
  | None =>
      match n_lte r with
      | Some lte =>
          match n_gt r with
          | Some gt =>
              if tpl_gt lte gt
              then chk c (COr (CNum OLe (L gt)) (CNum OGt (L lte)))
                     [PStr "value must be inside range ("; PNum gt; PStr ", "; PNum lte; PStr "]"]
              else chk c (CAnd (CNum OGt (L lte)) (CNum OLe (L gt)))
                     [PStr "value must be outside range ("; PNum lte; PStr ", "; PNum gt; PStr "]"]
          | None =>
              match n_gte r with
              | Some gte =>
                  if tpl_gt lte gte
                  then chk c (COr (CNum OLt (L gte)) (CNum OGt (L lte)))
                         [PStr "value must be inside range ["; PNum gte; PStr ", "; PNum lte; PStr "]"]
                  else chk c (CAnd (CNum OGt (L lte)) (CNum OLt (L gte)))
                         [PStr "value must be outside range ("; PNum lte; PStr ", "; PNum gte; PStr ")"]
              | None =>
                  chk c (CNum OGt (L lte)) [PStr "value must be less than or equal to "; PNum lte]
              end
          end
      | None =>
          match n_gt r with
          | Some gt => chk c (CNum OLe (L gt)) [PStr "value must be greater than "; PNum gt]
          | None =>
              match n_gte r with
              | Some gte => chk c (CNum OLt (L gte)) [PStr "value must be greater than or equal to "; PNum gte]
              | None => SSkip
              end
          end
      end
  end.

(** inTpl, templates/goshared/in.go:3-17; [conv] is the [string(acc)] of
    bytes.go:71,77. *)
Definition in_tpl (c : ctx) (conv has_in has_not_in : bool) (p_in p_not : piece) : stmt :=
  if has_in then
    chk c (CNotInSet (lookup c "InLookup") conv) [PStr "value must be in list "; p_in]
  else if has_not_in then
    chk c (CInSet (lookup c "NotInLookup") conv) [PStr "value must not be in list "; p_not]
  else SSkip.

Definition guarded (b : bool) (a : access) (f : cond) (s : stmt) : stmt :=
  if b then SIf a f s SSkip else s.

(** numTpl, templates/goshared/num.go:3-16. *)
Definition num_tpl (c : ctx) (k : numkind) (r : num_rules) : stmt :=
  guarded (getb (n_ignore_empty r)) (cx_acc c) (CNum ONe (num_zero k))
    (seq [const_num c (n_const r);
          ltgt_num c r;
          in_tpl c false (negb (is_nil (n_in r))) (negb (is_nil (n_not_in r)))
            (PNums (n_in r)) (PNums (n_not_in r))]).

(** constTpl registered as "bool", register.go:72. *)
Definition bool_tpl (c : ctx) (o : option bool) : stmt :=
  opt o (fun b => chk c (CBoolNe b) [PStr "value must equal "; PBool b]).

(** The length ladder shared by strTpl (13-46 runes, 48-82 bytes) and bytesTpl
    (templates/goshared/bytes.go:10-44). *)
Definition len_tpl (c : ctx) (cond_of : cmp -> N -> cond) (unit : string) (l mn mx : option N) : stmt :=
  let len_err n := chk c (cond_of ONe n) [PStr "value length must be "; PNat n; PStr (" " ++ unit)] in
  match l with
  | Some n => len_err n
  | None =>
      match mn, mx with
      | Some a, Some b =>
          if N.eqb a b then len_err a
          else chk c (COr (cond_of OLt a) (cond_of OGt b))
                 [PStr "value length must be between "; PNat a; PStr " and "; PNat b;
                  PStr (" " ++ unit ++ ", inclusive")]
      | Some a, None =>
          chk c (cond_of OLt a) [PStr "value length must be at least "; PNat a; PStr (" " ++ unit)]
      | None, Some b =>
          chk c (cond_of OGt b) [PStr "value length must be at most "; PNat b; PStr (" " ++ unit)]
      | None, None => SSkip
      end
  end.

(** The well-known chain of strTpl, templates/goshared/string.go:116-176.  Each
    [$r.GetX] is true only when that oneof member is set to true. *)
Definition str_wk_tpl (c : ctx) (w : option str_wk) : stmt :=
  let a := cx_acc c in
  let try f reason := STry f "" a (SFail (err_cause c [PStr reason])) SSkip in
  match w with
  | Some (WIp true) => chk c (CBadIpStr IpAny) [PStr "value must be a valid IP address"]
  | Some (WIpv4 true) => chk c (CBadIpStr Ip4) [PStr "value must be a valid IPv4 address"]
  | Some (WIpv6 true) => chk c (CBadIpStr Ip6) [PStr "value must be a valid IPv6 address"]
  | Some (WEmail true) => try FEmail "value must be a valid email address"
  | Some (WHostname true) => try FHostname "value must be a valid hostname"
  | Some (WAddress true) =>
      STry FHostname "" a
        (chk c (CBadIpStr IpAny) [PStr "value must be a valid hostname, or ip address"]) SSkip
  | Some (WUri true) =>
      STry FUrl "uri" a (SFail (err_cause c [PStr "value must be a valid URI"]))
        (SIf (AVar "uri") CNotAbs (SFail (err c [PStr "value must be absolute"])) SSkip)
  | Some (WUriRef true) => STry FUrl "" a (SFail (err_cause c [PStr "value must be a valid URI"])) SSkip
  | Some (WUuid true) => try FUuid "value must be a valid UUID"
  | _ => SSkip
  end.

(** strTpl, templates/goshared/string.go:3-190. *)
Definition str_tpl (c : ctx) (r : string_rules) : stmt :=
  guarded (getb (s_ignore_empty r)) (cx_acc c) (CStrNe [])
    (seq [opt (s_const r) (fun s => chk c (CStrNe s) [PStr "value must equal "; PText s]);
          in_tpl c false (negb (is_nil (s_in r))) (negb (is_nil (s_not_in r)))
            (PTexts (s_in r)) (PTexts (s_not_in r));
          len_tpl c CRunes "runes" (s_len r) (s_min_len r) (s_max_len r);
          len_tpl c CLen "bytes" (s_len_bytes r) (s_min_bytes r) (s_max_bytes r);
          opt (s_prefix r) (fun s => chk c (CNoPrefix s) [PStr "value does not have prefix "; PLit s]);
          opt (s_suffix r) (fun s => chk c (CNoSuffix s) [PStr "value does not have suffix "; PLit s]);
          opt (s_contains r) (fun s => chk c (CNoContains s) [PStr "value does not contain substring "; PLit s]);
          opt (s_not_contains r) (fun s => chk c (CContains s) [PStr "value contains substring "; PLit s]);
          str_wk_tpl c (s_wk r);
          opt (s_pattern r) (fun s => chk c (CNoMatch (lookup c "Pattern"))
                                       [PStr "value does not match regex pattern "; PLit s])]).

(** A [[]byte] rule field is false in a template when it is empty. *)
Definition nonempty (o : option bytes) : option bytes :=
  match o with Some [] => None | _ => o end.

(** bytesTpl, templates/goshared/bytes.go:3-123. *)
Definition byt_tpl (c : ctx) (r : bytes_rules) : stmt :=
  guarded (getb (b_ignore_empty r)) (cx_acc c) (CLen OGt 0)
    (seq [len_tpl c CLen "bytes" (b_len r) (b_min_len r) (b_max_len r);
          opt (nonempty (b_prefix r)) (fun s => chk c (CNoPrefix s) [PStr "value does not have prefix "; PByteStr s]);
          opt (nonempty (b_suffix r)) (fun s => chk c (CNoSuffix s) [PStr "value does not have suffix "; PByteStr s]);
          opt (nonempty (b_contains r)) (fun s => chk c (CNoContains s) [PStr "value does not contain "; PByteStr s]);
          in_tpl c true (negb (is_nil (b_in r))) (negb (is_nil (b_not_in r)))
            (PBytess (b_in r)) (PBytess (b_not_in r));
          opt (nonempty (b_const r)) (fun s => chk c (CBytNe s) [PStr "value must equal "; PBytes s]);
          match b_wk r with
          | Some (BIp true) => chk c (CBadIpByt IpAny) [PStr "value must be a valid IP address"]
          | Some (BIpv4 true) => chk c (CBadIpByt Ip4) [PStr "value must be a valid IPv4 address"]
          | Some (BIpv6 true) => chk c (CBadIpByt Ip6) [PStr "value must be a valid IPv6 address"]
          | _ => SSkip
          end;
          opt (b_pattern r) (fun s => chk c (CNoMatch (lookup c "Pattern"))
                                       [PStr "value does not match regex pattern "; PLit s])]).

(** [(typ $f).Element]: the enum type of the field or of its elements (enum.go:9). *)
Definition enum_name (t : ftype) : string :=
  match t with
  | FOne (TEnum e) | FRep (TEnum e) | FMap _ (TEnum e) => e
  | _ => ""
  end.

(** enumTpl, templates/goshared/enum.go:3-15. *)
Definition enum_tpl (c : ctx) (r : enum_rules) : stmt :=
  seq [opt (e_const r) (fun z => chk c (CEnumNe z) [PStr "value must equal "; PInt z]);
       in_tpl c false (negb (is_nil (e_in r))) (negb (is_nil (e_not_in r)))
         (PInts (e_in r)) (PInts (e_not_in r));
       if getb (e_defined_only r)
       then chk c (CUndefined (enum_name (cx_ftype c)))
              [PStr "value must be one of the defined enum values"]
       else SSkip].

(** requiredTpl, templates/go/required.go:3-11. *)
Definition required_tpl (c : ctx) (req : option bool) : stmt :=
  if getb req then chk c CNil [PStr "value is required"] else SSkip.

(** anyTpl, templates/goshared/any.go:3-21. *)
Definition any_tpl (c : ctx) (r : any_rules) : stmt :=
  SSeq (required_tpl c (a_required r))
    (SBind "a" (cx_acc c)
       (let c' := mkCtx (cx_msg c) (cx_field c) (cx_ftype c) (AUrl "a") (cx_ix c) in
        match a_in r with
        | _ :: _ => chk c' (CNotInSet (lookup c "InLookup") false)
                      [PStr "type URL must be in list "; PTexts (a_in r)]
        | [] =>
            match a_not_in r with
            | _ :: _ => chk c' (CInSet (lookup c "NotInLookup") false)
                          [PStr "type URL must not be in list "; PTexts (a_not_in r)]
            | [] => SSkip
            end
        end)
       SSkip).

(** messageTpl, templates/go/message.go:4-29. *)
Definition message_tpl (c : ctx) (t : etype) (mr : option message_rules) : stmt :=
  let skip := match mr with Some m => getb (m_skip m) | None => false end in
  let req := match mr with Some m => m_required m | None => None end in
  SSeq (required_tpl c req)
    (if skip then SSkip
     else SEmbed (cx_acc c) t (err_cause c [PStr "embedded message failed validation"])).

Definition let_opt {A} (o : option A) (x : string) (f : A -> rhs) (s : stmt) : stmt :=
  match o with Some a => SLet x (f a) s | None => s end.

(** The shared branch structure of durationcmp (duration.go:18-102) and timestampcmp
    (timestamp.go:19-102): both print [inside]/[outside] messages from the bounds. *)
Section Range.
Variable T : Type.
Variable gt_fn : T -> T -> bool.           (* durGt / tsGt *)
Variable cmpc : cmp -> string -> cond.     (* dur op x / ts.Sub(x) op 0 *)
Variable pr : T -> piece.
Definition range_tpl (c : ctx) (lt lte gt gte : option T) (otherwise : stmt) : stmt :=
  match lt with
  | Some l =>
      match gt with
      | Some g =>
          if gt_fn l g
          then chk c (COr (cmpc OLe "gt") (cmpc OGe "lt"))
                 [PStr "value must be inside range ("; pr g; PStr ", "; pr l; PStr ")"]
          else chk c (CAnd (cmpc OGe "lt") (cmpc OLe "gt"))
                 [PStr "value must be outside range ["; pr l; PStr ", "; pr g; PStr "]"]
      | None =>
          match gte with
          | Some g =>
              if gt_fn l g
              then chk c (COr (cmpc OLt "gte") (cmpc OGe "lt"))
                     [PStr "value must be inside range ["; pr g; PStr ", "; pr l; PStr ")"]
              else chk c (CAnd (cmpc OGe "lt") (cmpc OLt "gte"))
                     [PStr "value must be outside range ["; pr l; PStr ", "; pr g; PStr ")"]
          | None => chk c (cmpc OGe "lt") [PStr "value must be less than "; pr l]
          end
      end
  | None =>
      match lte with
      | Some l =>
          match gt with
          | Some g =>
              if gt_fn l g
              then chk c (COr (cmpc OLe "gt") (cmpc OGt "lte"))
                     [PStr "value must be inside range ("; pr g; PStr ", "; pr l; PStr "]"]
              else chk c (CAnd (cmpc OGt "lte") (cmpc OLe "gt"))
                     [PStr "value must be outside range ("; pr l; PStr ", "; pr g; PStr "]"]
          | None =>
              match gte with
              | Some g =>
                  if gt_fn l g
                  then chk c (COr (cmpc OLt "gte") (cmpc OGt "lte"))
                         [PStr "value must be inside range ["; pr g; PStr ", "; pr l; PStr "]"]
                  else chk c (CAnd (cmpc OGt "lte") (cmpc OLt "gte"))
                         [PStr "value must be outside range ("; pr l; PStr ", "; pr g; PStr ")"]
              | None => chk c (cmpc OGt "lte") [PStr "value must be less than or equal to "; pr l]
              end
          end
      | None =>
          match gt with
          | Some g => chk c (cmpc OLe "gt") [PStr "value must be greater than "; pr g]
          | None =>
              match gte with
              | Some g => chk c (cmpc OLt "gte") [PStr "value must be greater than or equal to "; pr g]
              | None => otherwise
              end
          end
      end
  end.
End Range.

Definition with_acc (c : ctx) (a : access) : ctx :=
  mkCtx (cx_msg c) (cx_field c) (cx_ftype c) a (cx_ix c).

(** durGt, register.go:262-267. *)
Definition dur_gt (a b : sn) : bool := (as_duration b <? as_duration a)%Z.

(** durationcmpTpl, templates/goshared/duration.go:3-118. *)
Definition durationcmp_tpl (c0 : ctx) (r : duration_rules) : stmt :=
  let c := with_acc c0 (AVar "dur") in
  SSeq (opt (d_const r) (fun d => chk c (CDurNe (dur_lit d)) [PStr "value must equal "; PDur d]))
  (let_opt (d_lt r) "lt" (fun d => RhsDur (dur_lit d))
  (let_opt (d_lte r) "lte" (fun d => RhsDur (dur_lit d))
  (let_opt (d_gt r) "gt" (fun d => RhsDur (dur_lit d))
  (let_opt (d_gte r) "gte" (fun d => RhsDur (dur_lit d))
  (SSeq (range_tpl sn dur_gt CDur PDur c (d_lt r) (d_lte r) (d_gt r) (d_gte r) SSkip)
        (in_tpl c false (negb (is_nil (d_in r))) (negb (is_nil (d_not_in r)))
           (PDurs (d_in r)) (PDurs (d_not_in r)))))))).

(** durationTpl, templates/go/duration.go:3-18. *)
Definition duration_tpl (c : ctx) (r : duration_rules) : stmt :=
  SSeq (required_tpl c (d_required r))
    (if negb (is_nil (d_in r)) || negb (is_nil (d_not_in r)) || is_some (d_lt r)
        || is_some (d_lte r) || is_some (d_gt r) || is_some (d_gte r) || is_some (d_const r)
     then SBind "d" (cx_acc c)
            (STry FDuration "dur" (AVar "d")
               (SFail (err_cause c [PStr "value is not a valid duration"]))
               (durationcmp_tpl c r))
            SSkip
     else SSkip).

(** tsGt, register.go:276-281. *)
Definition ts_gt (a b : sn) : bool := (instant b <? instant a)%Z.

(** timestampcmpTpl, templates/goshared/timestamp.go:3-138. *)
Definition timestampcmp_tpl (c0 : ctx) (r : timestamp_rules) : stmt :=
  let c := with_acc c0 (AVar "ts") in
  let sub op x := CSub op (TLocal x) in
  SSeq (opt (t_const r) (fun t => chk c (CTsNe (instant t)) [PStr "value must equal "; PTs t]))
  ((fun s => if is_some (t_lt_now r) || is_some (t_gt_now r) || is_some (t_within r)
             then SLet "now" RhsNow s else s)
  (let_opt (t_lt r) "lt" (fun t => RhsTs (instant t))
  (let_opt (t_lte r) "lte" (fun t => RhsTs (instant t))
  (let_opt (t_gt r) "gt" (fun t => RhsTs (instant t))
  (let_opt (t_gte r) "gte" (fun t => RhsTs (instant t))
  (let_opt (t_within r) "within" (fun d => RhsDur (dur_lit d))
  (range_tpl sn ts_gt sub PTs c (t_lt r) (t_lte r) (t_gt r) (t_gte r)
     (match t_lt_now r, t_gt_now r, t_within r with
      | Some _, _, Some w =>
          chk c (COr (sub OGe "now") (CSub OLt (TAdd "now" true "within")))
            [PStr "value must be less than now within "; PDur w]
      | Some _, _, None => chk c (sub OGe "now") [PStr "value must be less than now"]
      | None, Some _, Some w =>
          chk c (COr (sub OLe "now") (CSub OGt (TAdd "now" false "within")))
            [PStr "value must be greater than now within "; PDur w]
      | None, Some _, None => chk c (sub OLe "now") [PStr "value must be greater than now"]
      | None, None, Some w =>
          chk c (COr (CSub OGe (TAdd "now" false "within")) (CSub OLe (TAdd "now" true "within")))
            [PStr "value must be within "; PDur w; PStr " of now"]
      | None, None, None => SSkip
      end)))))))).

(** timestampTpl, templates/go/timestamp.go:3-18. *)
Definition timestamp_tpl (c : ctx) (r : timestamp_rules) : stmt :=
  SSeq (required_tpl c (t_required r))
    (if is_some (t_lt r) || is_some (t_lte r) || is_some (t_gt r) || is_some (t_gte r)
        || is_some (t_lt_now r) || is_some (t_gt_now r) || is_some (t_within r)
        || is_some (t_const r)
     then SBind "t" (cx_acc c)
            (STry FTime "ts" (AVar "t")
               (SFail (err_cause c [PStr "value is not a valid timestamp"]))
               (timestampcmp_tpl c r))
            SSkip
     else SSkip).

(** resolveRules, context.go:119-177, restricted to what matters for the choice of
    template: which rule is rendered, and whether it is behind a wrapper. *)
Definition is_wrappable (r : rule_type) : bool :=
  match r with
  | RNum (KFloat | KDouble | KInt32 | KInt64 | KUInt32 | KUInt64) _ => true
  | RBool _ | RString _ | RBytes _ => true
  | _ => false
  end.

(** Templates for one scalar or well-known-type rule.  Repeated and map rules do not
    occur on elements (the checker rejects them); the template engine would fail or
    emit nonsense: [SBad]. *)
Definition leaf_tpl (c : ctx) (r : rule_type) : stmt :=
  match r with
  | RNum k r => num_tpl c k r
  | RBool b => bool_tpl c b
  | RString r => str_tpl c r
  | RBytes r => byt_tpl c r
  | REnum r => enum_tpl c r
  | RAny r => any_tpl c r
  | RDuration r => duration_tpl c r
  | RTimestamp r => timestamp_tpl c r
  | RRepeated _ | RMap _ => SBad
  end.

(** wrapperTpl, templates/goshared/wrapper.go:3-13.  Unwrap (context.go:96-109) drops
    the index.  [unwrap] (register.go:288-298) calls [Field.Type().Embed().Fields()],
    and [Embed()] of a repeated or map field type is nil, so the template function
    panics there: [SBad]. *)
Definition wrapper_tpl (c : ctx) (mr : option message_rules) (r : rule_type) : stmt :=
  match cx_ftype c with
  | FOne _ =>
      SBind "wrapper" (cx_acc c)
        (leaf_tpl (mkCtx (cx_msg c) (cx_field c) (cx_ftype c) (AUnwrap "wrapper") None) r)
        (if match mr with Some m => getb (m_required m) | None => false end
         then SFail (err c [PStr "value is required and must not be nil."]) else SSkip)
  | _ => SBad
  end.

(** Rendering of an element context (Elem/Key, context.go:47-94): [wrapped] is only
    honoured by Elem. *)
Definition elem_tpl (c : ctx) (is_key : bool) (e : etype) (fr : option field_rules) : stmt :=
  match fr with
  | Some (FR mr (Some r)) =>
      if is_wrappable r && is_embed e && negb is_key then wrapper_tpl c mr r else leaf_tpl c r
  | Some (FR mr None) => if is_embed e then message_tpl c e mr else SSkip
  | None => if is_embed e then message_tpl c e None else SSkip
  end.

(** [(.Elem "" "").Typ] is "none". *)
Definition elem_none (e : etype) (fr : option field_rules) : bool :=
  match fr with
  | Some (FR _ (Some _)) => false
  | _ => negb (is_embed e)
  end.

(** The min/max ladder of repTpl (10-36) and mapTpl (10-36).  [$r.GetMinItems] is false
    when it is zero. *)
Definition count_tpl (c : ctx) (mn mx : option N) (one many : string) : stmt :=
  if negb (N.eqb (getN mn) 0) then
    if N.eqb (getN mn) (getN mx)
    then chk c (CLen ONe (getN mn)) [PStr "value must contain exactly "; PNat (getN mn); PStr one]
    else match mx with
         | Some b => chk c (COr (CLen OLt (getN mn)) (CLen OGt b))
                       [PStr "value must contain between "; PNat (getN mn); PStr " and "; PNat b; PStr many]
         | None => chk c (CLen OLt (getN mn)) [PStr "value must contain at least "; PNat (getN mn); PStr one]
         end
  else match mx with
       | Some b => chk c (CLen OGt b) [PStr "value must contain no more than "; PNat b; PStr one]
       | None => SSkip
       end.

Definition is_bytes_ty (e : etype) : bool := match e with TBytes => true | _ => false end.

(** repTpl, templates/goshared/repeated.go:3-66. *)
Definition rep_tpl (c : ctx) (e : etype) (r : rep_rules field_rules) : stmt :=
  let uniq := getb (r_unique r) in
  let set := lookup c "Unique" in
  let ci := mkCtx (cx_msg c) (cx_field c) (cx_ftype c) (AVar "item") (Some "idx") in
  let loop :=
    if uniq || negb (elem_none e (r_items r)) then
      SForSlice "idx" "item" (cx_acc c)
        (SSeq (if uniq
               then SUnique set (is_bytes_ty e) (AVar "item")
                      (SFail (err_idx c "idx" [PStr "repeated value must contain unique items"]))
               else SSkip)
              (elem_tpl ci false e (r_items r)))
    else SSkip in
  guarded (getb (r_ignore_empty r)) (cx_acc c) (CLen OGt 0)
    (SSeq (count_tpl c (r_min r) (r_max r) " item(s)" " items, inclusive")
          (if uniq then SMakeSet set loop else loop)).

(** mapTpl, templates/goshared/map.go:3-60. *)
Definition map_tpl (c : ctx) (k v : etype) (r : map_rules field_rules) : stmt :=
  let ck := mkCtx (cx_msg c) (cx_field c) (cx_ftype c) (AVar "key") (Some "key") in
  let cv := mkCtx (cx_msg c) (cx_field c) (cx_ftype c) (AVar "val") (Some "key") in
  guarded (getb (p_ignore_empty r)) (cx_acc c) (CLen OGt 0)
    (SSeq (count_tpl c (p_min r) (p_max r) " pair(s)" " pairs, inclusive")
      (if getb (p_no_sparse r) || negb (elem_none v (p_values r)) || negb (elem_none k (p_keys r))
       then SForMap "key" "val" (cx_acc c)
              (SSeq (if getb (p_no_sparse r)
                     then SIf (AVar "val") CNil
                            (SFail (err_idx c "key" [PStr "value cannot be sparse, all pairs must be non-nil"]))
                            SSkip
                     else SSkip)
              (SSeq (elem_tpl ck true k (p_keys r))
                    (elem_tpl cv false v (p_values r))))
       else SSkip)).

(** [render (context .)] for a field: rulesContext (context.go:26-45) and Render
    (111-117). *)
Definition field_tpl (mn : string) (f : field) : stmt :=
  let c := mkCtx mn (f_name f) (f_type f) (AField (f_name f)) None in
  match f_rules f with
  | FR mr (Some (RRepeated r)) =>
      match f_type f with FRep e => rep_tpl c e r | _ => SBad end
  | FR mr (Some (RMap r)) =>
      match f_type f with FMap k v => map_tpl c k v r | _ => SBad end
  | FR mr (Some r) =>
      match f_type f with
      | FOne e => if is_wrappable r && is_embed e then wrapper_tpl c mr r else leaf_tpl c r
      | _ => leaf_tpl c r
      end
  | FR mr None =>
      match f_type f with
      | FRep e => rep_tpl c e (mkRepRules None None None None None)
      | FMap k v =>
          if is_embed v then map_tpl c k v (mkMapRules None None None None None None) else SSkip
      | FOne e => if is_embed e then message_tpl c e mr else SSkip
      end
  end.

(** Needs / strRulesNeeds, templates/shared/well_known.go:28-81. *)
Definition str_needs (fr : option field_rules) (h : callee) : bool :=
  match fr with
  | Some (FR _ (Some (RString r))) =>
      match h, s_wk r with
      | FEmail, Some (WEmail b) => b
      | FHostname, Some (WEmail b) => b
      | FHostname, Some (WHostname b) => b
      | FHostname, Some (WAddress b) => b
      | FUuid, Some (WUuid b) => b
      | _, _ => false
      end
  | _ => false
  end.

Definition field_needs (h : callee) (f : field) : bool :=
  match f_type f with
  | FRep TString =>
      match fr_typ (f_rules f) with
      | Some (RRepeated r) => str_needs (r_items r) h
      | _ => false
      end
  | FMap k v =>
      match fr_typ (f_rules f) with
      | Some (RMap r) =>
          match k with TString => str_needs (p_keys r) h | _ => false end
          || match v with TString => str_needs (p_values r) h | _ => false end
      | _ => false
      end
  | FOne TString | FOne (TWrap WkString) => str_needs (Some (f_rules f)) h
  | FRep _ | FOne _ => false
  end.

Definition needs (m : msgdesc) (h : callee) : bool := existsb (field_needs h) (all_fields m).

(** Go type of an element (pgsgo). *)
Definition gty_of (e : etype) : gty :=
  match e with
  | TNum (KInt32 | KSInt32 | KSFixed32) => GI32
  | TNum (KInt64 | KSInt64 | KSFixed64) => GI64
  | TNum (KUInt32 | KFixed32) => GU32
  | TNum (KUInt64 | KFixed64) => GU64
  | TNum KFloat => GF32
  | TNum KDouble => GF64
  | TBool => GBool | TString => GString | TBytes => GBytes
  | TEnum n => GEnum n
  | e => GPtr e
  end.

Definition gty_of_f (f : ftype) : gty :=
  match f with FOne e => gty_of e | FRep e => GSlice e | FMap k v => GMap k v end.

(** inType, register.go:212-232: by the field's ProtoType (a map field is MessageT, a
    repeated field has its element's); [dflt] is the element type of the Go slice holding
    the values ([%T]). *)
Definition in_type (f : ftype) (dflt : gty) : gty :=
  match f with
  | FOne TBytes | FRep TBytes => GString
  | FOne (TEnum n) | FRep (TEnum n) => GEnum n
  | FMap _ _ => dflt
  | FOne e => if is_embed e then dflt else gty_of e
  | FRep e => if is_embed e then dflt else GSlice e
  end.

(** Is the text of an [in] element a valid Go constant?  [byteStr] (199-206) prints a
    byte below 0x10 with one hexadecimal digit, which is not a Go escape. *)
Definition byte_str_ok (s : bytes) : bool := forallb (fun b => N.leb 16 b) s.

Definition num_lit_ok (n : num) : bool :=
  match n with
  | NF (SpecFloat.S754_nan) | NF (SpecFloat.S754_infinity _) => false
  | _ => true
  end.

(** A map literal with the given key type and constant keys (msg.go:136-150).  Constant
    keys must be distinct, and the key type comparable. *)
Fixpoint nodupb {A} (eqA : A -> A -> bool) (l : list A) : bool :=
  match l with [] => true | x :: t => negb (existsb (eqA x) t) && nodupb eqA t end.

Definition num_set (k : gty) (l : list num) : pkgvar :=
  if forallb num_lit_ok l && nodupb num_eqb (map lit_num l)
  then DSet k (map (fun n => VNum (lit_num n)) l) else DBadSet.
Definition str_set (k : gty) (l : list bytes) : pkgvar :=
  if nodupb bytes_eqb l then DSet k (map VStr l) else DBadSet.
(** bytes field: [map[string]struct{}] with [byteStr] keys; BytesValue: [map[[]uint8]]. *)
Definition byt_set (f : ftype) (l : list bytes) : pkgvar :=
  match in_type f GBytes with
  | GString => if forallb byte_str_ok l && nodupb bytes_eqb l then DSet GString (map VStr l) else DBadSet
  | _ => DBadSet
  end.
Definition enum_set (k : gty) (l : list Z) : pkgvar :=
  if nodupb Z.eqb l then DSet k (map VEnum l) else DBadSet.
Definition dur_set (k : gty) (l : list sn) : pkgvar :=
  if nodupb Z.eqb (map as_duration l) then DDurSet k (map as_duration l) else DBadSet.

Definition decl_if {A} (l : list A) (n : string) (d : pkgvar) : list (string * pkgvar) :=
  match l with [] => [] | _ => [(n, d)] end.
Definition decl_opt (o : option bytes) (n : string) : list (string * pkgvar) :=
  match o with Some p => [(n, DRegex p)] | None => [] end.

Definition str_rules_of (fr : option field_rules) : option string_rules :=
  match fr with Some (FR _ (Some (RString r))) => Some r | _ => None end.
Definition enum_rules_of (fr : option field_rules) : option enum_rules :=
  match fr with Some (FR _ (Some (REnum r))) => Some r | _ => None end.

(** Package-level variables of one field, msg.go:135-208. *)
Definition field_decls (mn : string) (f : field) : list (string * pkgvar) :=
  let t := f_type f in
  let nm k := lookup_name mn (f_name f) k in
  match fr_typ (f_rules f) with
  | Some (RNum k r) =>
      let ty := in_type t (gty_of (TNum k)) in
      decl_if (n_in r) (nm "InLookup") (num_set ty (n_in r))
      ++ decl_if (n_not_in r) (nm "NotInLookup") (num_set ty (n_not_in r))
  | Some (RString r) =>
      let ty := in_type t GString in
      decl_if (s_in r) (nm "InLookup") (str_set ty (s_in r))
      ++ decl_if (s_not_in r) (nm "NotInLookup") (str_set ty (s_not_in r))
      ++ decl_opt (s_pattern r) (nm "Pattern")
  | Some (RBytes r) =>
      decl_if (b_in r) (nm "InLookup") (byt_set t (b_in r))
      ++ decl_if (b_not_in r) (nm "NotInLookup") (byt_set t (b_not_in r))
      ++ decl_opt (b_pattern r) (nm "Pattern")
  | Some (REnum r) =>
      let ty := in_type t GI32 in
      decl_if (e_in r) (nm "InLookup") (enum_set ty (e_in r))
      ++ decl_if (e_not_in r) (nm "NotInLookup") (enum_set ty (e_not_in r))
  | Some (RAny r) =>
      let ty := in_type t GString in
      decl_if (a_in r) (nm "InLookup") (str_set ty (a_in r))
      ++ decl_if (a_not_in r) (nm "NotInLookup") (str_set ty (a_not_in r))
  | Some (RDuration r) =>
      let ty := in_type t GDuration in
      decl_if (d_in r) (nm "InLookup") (dur_set ty (d_in r))
      ++ decl_if (d_not_in r) (nm "NotInLookup") (dur_set ty (d_not_in r))
  | Some (RTimestamp _) | Some (RBool _) | None => []
  | Some (RRepeated r) =>
      match str_rules_of (r_items r) with
      | Some s =>
          decl_opt (s_pattern s) (nm "Pattern")
          ++ decl_if (s_in s) (nm "InLookup") (str_set GString (s_in s))
          ++ decl_if (s_not_in s) (nm "NotInLookup") (str_set GString (s_not_in s))
      | None => []
      end
      ++ match enum_rules_of (r_items r) with
         | Some s =>
             let ty := in_type t GI32 in
             decl_if (e_in s) (nm "InLookup") (enum_set ty (e_in s))
             ++ decl_if (e_not_in s) (nm "NotInLookup") (enum_set ty (e_not_in s))
         | None => []
         end
  | Some (RMap r) =>
      match str_rules_of (p_keys r) with
      | Some s => decl_opt (s_pattern s) (nm "Pattern")
      | None => []
      end
      ++ match str_rules_of (p_values r) with
         | Some s => decl_opt (s_pattern s) (nm "Pattern")
         | None => []
         end
  end.

(** The oneof switch, msg.go:36-52. *)
Definition oneof_tpl (mn : string) (o : oneof) : oneof_code :=
  mkOC (o_name o) (map (fun f => (f_name f, field_tpl mn f)) (o_fields o))
    (if getb (o_required o)
     then Some (mkErr mn (o_name o) None [PStr "value is required"] false false) else None).

(** errName, multiErrName, register.go:102-108. *)
Definition err_name (m : string) : string := m ++ "ValidationError".
Definition multi_err_name (m : string) : string := m ++ "MultiError".

(** msgTpl, templates/goshared/msg.go:3-210. *)
Definition msg_tpl (m : msgdesc) : msg_code :=
  let mn := md_name m in
  mkMC mn (md_disabled m)
    (if md_disabled m then SSkip else seq (map (field_tpl mn) (md_fields m)))
    (if md_disabled m then [] else map (oneof_tpl mn) (md_oneofs m))
    (filter (needs m) [FHostname; FEmail; FUuid])
    ((multi_err_name mn, DType) :: (err_name mn, DType)
       :: flat_map (field_decls mn) (all_fields m)).

(** [fileneeds . "uuid"] in fileTpl (templates/go/file.go:46-49): FileNeeds
    (well_known.go:16-24) looks at [f.Messages()], the top-level messages only. *)
Definition file_uuid (sc : schema) : bool :=
  existsb (fun m => existsb (String.eqb (md_name m)) (sc_top sc) && needs m FUuid) (sc_msgs sc).

End Strings.
