(** The Java side: the runtime library java/pgv-java-stub, and what the code generated by
    templates/java does with a message.

    The generated code is modelled directly by its effect: one function per template, which
    calls one function per runtime method in the order of the template.  The texts of exceptions
    are left out.  Paths below are relative to java/pgv-java-stub/src/main/java/io/envoyproxy/pgv
    where they end in .java. *)
From Coq Require Import Floats.SpecFloat.
From Verif Require Import Base Utf8 Num Rules Types Time Outcome.

(** * Runtime methods *)

Section Generic.
Context {A : Type}.
Variable equals : A -> A -> bool.

(** [value.equals(x)], where [x] may be null. *)
Definition jequals (v : A) (x : option A) : bool := match x with Some y => equals v y | None => false end.

(** constant, ConstantValidation.java:10-14: the message calls [expected.toString()]. *)
Definition j_constant (v : A) (expected : option A) : outcome :=
  if jequals v expected then Passes
  else match expected with Some _ => Rejects | None => Crashes end.

(** in and notIn, CollectiveValidation.java:12-28. *)
Definition j_in (v : A) (set : list (option A)) : outcome := throw_unless (existsb (jequals v) set).
Definition j_not_in (v : A) (set : list (option A)) : outcome := throw_unless (negb (existsb (jequals v) set)).

(** unique, RepeatedValidation.java:31-40: a HashSet of the values seen. *)
Fixpoint j_unique (seen l : list A) : outcome :=
  match l with
  | [] => Passes
  | x :: t => if existsb (equals x) seen then Rejects else j_unique (x :: seen) t
  end.

(** A Comparator; [None] when [compare] throws. *)
Variable compare : A -> A -> option comparison.

Definition j_cmp (f : comparison -> bool) (a b : A) : outcome :=
  match compare a b with Some c => throw_unless (f c) | None => Crashes end.

(** lt, lte, gt, gte, ComparativeValidation.java:77-91. *)
Definition c_lt (c : comparison) := match c with Lt => true | _ => false end.
Definition c_lte (c : comparison) := match c with Gt => false | _ => true end.
Definition c_gt (c : comparison) := match c with Gt => true | _ => false end.
Definition c_gte (c : comparison) := match c with Lt => false | _ => true end.

(** lessThan, lessThanOrEqual, greaterThan, greaterThanOrEqual, ComparativeValidation.java:12-34. *)
Definition j_less_than := j_cmp c_lt.
Definition j_less_than_or_equal := j_cmp c_lte.
Definition j_greater_than := j_cmp c_gt.
Definition j_greater_than_or_equal := j_cmp c_gte.

(** first, ComparativeValidation.java:93-95. *)
Definition first (l r : option A) : option A := match l with Some _ => l | None => r end.

(** The predicate between, ComparativeValidation.java:68-71. *)
Definition between_p (v lo : A) (lo_inc : bool) (up : A) (up_inc : bool) : option bool :=
  match compare v lo with
  | None => None
  | Some c =>
      if (if lo_inc then c_gte c else c_gt c)
      then match compare v up with
           | None => None
           | Some c' => Some (if up_inc then c_lte c' else c_lt c')
           end
      else Some false
  end.
(** between and outside, ComparativeValidation.java:56-66. *)
Definition j_between v lo lo_inc up up_inc : outcome :=
  match between_p v lo lo_inc up up_inc with Some b => throw_unless b | None => Crashes end.
Definition j_outside v lo lo_inc up up_inc : outcome :=
  match between_p v lo lo_inc up up_inc with Some b => throw_unless (negb b) | None => Crashes end.

(** range, ComparativeValidation.java:36-54.  Comparing null is a NullPointerException. *)
Definition j_range (v : A) (lt lte gt gte : option A) : outcome :=
  match first gt gte, first lt lte with
  | Some gtx, Some ltx =>
      match compare gtx ltx with
      | None => Crashes
      | Some c =>
          if c_lte c
          then j_between v gtx (is_some gte) ltx (is_some lte)
          else j_outside v ltx (negb (is_some lte)) gtx (negb (is_some gte))
      end
  | _, _ => Crashes
  end.

(** The choice between range and the four others in num.go:44-59, duration.go:41-56 and
    timestamp.go:33-48 of templates/java. *)
Definition j_bounds (v : A) (lt lte gt gte : option A) : outcome :=
  if (is_some lt || is_some lte) && (is_some gt || is_some gte)
  then j_range v lt lte gt gte
  else in_order [on_some lt (j_less_than v); on_some lte (j_less_than_or_equal v);
             on_some gt (j_greater_than v); on_some gte (j_greater_than_or_equal v)].
End Generic.

(** ** Numbers *)

(** A proto integer in the Java type that holds it: [int] or [long], so unsigned values wrap. *)
Definition wrap32 (z : Z) : Z := ((z + 2^31) mod 2^32 - 2^31)%Z.
Definition to_java (k : numkind) (n : num) : num :=
  match k, n with
  | (KUInt32 | KFixed32), NI z => NI (wrap32 z)
  | (KUInt64 | KFixed64), NI z => NI (wrap64 z)
  | _, _ => n
  end.

(** Float.compareTo and Double.compareTo: NaN above everything and equal to itself,
    -0.0 below 0.0 (java.lang, not in /repo). *)
Definition jf_compare (f g : spec_float) : comparison :=
  match f, g with
  | S754_nan, S754_nan => Eq
  | S754_nan, _ => Gt
  | _, S754_nan => Lt
  | S754_zero true, S754_zero false => Lt
  | S754_zero false, S754_zero true => Gt
  | _, _ => match SFcompare f g with Some c => c | None => Eq end
  end.
(** Comparator.naturalOrder() of Integer, Long, Float, Double, and their [equals]. *)
Definition jn_compare (a b : num) : option comparison :=
  match a, b with
  | NI x, NI y => Some (Z.compare x y)
  | NF f, NF g => Some (jf_compare f g)
  | _, _ => None
  end.
Definition jn_equals (a b : num) : bool :=
  match jn_compare a b with Some Eq => true | _ => false end.

(** [value != 0], on the unboxed value. *)
Definition jn_zero (n : num) : bool :=
  match n with NI z => Z.eqb z 0 | NF (S754_zero _) => true | _ => false end.

(** numTpl, templates/java/num.go:37-69.  The constants are those of the rules, provided their
    literals are Java constants (see [java_const] in JavaSpec.v). *)
Definition j_num (k : numkind) (r : num_rules) (n : num) : outcome :=
  let v := to_java k n in
  only_if (negb (getb (n_ignore_empty r) && jn_zero v))
    (in_order [on_some (n_const r) (fun c => j_constant jn_equals v (Some c));
           j_bounds jn_compare v (n_lt r) (n_lte r) (n_gt r) (n_gte r);
           only_if (negb (is_nil (n_in r))) (j_in jn_equals v (map Some (n_in r)));
           only_if (negb (is_nil (n_not_in r))) (j_not_in jn_equals v (map Some (n_not_in r)))]).

(** boolTpl, templates/java/bool.go:3-6. *)
Definition j_bool (c : option bool) (v : bool) : outcome := on_some c (fun b => j_constant Bool.eqb v (Some b)).

(** ** Strings *)

(** A Java String is its UTF-16 units; [jstring] of the UTF-8 on the wire. *)
Definition utf16 (c : N) : list N :=
  (if c <? 0x10000 then [c] else [0xD800 + (c - 0x10000) / 1024; 0xDC00 + (c - 0x10000) mod 1024])%N.
Definition jstring (s : bytes) : list N := flat_map utf16 (runes s).

Definition is_high (u : N) : bool := ((0xD800 <=? u) && (u <? 0xDC00))%N.
Definition is_low (u : N) : bool := ((0xDC00 <=? u) && (u <? 0xE000))%N.

(** String.codePointCount. *)
Fixpoint code_points (s : list N) : N :=
  match s with
  | [] => 0%N
  | u :: t =>
      match t with
      | l :: t' => if is_high u && is_low l then (1 + code_points t')%N else (1 + code_points t)%N
      | [] => 1%N
      end
  end.
(** [getBytes(UTF_8).length]; a lone surrogate becomes '?'. *)
Fixpoint utf8_length (s : list N) : N :=
  match s with
  | [] => 0%N
  | u :: t =>
      let one := if (u <? 0x80)%N then 1%N else if (u <? 0x800)%N then 2%N
                 else if is_high u || is_low u then 1%N else 3%N in
      match t with
      | l :: t' => if is_high u && is_low l then (4 + utf8_length t')%N else (one + utf8_length t)%N
      | [] => one
      end
  end.

(** The Java libraries that are not modelled: com.google.re2j (the pattern compiled from the
    literal generated for the given text, and [matches], which wants the whole input), the
    commons-validator EmailValidator, DomainValidator and InetAddressValidator, java.net.URI (its
    isAbsolute, if it parses), ByteString.toStringUtf8, and System.currentTimeMillis, read as one
    instant per validation. *)
Record java_libs := mkJavaLibs {
  jl_matches : bytes -> list N -> bool;
  jl_email : list N -> bool;
  jl_domain : list N -> bool;
  jl_inet : list N -> bool; jl_inet4 : list N -> bool; jl_inet6 : list N -> bool;
  jl_uri : list N -> option bool;
  jl_utf8 : bytes -> list N;
  jl_now_ms : Z }.

(** The loop of email, StringValidation.java:112-123, over the characters before the last one,
    from the end. *)
Fixpoint email_loop (quoted : bool) (rest : list N) : list N :=
  match rest with
  | [] => []
  | c :: t =>
      if (c =? 60)%N
      then if quoted then c :: email_loop quoted t else []
      else c :: email_loop (if (c =? 34)%N then negb quoted else quoted) t
  end.
Definition email_part (s : list N) : list N :=
  match rev s with
  | c :: t => if (c =? 62)%N then rev (email_loop false t) else s
  | [] => s
  end.

(** isAscii, StringValidation.java:221-228. *)
Definition j_is_ascii (s : list N) : bool := forallb (fun c => (c <=? 127)%N) s.

(** uuid, StringValidation.java:195-215. *)
Definition uuid_char (i : nat) (c : N) : bool :=
  if ((i =? 8) || (i =? 13) || (i =? 18) || (i =? 23))%nat then (c =? 45)%N
  else negb (((c <? 48) || (57 <? c)) && ((c <? 97) || (102 <? c)) && ((c <? 65) || (70 <? c)))%N.
Fixpoint uuid_loop (i : nat) (s : list N) : bool :=
  match s with
  | [] => true
  | c :: t => uuid_char i c && uuid_loop (S i) t
  end.
Definition j_uuid (s : list N) : outcome :=
  throw_unless ((List.length s =? 36)%nat && uuid_loop 0 s).

Section Libs.
Variable jl : java_libs.

(** The methods of StringValidation.java that test a format: email (111-133), address (135-142),
    hostName (144-153), ip (155-160), ipv4 (162-167), ipv6 (169-174), uri (176-185), uriRef (187-193). *)
Definition j_email (s : list N) : outcome := throw_unless (jl_email jl (email_part s)).
Definition j_address (s : list N) : outcome :=
  throw_unless ((j_is_ascii s && jl_domain jl s) || jl_inet jl s).
Definition j_hostname (s : list N) : outcome := throw_unless (j_is_ascii s && jl_domain jl s).
Definition j_uri (s : list N) : outcome :=
  throw_unless (match jl_uri jl s with Some abs => abs | None => false end).
Definition j_uri_ref (s : list N) : outcome := throw_unless (is_some (jl_uri jl s)).

(** The well_known branches of stringTpl, templates/java/string.go:72-98: only one member of the
    oneof is set, so at most one is taken. *)
Definition j_well_known (w : option str_wk) (s : list N) : outcome :=
  match w with
  | Some (WEmail true) => j_email s
  | Some (WAddress true) => j_address s
  | Some (WHostname true) => j_hostname s
  | Some (WIp true) => throw_unless (jl_inet jl s)
  | Some (WIpv4 true) => throw_unless (jl_inet4 jl s)
  | Some (WIpv6 true) => throw_unless (jl_inet6 jl s)
  | Some (WUri true) => j_uri s
  | Some (WUriRef true) => j_uri_ref s
  | Some (WUuid true) => j_uuid s
  | _ => Passes
  end.

(** stringTpl, templates/java/string.go:25-102. *)
Definition j_string (r : string_rules) (b : bytes) : outcome :=
  let s := jstring b in
  let lit := jstring in
  only_if (negb (getb (s_ignore_empty r) && is_nil s))
    (in_order [on_some (s_const r) (fun c => j_constant bytes_eqb s (Some (lit c)));
           only_if (negb (is_nil (s_in r))) (j_in bytes_eqb s (map (fun c => Some (lit c)) (s_in r)));
           only_if (negb (is_nil (s_not_in r))) (j_not_in bytes_eqb s (map (fun c => Some (lit c)) (s_not_in r)));
           on_some (s_len r) (fun n => throw_unless (code_points s =? n)%N);
           on_some (s_min_len r) (fun n => throw_unless (n <=? code_points s)%N);
           on_some (s_max_len r) (fun n => throw_unless (code_points s <=? n)%N);
           on_some (s_len_bytes r) (fun n => throw_unless (utf8_length s =? n)%N);
           on_some (s_min_bytes r) (fun n => throw_unless (n <=? utf8_length s)%N);
           on_some (s_max_bytes r) (fun n => throw_unless (utf8_length s <=? n)%N);
           on_some (s_pattern r) (fun p => throw_unless (jl_matches jl p s));
           on_some (s_prefix r) (fun p => throw_unless (has_prefix s (lit p)));
           on_some (s_contains r) (fun p => throw_unless (contains s (lit p)));
           on_some (s_not_contains r) (fun p => throw_unless (negb (contains s (lit p))));
           on_some (s_suffix r) (fun p => throw_unless (has_suffix s (lit p)));
           j_well_known (s_wk r) s]).

(** A bytes field of a rule is rendered when it is not empty. *)
Definition on_nonempty (o : option bytes) (f : bytes -> outcome) : outcome :=
  match o with Some ((_ :: _) as s) => f s | _ => Passes end.

(** bytesTpl, templates/java/bytes.go:34-79, with the methods of BytesValidation.java. *)
Definition j_bytes (r : bytes_rules) (s : bytes) : outcome :=
  only_if (negb (getb (b_ignore_empty r) && is_nil s))
    (in_order [on_nonempty (b_const r) (fun c => j_constant bytes_eqb s (Some c));
           on_some (b_len r) (fun n => throw_unless (blen s =? n)%N);
           on_some (b_min_len r) (fun n => throw_unless (n <=? blen s)%N);
           on_some (b_max_len r) (fun n => throw_unless (blen s <=? n)%N);
           on_some (b_pattern r) (fun p => throw_unless (jl_matches jl p (jl_utf8 jl s)));
           on_nonempty (b_prefix r) (fun p => throw_unless (has_prefix s p));
           on_nonempty (b_contains r) (fun p => throw_unless (contains s p));
           on_nonempty (b_suffix r) (fun p => throw_unless (has_suffix s p));
           match b_wk r with
           | Some (BIp true) => throw_unless ((blen s =? 4) || (blen s =? 16))%N
           | Some (BIpv4 true) => throw_unless (blen s =? 4)%N
           | Some (BIpv6 true) => throw_unless (blen s =? 16)%N
           | _ => Passes
           end;
           only_if (negb (is_nil (b_in r))) (j_in bytes_eqb s (map Some (b_in r)));
           only_if (negb (is_nil (b_not_in r))) (j_not_in bytes_eqb s (map Some (b_not_in r)))]).

Variable sc : schema.

(** ** Enums: the Java constant of a number, or UNRECOGNIZED. *)
Inductive jenum := JConst (z : Z) | JUnrecognized.
Definition enum_has (e : string) (z : Z) : bool :=
  match find_enum sc e with Some d => existsb (Z.eqb z) (en_values d) | None => false end.
Definition jenum_of (e : string) (z : Z) : jenum := if enum_has e z then JConst z else JUnrecognized.
(** [forNumber]: null when there is no such constant. *)
Definition for_number (e : string) (z : Z) : option jenum := if enum_has e z then Some (JConst z) else None.
Definition jenum_equals (a b : jenum) : bool :=
  match a, b with JConst x, JConst y => Z.eqb x y | JUnrecognized, JUnrecognized => true | _, _ => false end.

(** enumTpl, templates/java/enum.go:19-33; definedOnly, EnumValidation.java:12-16. *)
Definition j_enum (e : string) (r : enum_rules) (z : Z) : outcome :=
  let v := jenum_of e z in
  in_order [on_some (e_const r) (fun c => j_constant jenum_equals v (for_number e c));
        only_if (getb (e_defined_only r)) (throw_unless (match v with JUnrecognized => false | _ => true end));
        only_if (negb (is_nil (e_in r))) (j_in jenum_equals v (map (for_number e) (e_in r)));
        only_if (negb (is_nil (e_not_in r))) (j_not_in jenum_equals v (map (for_number e) (e_not_in r)))].

(** requiredTpl, templates/java/required.go:3-11. *)
Definition j_required {A} (b : option bool) (o : option A) : outcome :=
  only_if (getb b) (throw_unless (is_some o)).

(** anyTpl, templates/java/any.go:20-30. *)
Definition j_any (r : any_rules) (o : option bytes) : outcome :=
  in_order [j_required (a_required r) o;
        only_if (negb (is_nil (a_in r)))
          (on_some o (fun url => j_in bytes_eqb (jstring url) (map (fun c => Some (jstring c)) (a_in r))));
        only_if (negb (is_nil (a_not_in r)))
          (on_some o (fun url => j_not_in bytes_eqb (jstring url) (map (fun c => Some (jstring c)) (a_not_in r))))].

(** ** Durations and timestamps (com.google.protobuf.util, not in /repo). *)
Definition sn_equals (a b : sn) : bool := (Z.eqb (sn_s a) (sn_s b) && Z.eqb (sn_n a) (sn_n b))%Z.
(** Durations.isValid, Timestamps.isValid. *)
Definition jdur_valid (d : sn) : bool :=
  ((-315576000000 <=? sn_s d) && (sn_s d <=? 315576000000) &&
   (-999999999 <=? sn_n d) && (sn_n d <=? 999999999) &&
   negb (((sn_s d <? 0) || (sn_n d <? 0)) && ((0 <? sn_s d) || (0 <? sn_n d))))%Z.
Definition jts_valid (t : sn) : bool :=
  ((-62135596800 <=? sn_s t) && (sn_s t <=? 253402300799) && (0 <=? sn_n t) && (sn_n t <=? 999999999))%Z.
Definition sn_compare (a b : sn) : comparison :=
  match Z.compare (sn_s a) (sn_s b) with Eq => Z.compare (sn_n a) (sn_n b) | c => c end.
(** Durations.comparator() and Timestamps.comparator() check both arguments first. *)
Definition jdur_compare (a b : sn) : option comparison :=
  if jdur_valid a && jdur_valid b then Some (sn_compare a b) else None.
Definition jts_compare (a b : sn) : option comparison :=
  if jts_valid a && jts_valid b then Some (sn_compare a b) else None.

(** durationTpl, templates/java/duration.go:35-63. *)
Definition j_duration (r : duration_rules) (o : option sn) : outcome :=
  andthen (j_required (d_required r) o)
  (on_some o (fun d =>
     in_order [on_some (d_const r) (fun c => j_constant sn_equals d (Some c));
           j_bounds jdur_compare d (d_lt r) (d_lte r) (d_gt r) (d_gte r);
           only_if (negb (is_nil (d_in r))) (j_in sn_equals d (map Some (d_in r)));
           only_if (negb (is_nil (d_not_in r))) (j_not_in sn_equals d (map Some (d_not_in r)))])).

(** currentTimestamp, TimestampValidation.java:43-45. *)
Definition j_now : sn := mkSN (jl_now_ms jl / 1000) ((jl_now_ms jl mod 1000) * 1000000).

(** within, TimestampValidation.java:14-19.  Timestamps.between checks its arguments and
    Durations.toNanos throws when the nanoseconds do not fit a long; Math.abs of the least long is
    itself. *)
Definition total (d : sn) : Z := (sn_s d * 1000000000 + sn_n d)%Z.
Definition jabs (z : Z) : Z := if Z.eqb z (- 2^63) then z else Z.abs z.
Definition j_within (t d when_ : sn) : outcome :=
  let diff := (total t - total when_)%Z in
  if jts_valid t && jts_valid when_ && fits_int64 diff && jdur_valid d && fits_int64 (total d)
  then throw_unless (negb (jabs (total d) <? jabs diff)%Z)
  else Crashes.

(** timestampTpl, templates/java/timestamp.go:27-58. *)
Definition j_timestamp (r : timestamp_rules) (o : option sn) : outcome :=
  andthen (j_required (t_required r) o)
  (on_some o (fun t =>
     in_order [on_some (t_const r) (fun c => j_constant sn_equals t (Some c));
           j_bounds jts_compare t (t_lt r) (t_lte r) (t_gt r) (t_gte r);
           on_some (t_lt_now r) (fun _ => j_less_than jts_compare t j_now);
           on_some (t_gt_now r) (fun _ => j_greater_than jts_compare t j_now);
           on_some (t_within r) (fun d => j_within t d j_now)])).

(** * Fields *)

(** The rule templates on a value of the rule's type.  On other types the generated code does
    not compile or the generator fails: there is nothing to run. *)
Definition j_rule (e : etype) (r : rule_type) (v : value) : outcome :=
  match r, v with
  | RNum k r, VNum n => j_num k r n
  | RBool c, VBool b => j_bool c b
  | RString r, VStr s => j_string r s
  | RBytes r, VByt s => j_bytes r s
  | REnum r, VEnum z => j_enum (match e with TEnum n => n | _ => ""%string end) r z
  | RAny r, VAny o => j_any r o
  | RDuration r, VDur o => j_duration r o
  | RTimestamp r, VTs o => j_timestamp r o
  | _, _ => Crashes
  end.

(** Is the message field set?  Elements of lists and maps: [hasAccessor] is "true"
    (register.go:330-337), and they never are null. *)
Definition jhas (v : value) : bool :=
  match v with
  | VMsg None | VWrap None | VAny None | VDur None | VTs None => false
  | _ => true
  end.

(** [index.validatorFor(x).assertValid(x)] for a message of type [n]. *)
Variable embedded : string -> msgval -> outcome.

Definition j_embedded (e : etype) (v : value) : outcome :=
  match e, v with
  | TMsg n, VMsg (Some m) => embedded n m
  | _, _ => if jhas v then Passes else Crashes
  end.

(** messageTpl, templates/java/message.go:3-13.  [elem]: in a list or map. *)
Definition j_message (elem : bool) (e : etype) (mr : option message_rules) (v : value) : outcome :=
  if match mr with Some m => getb (m_skip m) | None => false end then Passes
  else andthen (only_if (match mr with Some m => getb (m_required m) | None => false end)
               (throw_unless (elem || jhas v)))
            (only_if (elem || jhas v) (j_embedded e v)).

(** wrapperTpl, templates/java/wrapper.go:6-12. *)
Definition j_wrapper (w : wrapkind) (mr : option message_rules) (r : rule_type) (o : option value) : outcome :=
  match o with
  | Some x => j_rule (wrapped_type w) r x
  | None => throw_unless (negb (match mr with Some m => getb (m_required m) | None => false end))
  end.

(** Which template a field or element context renders (context.go:119-177 of templates/shared).
    Rules on wrappers in lists and maps make the generator panic. *)
Definition j_elem (elem : bool) (e : etype) (fr : option field_rules) (v : value) : outcome :=
  match fr with
  | Some (FR mr (Some r)) =>
      match e, v with
      | TWrap w, VWrap o => if elem then Crashes else j_wrapper w mr r o
      | _, _ => j_rule e r v
      end
  | Some (FR mr None) => only_if (is_embed e) (j_message elem e mr v)
  | None => only_if (is_embed e) (j_message elem e None v)
  end.

(** [equals] of the values that [unique] is allowed on: not messages. *)
Definition j_value_equals (e : etype) (a b : value) : bool :=
  match e, a, b with
  | TNum k, VNum x, VNum y => jn_equals (to_java k x) (to_java k y)
  | TBool, VBool x, VBool y => Bool.eqb x y
  | TString, VStr x, VStr y => bytes_eqb (jstring x) (jstring y)
  | TBytes, VByt x, VByt y => bytes_eqb x y
  | TEnum n, VEnum x, VEnum y => jenum_equals (jenum_of n x) (jenum_of n y)
  | _, _, _ => false
  end.

(** [$r.GetMinItems] and the like are rendered when not zero. *)
Definition jnz (o : option N) (f : N -> outcome) : outcome :=
  match o with Some n => if (n =? 0)%N then Passes else f n | None => Passes end.

(** repeatedTpl, templates/java/repeated.go:5-24; minItems, maxItems and forEach,
    RepeatedValidation.java:17-27 and 47-51. *)
Definition j_repeated (e : etype) (r : rep_rules field_rules) (l : list value) : outcome :=
  let n := N.of_nat (List.length l) in
  only_if (negb (getb (r_ignore_empty r) && is_nil l))
    (in_order [jnz (r_min r) (fun a => throw_unless (negb (n <? a)%N));
           jnz (r_max r) (fun b => throw_unless (negb (b <? n)%N));
           only_if (getb (r_unique r)) (j_unique (j_value_equals e) [] l);
           in_order (map (j_elem true e (r_items r)) l)]).

(** Is the element's context of type "none"? *)
Definition j_none (e : etype) (fr : option field_rules) : bool :=
  match fr with Some (FR _ (Some _)) => false | _ => negb (is_embed e) end.

(** mapTpl, templates/java/map.go:11-38; min, max, noSparse and validateParts,
    MapValidation.java:15-41. *)
Definition j_map (k w : etype) (r : map_rules field_rules) (l : list (value * value)) : outcome :=
  let n := N.of_nat (List.length l) in
  only_if (negb (getb (p_ignore_empty r) && is_nil l))
    (in_order [jnz (p_min r) (fun a => throw_unless (N.min n a =? a)%N);
           jnz (p_max r) (fun b => throw_unless (N.max n b =? b)%N);
           only_if (getb (p_no_sparse r)) Unimplemented;
           only_if (negb (j_none w (p_values r)) || negb (j_none k (p_keys r)))
             (andthen (in_order (map (fun p => j_elem true k (p_keys r) (fst p)) l))
                   (in_order (map (fun p => j_elem true w (p_values r) (snd p)) l)))]).

(** [render (context .)] for a field, as in Go (rulesContext, context.go:26-45). *)
Definition j_field (f : field) (v : value) : outcome :=
  match f_type f, fr_typ (f_rules f), v with
  | FOne e, _, _ => j_elem false e (Some (f_rules f)) v
  | FRep e, Some (RRepeated r), VList l => j_repeated e r l
  | FRep e, None, VList l => j_repeated e (mkRepRules None None None None None) l
  | FMap k w, Some (RMap r), VMap l => j_map k w r l
  | FMap k w, None, VMap l => only_if (is_embed w) (j_map k w (mkMapRules None None None None None None) l)
  | _, _, _ => Crashes
  end.

(** oneOfTpl, templates/java/oneof.go:7-20. *)
Definition j_oneof (o : oneof) (set : option (string * value)) : outcome :=
  match set with
  | Some (fn, v) =>
      match find (fun f => String.eqb fn (f_name f)) (o_fields o) with
      | Some f => j_field f v
      | None => Passes
      end
  | None => throw_unless (negb (getb (o_required o)))
  end.

(** msgInnerTpl, templates/java/msg.go:14-38: assertValid. *)
Definition j_msg (d : msgdesc) (m : msgval) : outcome :=
  if md_disabled d then Passes
  else andthen (in_order (map (fun f => match assoc (f_name f) (mv_fields m) with Some v => j_field f v | None => Passes end)
                     (md_fields d)))
            (in_order (map (fun o => match assoc (o_name o) (mv_oneofs m) with Some s => j_oneof o s | None => Passes end)
                     (md_oneofs d))).
End Libs.

Section Run.
Variable jl : java_libs.
Variable sc : schema.
(** Messages with the option [ignored], for which validatorFor (templates/java/file.go:13-20) returns
    null: calling that validator is a NullPointerException. *)
Variable ignored : string -> bool.

(** ReflectiveValidatorIndex.validatorFor(x).assertValid(x): a type without a validator class gets
    ALWAYS_VALID (ReflectiveValidatorIndex.java:39-68).  The fuel is for the nesting of messages. *)
Fixpoint assert_valid_f (fuel : nat) (n : string) (m : msgval) : outcome :=
  match fuel with
  | O => Crashes
  | S k =>
      match find_msg sc n with
      | Some d =>
          match md_methods d with
          | MNone => if ignored n then Crashes else Passes
          | _ => j_msg jl sc (assert_valid_f k) d m
          end
      | None => Passes
      end
  end.
End Run.
