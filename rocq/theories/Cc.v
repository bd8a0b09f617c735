(** The C++ side: validate/validate.h, and what the code generated by templates/cc does with a
    message.

    As for Java, the generated code is modelled by its effect, one function per template.
    [Passes] is [return true] at the end of Validate, [Rejects] is [return false], and
    [Unimplemented] is [throw pgv::UnimplementedException].  The texts of errors are left out. *)
From Coq Require Import Floats.SpecFloat.
From Verif Require Import Base Utf8 Num Rules Types Time Regex Known Outcome.

(** * The runtime library *)

(** IsPrefix, validate.h:77-80: [search_in.compare(0, n, maybe_prefix)] compares the first [n]
    bytes, or all of them if there are fewer. *)
Definition cc_is_prefix (maybe_prefix search_in : bytes) : bool :=
  bytes_eqb (firstn (List.length maybe_prefix) search_in) maybe_prefix.
(** IsSuffix, validate.h:82-85. *)
Definition cc_is_suffix (maybe_suffix search_in : bytes) : bool :=
  (List.length maybe_suffix <=? List.length search_in)%nat &&
  bytes_eqb (firstn (List.length maybe_suffix) (skipn (List.length search_in - List.length maybe_suffix) search_in)) maybe_suffix.
(** Contains, validate.h:87-90: [std::string::find] tries every position up to the end. *)
Fixpoint cc_contains (search_in to_find : bytes) : bool :=
  cc_is_prefix to_find search_in || match search_in with [] => false | _ :: t => cc_contains t to_find end.

(** UTF8FirstLetterNumBytes (google/protobuf/stubs/strutil, not in /repo): a table over the
    first byte. *)
Definition first_letter_bytes (b : N) : nat :=
  (if (b <? 0xC0)%N then 1 else if (b <? 0xE0)%N then 2 else if (b <? 0xF0)%N then 3 else 4)%nat.
(** Utf8Len, validate.h:140-152.  [skip]: bytes of the current character still to pass over; the
    loop ends when no bytes are left, or fewer than none. *)
Fixpoint utf8_len_skip (skip : nat) (s : bytes) : N :=
  match s with
  | [] => 0%N
  | b :: t =>
      match skip with
      | S k => utf8_len_skip k t
      | O => (1 + utf8_len_skip (first_letter_bytes b - 1) t)%N
      end
  end.
Definition cc_utf8_len (s : bytes) : N := utf8_len_skip 0 s.

(** The tokens between the dots, validate.h:116-118: std::sregex_token_iterator with -1 reports
    the text after the last match only if it is not empty, and without any match the whole text. *)
Definition cc_tokens (s : bytes) : list bytes :=
  match split_on 46 s with
  | [p] => [p]
  | l => if is_nil (List.last l []) then removelast l else l
  end.
(** [char] is signed. *)
Definition schar (c : N) : Z := if (c <? 128)%N then Z.of_N c else (Z.of_N c - 256)%Z.
Definition cc_host_char (c : N) : bool :=
  negb (((schar c <? 65) || (90 <? schar c)) && ((schar c <? 97) || (122 <? schar c)) &&
        ((schar c <? 48) || (57 <? schar c)) && negb (schar c =? 45))%Z.
(** IsHostname, validate.h:111-138. *)
Definition cc_host_part (p : bytes) : bool :=
  if is_nil p || (63 <? blen p)%N then false
  else if (hd 0 p =? 45)%N then false
  else if (List.last p 0 =? 45)%N then false
  else forallb cc_host_char p.
Definition cc_is_hostname (s : bytes) : bool :=
  if (253 <? blen s)%N then false else forallb cc_host_part (cc_tokens s).

(** The text up to the first NUL: what a C string shows of it. *)
Fixpoint upto_nul (s : bytes) : bytes :=
  match s with
  | [] => []
  | c :: t => if (c =? 0)%N then [] else c :: upto_nul t
  end.

(** What is not modelled: RE2::FullMatch of the pattern compiled from a text, inet_pton for the
    two address families, and the C++ [double] that is the value of the literal which strconv
    prints for a float32 (the shortest decimal that identifies it among the float32 values). *)
Record cc_libs := mkCcLibs {
  cl_full : bytes -> bytes -> bool;
  cl_inet4 : bytes -> bool;
  cl_inet6 : bytes -> bool;
  cl_short : spec_float -> spec_float }.

(** * The generated code *)

(** ** Numbers *)

(** [lit] of a float32, register.go:257-258: "%fF", so six decimals (rounded half to even by
    strconv), read back as a [float]. *)
Definition round_div (n d : Z) : Z :=
  let q := (n / d)%Z in
  let r := (n mod d)%Z in
  match Z.compare (2 * r) d with
  | Lt => q
  | Gt => (q + 1)%Z
  | Eq => if Z.even q then q else (q + 1)%Z
  end.
Definition fixed6 (f : spec_float) : spec_float :=
  match f with
  | S754_finite s m e =>
      let n := if (0 <=? e)%Z then (Zpos m * 1000000 * 2 ^ e)%Z else round_div (Zpos m * 1000000) (2 ^ (- e)) in
      match n with
      | Zpos p => SFdiv 24 128 (S754_finite s p 0) (S754_finite false 1000000 0)
      | _ => S754_zero s
      end
  | _ => f
  end.
(** A [float] converted to [double]: the same number with 53 significant bits. *)
Definition widen (f : spec_float) : spec_float :=
  match f with
  | S754_finite s m e =>
      let d := (53 - Zpos (digits2_pos m))%Z in
      S754_finite s (Z.to_pos (Zpos m * 2 ^ d)) (e - d)
  | _ => f
  end.

(** [lit] of a constant, register.go:229-261.  Integers are printed in decimal and double
    values so that they can be read back exactly.  That the literal is a C++ constant of the
    field's type at all is a condition of the theorems ([cc_const] in CcSpec.v). *)
Definition cc_lit (k : numkind) (n : num) : num :=
  match k, n with KFloat, NF f => NF (fixed6 f) | _, _ => n end.

(** The order that std::set uses finds an element that is neither less nor greater.  (A search
    for NaN ends at the first element.) *)
Definition set_find {A} (less : A -> A -> bool) (v : A) (set : list A) : bool :=
  existsb (fun c => negb (less v c) && negb (less c v)) set.

(** inTpl, templates/cc/in.go:3-13. *)
Definition cc_lists {A} (found : list A -> bool) (l nl : list A) : outcome :=
  if negb (is_nil l) then throw_unless (found l)
  else if negb (is_nil nl) then throw_unless (negb (found nl))
  else Passes.

Section Ltgt.
Context {A B : Type}.
(** The value against a bound: [v < b], [v <= b], [v > b], [v >= b]; and, when the code is
    generated, two bounds against each other. *)
Variable lt_ le_ gt_ ge_ : A -> B -> bool.
Variable gen_gt : B -> B -> bool.
(** ltgtTpl, templates/cc/ltgt.go:3-65; and templates/cc/duration.go:27-75. *)
Definition cc_ltgt (v : A) (lt lte gt gte : option B) : outcome :=
  match lt, lte, gt, gte with
  | Some lt, _, Some gt, _ =>
      if gen_gt lt gt then throw_unless (negb (le_ v gt || ge_ v lt))
      else throw_unless (negb (ge_ v lt && le_ v gt))
  | Some lt, _, None, Some gte =>
      if gen_gt lt gte then throw_unless (negb (lt_ v gte || ge_ v lt))
      else throw_unless (negb (ge_ v lt && lt_ v gte))
  | Some lt, _, None, None => throw_unless (negb (ge_ v lt))
  | None, Some lte, Some gt, _ =>
      if gen_gt lte gt then throw_unless (negb (le_ v gt || gt_ v lte))
      else throw_unless (negb (gt_ v lte && le_ v gt))
  | None, Some lte, None, Some gte =>
      if gen_gt lte gte then throw_unless (negb (lt_ v gte || gt_ v lte))
      else throw_unless (negb (gt_ v lte && lt_ v gte))
  | None, Some lte, None, None => throw_unless (negb (gt_ v lte))
  | None, None, Some gt, _ => throw_unless (negb (le_ v gt))
  | None, None, None, Some gte => throw_unless (negb (lt_ v gte))
  | None, None, None, None => Passes
  end.
End Ltgt.

Definition cc_zero (n : num) : bool :=
  match n with NI z => Z.eqb z 0 | NF (S754_zero _) => true | _ => false end.

Section Libs.
Variable cl : cc_libs.

(** A bound is printed with [%v] (ltgt.go:7 and so on): for a float32 without a suffix, so
    that the comparison is one of [double] values. *)
Definition cc_wide (k : numkind) (n : num) : num :=
  match k, n with KFloat, NF f => NF (widen f) | _, _ => n end.
Definition cc_bound (k : numkind) (n : num) : num :=
  match k, n with KFloat, NF f => NF (cl_short cl f) | _, _ => n end.

(** numTpl, templates/cc/num.go:3-13. *)
Definition cc_num (k : numkind) (r : num_rules) (n : num) : outcome :=
  only_if (negb (getb (n_ignore_empty r) && cc_zero n))
    (in_order [on_some (n_const r) (fun c => throw_unless (num_eqb n (cc_lit k c)));
           cc_ltgt (fun v b => num_ltb (cc_wide k v) (cc_bound k b)) (fun v b => num_leb (cc_wide k v) (cc_bound k b))
             (fun v b => num_ltb (cc_bound k b) (cc_wide k v)) (fun v b => num_leb (cc_bound k b) (cc_wide k v))
             (fun a b => num_ltb b a) n (n_lt r) (n_lte r) (n_gt r) (n_gte r);
           cc_lists (fun l => set_find num_ltb n (map (cc_lit k) l)) (n_in r) (n_not_in r)]).

(** constTpl on a bool, templates/cc/const.go:3-9. *)
Definition cc_bool (c : option bool) (v : bool) : outcome := on_some c (fun b => throw_unless (Bool.eqb v b)).

(** ** Strings *)

(** IsIpv4, IsIpv6, IsIp, validate.h:97-109. *)
Definition cc_is_ipv4 (s : bytes) : bool := cl_inet4 cl (upto_nul s).
Definition cc_is_ipv6 (s : bytes) : bool := cl_inet6 cl (upto_nul s).
Definition cc_is_ip (s : bytes) : bool := cc_is_ipv4 s || cc_is_ipv6 s.
(** [RE2::FullMatch] of the pattern of file.go:22, which matches single bytes only. *)
Definition cc_is_uuid (s : bytes) : bool := rmatch uuid_re s.

(** templates/cc/string.go:121-185; at most one member of the oneof is set. *)
Definition cc_well_known (w : option str_wk) (s : bytes) : outcome :=
  match w with
  | Some (WIp true) => throw_unless (cc_is_ip s)
  | Some (WIpv4 true) => throw_unless (cc_is_ipv4 s)
  | Some (WIpv6 true) => throw_unless (cc_is_ipv6 s)
  | Some (WEmail true) => Unimplemented
  | Some (WAddress true) => throw_unless (cc_is_hostname s || cc_is_ip s)
  | Some (WHostname true) => throw_unless (cc_is_hostname s)
  | Some (WUri true) => Unimplemented
  | Some (WUriRef true) => Unimplemented
  | Some (WUuid true) => throw_unless (cc_is_uuid s)
  | _ => Passes
  end.

(** The length branches: string.go:10-37 and 39-75, bytes.go:11-41. *)
Definition cc_len (n : N) (len mn mx : option N) : outcome :=
  match len, mn, mx with
  | Some l, _, _ => throw_unless (n =? l)%N
  | None, Some a, Some b =>
      if (a =? b)%N then throw_unless (n =? a)%N else throw_unless (negb ((n <? a)%N || (b <? n)%N))
  | None, Some a, None => throw_unless (negb (n <? a)%N)
  | None, None, Some b => throw_unless (negb (b <? n)%N)
  | None, None, None => Passes
  end.

(** A text in the generated code is a C string literal.  Go's escapes (%q, and \x.. for bytes)
    denote the same characters in C++ under the conditions of [cc_text] in CcSpec.v; the std::string
    made from it, or compared with it, ends at the first NUL. *)
Definition clit (s : bytes) : bytes := upto_nul s.

(** strTpl, templates/cc/string.go:3-189.  The pattern literal is taken with its length
    (msg.go:68-71). *)
Definition cc_string (r : string_rules) (s : bytes) : outcome :=
  only_if (negb (getb (s_ignore_empty r) && is_nil s))
    (in_order [on_some (s_const r) (fun c => throw_unless (bytes_eqb s (clit c)));
           cc_lists (fun l => existsb (bytes_eqb s) (map clit l)) (s_in r) (s_not_in r);
           cc_len (cc_utf8_len s) (s_len r) (s_min_len r) (s_max_len r);
           cc_len (blen s) (s_len_bytes r) (s_min_bytes r) (s_max_bytes r);
           on_some (s_prefix r) (fun p => throw_unless (cc_is_prefix (clit p) s));
           on_some (s_suffix r) (fun p => throw_unless (cc_is_suffix (clit p) s));
           on_some (s_contains r) (fun p => throw_unless (cc_contains s (clit p)));
           on_some (s_not_contains r) (fun p => throw_unless (negb (cc_contains s (clit p))));
           on_some (s_pattern r) (fun p => throw_unless (cl_full cl p s));
           cc_well_known (s_wk r) s]).

(** A bytes field of a rule is rendered when it is not empty. *)
Definition cc_nonempty (o : option bytes) (f : bytes -> outcome) : outcome :=
  match o with Some ((_ :: _) as s) => f s | _ => Passes end.

(** bytesTpl, templates/cc/bytes.go:3-103. *)
Definition cc_bytes (r : bytes_rules) (s : bytes) : outcome :=
  only_if (negb (getb (b_ignore_empty r) && is_nil s))
    (in_order [cc_nonempty (b_const r) (fun c => throw_unless (bytes_eqb s (clit c)));
           cc_lists (fun l => existsb (bytes_eqb s) (map clit l)) (b_in r) (b_not_in r);
           cc_len (blen s) (b_len r) (b_min_len r) (b_max_len r);
           cc_nonempty (b_prefix r) (fun p => throw_unless (cc_is_prefix (clit p) s));
           cc_nonempty (b_suffix r) (fun p => throw_unless (cc_is_suffix (clit p) s));
           cc_nonempty (b_contains r) (fun p => throw_unless (cc_contains s (clit p)));
           on_some (b_pattern r) (fun p => throw_unless (cl_full cl p s));
           match b_wk r with
           | Some (BIp true) | Some (BIpv4 true) | Some (BIpv6 true) => Unimplemented
           | _ => Passes
           end]).

Variable sc : schema.

(** [Color_IsValid] of the C++ protobuf code (not in /repo). *)
Definition cc_enum_valid (e : string) (z : Z) : bool :=
  match find_enum sc e with Some d => existsb (Z.eqb z) (en_values d) | None => false end.
(** enumTpl, templates/cc/enum.go:3-17. *)
Definition cc_enum (e : string) (r : enum_rules) (z : Z) : outcome :=
  in_order [on_some (e_const r) (fun c => throw_unless (Z.eqb z c));
        cc_lists (set_find Z.ltb z) (e_in r) (e_not_in r);
        only_if (getb (e_defined_only r)) (throw_unless (cc_enum_valid e z))].

(** requiredTpl, templates/cc/message.go:18-24. *)
Definition cc_required (b : option bool) (has : bool) : outcome := only_if (getb b) (throw_unless has).

(** anyTpl, templates/cc/any.go:3-17. *)
Definition cc_any (r : any_rules) (o : option bytes) : outcome :=
  andthen (cc_required (a_required r) (is_some o))
    (on_some o (fun url => cc_lists (fun l => existsb (bytes_eqb url) (map clit l)) (a_in r) (a_not_in r))).

(** ** Durations: operator< and operator== of google/protobuf/util/time_util.h (not in /repo). *)
Definition cc_dur_less (a b : sn) : bool :=
  if (sn_s a =? sn_s b)%Z then (sn_n a <? sn_n b)%Z else (sn_s a <? sn_s b)%Z.
Definition cc_dur_eq (a b : sn) : bool := ((sn_s a =? sn_s b) && (sn_n a =? sn_n b))%Z.
(** templates/cc/duration.go:11-13. *)
Definition cc_dur_range (d : sn) : bool :=
  negb ((999999999 <? sn_n d) || (sn_n d <? -999999999) || (315576000000 <? sn_s d) || (sn_s d <? -315576000000))%Z.
(** durationTpl, templates/cc/duration.go:3-88.  [durLit] adds the seconds and the nanoseconds;
    for the valid durations that the checker lets through that is the same message.  durGt,
    register.go:374-379. *)
Definition cc_duration (r : duration_rules) (o : option sn) : outcome :=
  andthen (cc_required (d_required r) (is_some o))
    (only_if (negb (is_nil (d_in r)) || negb (is_nil (d_not_in r)) || is_some (d_lt r) || is_some (d_lte r) ||
              is_some (d_gt r) || is_some (d_gte r) || is_some (d_const r))
       (on_some o (fun d =>
          in_order [throw_unless (cc_dur_range d);
                on_some (d_const r) (fun c => throw_unless (cc_dur_eq d c));
                cc_ltgt cc_dur_less (fun a b => negb (cc_dur_less b a)) (fun a b => cc_dur_less b a)
                  (fun a b => negb (cc_dur_less a b)) (fun a b => (as_duration b <? as_duration a)%Z)
                  d (d_lt r) (d_lte r) (d_gt r) (d_gte r);
                cc_lists (set_find cc_dur_less d) (d_in r) (d_not_in r)]))).

(** timestampTpl, templates/cc/timestamp.go:3-108: comparisons throw, whether or not there is a value. *)
Definition cc_timestamp (r : timestamp_rules) (o : option sn) : outcome :=
  andthen (cc_required (t_required r) (is_some o))
    (only_if (is_some (t_lt r) || is_some (t_lte r) || is_some (t_gt r) || is_some (t_gte r) ||
              is_some (t_lt_now r) || is_some (t_gt_now r) || is_some (t_within r) || is_some (t_const r))
       Unimplemented).

(** * Fields *)

(** The rule templates on a value of the rule's type.  On other types the generated code does
    not compile or the generator fails: there is nothing to run. *)
Definition cc_rule (e : etype) (r : rule_type) (v : value) : outcome :=
  match r, v with
  | RNum k r, VNum n => cc_num k r n
  | RBool c, VBool b => cc_bool c b
  | RString r, VStr s => cc_string r s
  | RBytes r, VByt s => cc_bytes r s
  | REnum r, VEnum z => cc_enum (match e with TEnum n => n | _ => ""%string end) r z
  | RAny r, VAny o => cc_any r o
  | RDuration r, VDur o => cc_duration r o
  | RTimestamp r, VTs o => cc_timestamp r o
  | _, _ => Crashes
  end.

(** [m.has_f()].  For elements of lists and maps [hasAccessor] is "true" (register.go:138-146),
    and there they always exist. *)
Definition cc_has (elem : bool) (v : value) : bool :=
  elem || match v with VMsg None | VWrap None | VAny None | VDur None | VTs None => false | _ => true end.

(** [pgv::Validator<T>::CheckMessage] for the message type [n], validate.h:59-66. *)
Variable check_message : string -> msgval -> outcome.

(** No validator is registered for the well-known types. *)
Definition cc_embedded (e : etype) (v : value) : outcome :=
  match e, v with TMsg n, VMsg (Some m) => check_message n m | _, _ => Passes end.

(** messageTpl, templates/cc/message.go:3-16. *)
Definition cc_message (elem : bool) (e : etype) (mr : option message_rules) (v : value) : outcome :=
  andthen (only_if (match mr with Some m => getb (m_required m) | None => false end) (throw_unless (cc_has elem v)))
    (only_if (negb (match mr with Some m => getb (m_skip m) | None => false end))
       (only_if (cc_has elem v) (cc_embedded e v))).

(** wrapperTpl, templates/cc/wrapper.go:3-12. *)
Definition cc_wrapper (w : wrapkind) (mr : option message_rules) (r : rule_type) (o : option value) : outcome :=
  match o with
  | Some x => cc_rule (wrapped_type w) r x
  | None => throw_unless (negb (match mr with Some m => getb (m_required m) | None => false end))
  end.

(** Which template a field or element context renders (context.go:119-177 of templates/shared).
    Rules on wrappers in lists and maps make the generator panic. *)
Definition cc_elem (elem : bool) (e : etype) (fr : option field_rules) (v : value) : outcome :=
  match fr with
  | Some (FR mr (Some r)) =>
      match e, v with
      | TWrap w, VWrap o => if elem then Crashes else cc_wrapper w mr r o
      | _, _ => cc_rule e r v
      end
  | Some (FR mr None) => only_if (is_embed e) (cc_message elem e mr v)
  | None => only_if (is_embed e) (cc_message elem e None v)
  end.

(** The equality of the scalars that [unique] is allowed on. *)
Definition cc_equals (a b : value) : bool :=
  match a, b with
  | VNum x, VNum y => num_eqb x y
  | VBool x, VBool y => Bool.eqb x y
  | VStr x, VStr y => bytes_eqb x y
  | VByt x, VByt y => bytes_eqb x y
  | VEnum x, VEnum y => Z.eqb x y
  | _, _ => false
  end.

(** The count branches: repeated.go:8-26, map.go:9-33. *)
Definition cc_count (n : N) (mn mx : option N) : outcome :=
  let a := match mn with Some a => a | None => 0%N end in
  let b := match mx with Some b => b | None => 0%N end in
  if negb (a =? 0)%N then
    if (a =? b)%N then throw_unless (n =? a)%N
    else if is_some mx then throw_unless (negb ((n <? a)%N || (b <? n)%N))
    else throw_unless (negb (n <? a)%N)
  else if is_some mx then throw_unless (negb (b <? n)%N)
  else Passes.

(** The loop of repTpl, repeated.go:49-61: an item that the unordered_set already has is a
    violation, then the rules for items. *)
Fixpoint cc_items (uniq : bool) (e : etype) (fr : option field_rules) (seen l : list value) : outcome :=
  match l with
  | [] => Passes
  | x :: t =>
      andthen (only_if uniq (throw_unless (negb (existsb (cc_equals x) seen))))
        (andthen (cc_elem true e fr x) (cc_items uniq e fr (x :: seen) t))
  end.

(** Is the element's context of type "none"? *)
Definition cc_none (e : etype) (fr : option field_rules) : bool :=
  match fr with Some (FR _ (Some _)) => false | _ => negb (is_embed e) end.

(** repTpl, templates/cc/repeated.go:3-66. *)
Definition cc_repeated (e : etype) (r : rep_rules field_rules) (l : list value) : outcome :=
  only_if (negb (getb (r_ignore_empty r) && is_nil l))
    (andthen (cc_count (N.of_nat (List.length l)) (r_min r) (r_max r))
       (only_if (getb (r_unique r) || negb (cc_none e (r_items r)))
          (cc_items (getb (r_unique r)) e (r_items r) [] l))).

(** mapTpl, templates/cc/map.go:3-54. *)
Definition cc_map (k w : etype) (r : map_rules field_rules) (l : list (value * value)) : outcome :=
  only_if (negb (getb (p_ignore_empty r) && is_nil l))
    (andthen (cc_count (N.of_nat (List.length l)) (p_min r) (p_max r))
       (only_if (getb (p_no_sparse r) || negb (cc_none w (p_values r)) || negb (cc_none k (p_keys r)))
          (andthen (in_order (map (fun kv => andthen (cc_elem true k (p_keys r) (fst kv)) (cc_elem true w (p_values r) (snd kv))) l))
             (only_if (getb (p_no_sparse r)) Unimplemented)))).

(** [render (context .)] for a field (rulesContext, context.go:26-45). *)
Definition cc_field (f : field) (v : value) : outcome :=
  match f_type f, fr_typ (f_rules f), v with
  | FOne e, _, _ => cc_elem false e (Some (f_rules f)) v
  | FRep e, Some (RRepeated r), VList l => cc_repeated e r l
  | FRep e, None, VList l => cc_repeated e (mkRepRules None None None None None) l
  | FMap k w, Some (RMap r), VMap l => cc_map k w r l
  | FMap k w, None, VMap l => only_if (is_embed w) (cc_map k w (mkMapRules None None None None None None) l)
  | _, _, _ => Crashes
  end.

(** templates/cc/msg.go:105-119. *)
Definition cc_oneof (o : oneof) (set : option (string * value)) : outcome :=
  match set with
  | Some (fn, v) =>
      match find (fun f => String.eqb fn (f_name f)) (o_fields o) with
      | Some f => cc_field f v
      | None => Passes
      end
  | None => throw_unless (negb (getb (o_required o)))
  end.

(** Validate, templates/cc/msg.go:96-122. *)
Definition cc_msg (d : msgdesc) (m : msgval) : outcome :=
  if md_disabled d then Passes
  else andthen (in_order (map (fun f => match assoc (f_name f) (mv_fields m) with Some v => cc_field f v | None => Passes end)
                     (md_fields d)))
            (in_order (map (fun o => match assoc (o_name o) (mv_oneofs m) with Some s => cc_oneof o s | None => Passes end)
                     (md_oneofs d))).
End Libs.

Section Run.
Variable cl : cc_libs.
Variable sc : schema.

(** CheckMessage: a message type for which no validator was registered (file.go:24-32: option
    [ignored] or [disabled], or generated without this plugin) passes.  The fuel is for the nesting of
    messages. *)
Fixpoint cc_validate_f (fuel : nat) (n : string) (m : msgval) : outcome :=
  match fuel with
  | O => Crashes
  | S k =>
      match find_msg sc n with
      | Some d =>
          match md_methods d with
          | MNone => Passes
          | _ => cc_msg cl sc (cc_validate_f k) d m
          end
      | None => Passes
      end
  end.
End Run.
