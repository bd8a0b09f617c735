(** What the rules mean.

    Written from validate/validate.proto and README.md.  For a field value the
    specification is a table of requirements in the order in which they are reported:
    each has the proposition that must hold, and how a violation is described.  A message
    is valid when every requirement of every message reachable from it holds.

    Nothing here uses the checker, the templates or the execution model. *)
From Coq Require Import Floats.SpecFloat.
From Verif Require Import Base Num Rules Types Iface.

(** * Texts *)

(** UTF-8 (RFC 3629): the bytes of a Unicode scalar value. *)
Definition scalar_value (c : N) : Prop := (c < 0xD800 \/ 0xE000 <= c < 0x110000)%N.

Definition utf8_bytes (c : N) : bytes :=
  (if c <? 0x80 then [c]
   else if c <? 0x800 then [0xC0 + c / 64; 0x80 + c mod 64]
   else if c <? 0x10000 then [0xE0 + c / 4096; 0x80 + (c / 64) mod 64; 0x80 + c mod 64]
   else [0xF0 + c / 262144; 0x80 + (c / 4096) mod 64; 0x80 + (c / 64) mod 64; 0x80 + c mod 64])%N.

(** The code points of a byte string; a byte that does not start a well-formed sequence
    counts as one U+FFFD. *)
Inductive decodes : bytes -> list N -> Prop :=
| dec_nil : decodes [] []
| dec_char c t l : scalar_value c -> decodes t l -> decodes (utf8_bytes c ++ t) (c :: l)
| dec_bad b t l : (forall c u, scalar_value c -> b :: t <> utf8_bytes c ++ u) ->
    decodes t l -> decodes (b :: t) (0xFFFD%N :: l).

Definition chars_count (s : bytes) (n : N) : Prop :=
  exists l, decodes s l /\ N.of_nat (List.length l) = n.
Definition bytes_count (s : bytes) (n : N) : Prop := N.of_nat (List.length s) = n.

Definition starts_with (s p : bytes) : Prop := exists t, s = p ++ t.
Definition ends_with (s p : bytes) : Prop := exists t, s = t ++ p.
Definition has_inside (s p : bytes) : Prop := exists a b, s = a ++ p ++ b.

(** Hostnames.  U+212A and U+0130 are included because the generated code lower-cases
    first and their lower case is an ASCII letter. *)
Definition alnum (c : N) : Prop := (48 <= c <= 57 \/ 65 <= c <= 90 \/ 97 <= c <= 122)%N.
Definition host_letter (c : N) : Prop := alnum c \/ c = 45%N \/ c = 0x212A%N \/ c = 0x130%N.

Definition host_label (l : list N) : Prop :=
  1 <= List.length l <= 63 /\ Forall host_letter l /\ hd 0%N l <> 45%N /\ List.last l 0%N <> 45%N.

Fixpoint join_dots (ls : list bytes) : bytes :=
  match ls with
  | [] => []
  | [l] => l
  | l :: t => l ++ [46%N] ++ join_dots t
  end.

Definition hostname (s : bytes) : Prop :=
  List.length s <= 253 /\
  exists labels, labels <> [] /\ Forall host_label labels /\
    let d := join_dots (map (flat_map utf8_bytes) labels) in s = d \/ s = d ++ [46%N].

(** An e-mail address as split by the generated code; parsing is an oracle. *)
Definition email_ok (parsed : option bytes) : Prop :=
  exists local dom, parsed = Some (local ++ [64%N] ++ dom) /\ ~ In 64%N local /\
    List.length (local ++ [64%N] ++ dom) <= 254 /\ List.length local <= 64 /\ hostname dom.

Definition hexdig (c : N) : Prop := (48 <= c <= 57 \/ 65 <= c <= 70 \/ 97 <= c <= 102)%N.
Definition hexes (n : nat) (l : bytes) : Prop := List.length l = n /\ Forall hexdig l.
Definition uuid (s : bytes) : Prop :=
  exists a b c d e, hexes 8 a /\ hexes 4 b /\ hexes 4 c /\ hexes 4 d /\ hexes 12 e /\
    s = a ++ [45%N] ++ b ++ [45%N] ++ c ++ [45%N] ++ d ++ [45%N] ++ e.

(** HTTP header grammars, on code points. *)
Definition token_char (c : N) : Prop :=
  alnum c \/ In c [33; 35; 36; 37; 38; 39; 42; 43; 44; 45; 46; 94; 95; 96; 124; 126]%N.
Definition header_name (l : list N) : Prop :=
  exists t, (l = t \/ l = 58%N :: t) /\ t <> [] /\ Forall token_char t.
Definition header_value (l : list N) : Prop :=
  Forall (fun c => (c = 9 \/ (32 <= c /\ c <> 127))%N) l.
Definition header_line (l : list N) : Prop := Forall (fun c => ~ In c [0; 10; 13]%N) l.

(** Binary IP addresses. *)
Definition mapped4 (ip : bytes) : Prop :=
  exists a, List.length a = 4 /\ ip = repeat 0%N 10 ++ [255; 255]%N ++ a.
Definition ip4_bytes (ip : bytes) : Prop := List.length ip = 4 \/ mapped4 ip.
Definition ip_bytes (ip : bytes) : Prop := List.length ip = 4 \/ List.length ip = 16.

(** * Numbers *)

Definition nlt (a b : num) : Prop :=
  match a, b with
  | NI x, NI y => (x < y)%Z
  | NF x, NF y => SFcompare x y = Some Lt
  | _, _ => False
  end.
Definition neq (a b : num) : Prop :=
  match a, b with
  | NI x, NI y => x = y
  | NF x, NF y => SFcompare x y = Some Eq
  | _, _ => False
  end.
Definition nan (a : num) : Prop := a = NF S754_nan.
Definition nzero (a : num) : Prop := a = NI 0 \/ exists s, a = NF (S754_zero s).

(** * Ranges *)

(** A bound: excluded ([lt], [gt]) or included ([lte], [gte]). *)
Inductive bound (T : Type) := Excl (t : T) | Incl (t : T).
Arguments Excl {T}. Arguments Incl {T}.
Definition bval {T} (b : bound T) : T := match b with Excl t => t | Incl t => t end.

Definition bnd {T} (excl incl : option T) : option (bound T) :=
  match excl, incl with
  | Some t, _ => Some (Excl t)
  | None, Some t => Some (Incl t)
  | None, None => None
  end.

Section Range.
Context {T : Type} (lt eq : T -> T -> Prop).
Definition below (b : bound T) (v : T) : Prop :=
  match b with Excl t => lt v t | Incl t => lt v t \/ eq v t end.
Definition above (b : bound T) (v : T) : Prop :=
  match b with Excl t => lt t v | Incl t => lt t v \/ eq t v end.
(** One bound: it holds.  Upper above lower: both hold.  Otherwise the range is reversed
    (README, "Numerics"): at least one holds. *)
Definition within_range (up lo : option (bound T)) (v : T) : Prop :=
  match up, lo with
  | None, None => True
  | Some u, None => below u v
  | None, Some l => above l v
  | Some u, Some l =>
      (lt (bval l) (bval u) -> below u v /\ above l v) /\
      (~ lt (bval l) (bval u) -> below u v \/ above l v)
  end.
End Range.

Section RangeReason.
Context {T : Type} (ltb : T -> T -> bool) (pr : T -> piece).
(** The reason text for a range violation. *)
Definition range_reason (up lo : option (bound T)) : list piece :=
  match up, lo with
  | Some u, Some l =>
      if ltb (bval l) (bval u)
      then [PStr (match l with Excl _ => "value must be inside range (" | Incl _ => "value must be inside range [" end);
            pr (bval l); PStr ", "; pr (bval u);
            PStr (match u with Excl _ => ")" | Incl _ => "]" end)]
      else [PStr (match u with Excl _ => "value must be outside range [" | Incl _ => "value must be outside range (" end);
            pr (bval u); PStr ", "; pr (bval l);
            PStr (match l with Excl _ => "]" | Incl _ => ")" end)]
  | Some (Excl t), None => [PStr "value must be less than "; pr t]
  | Some (Incl t), None => [PStr "value must be less than or equal to "; pr t]
  | None, Some (Excl t) => [PStr "value must be greater than "; pr t]
  | None, Some (Incl t) => [PStr "value must be greater than or equal to "; pr t]
  | None, None => []
  end.
End RangeReason.

(** * Times *)

Local Open Scope Z_scope.
Definition nanos (d : sn) : Z := sn_s d * 1000000000 + sn_n d.

(** google/protobuf/duration.proto: at most 315,576,000,000 seconds either way, nanos of
    the same sign and below a second. *)
Definition valid_duration (d : sn) : Prop :=
  -315576000000 <= sn_s d <= 315576000000 /\ -999999999 <= sn_n d <= 999999999 /\
  ~ (sn_s d > 0 /\ sn_n d < 0) /\ ~ (sn_s d < 0 /\ sn_n d > 0).

(** google/protobuf/timestamp.proto: years 1 to 9999. *)
Definition valid_timestamp (t : sn) : Prop :=
  -62135596800 <= sn_s t <= 253402300799 /\ 0 <= sn_n t <= 999999999.

(** Go durations are int64 nanoseconds; larger ones are clamped. *)
Definition clamp64 (z : Z) : Z := Z.max (- 2^63) (Z.min (2^63 - 1) z).
Definition go_duration (d : sn) : Z := clamp64 (nanos d).
Local Close Scope Z_scope.

(** * Requirements *)

(** What a violation's error has as its cause. *)
Inductive cause_kind := NoCause | LibCause | Embedded (n : string) (m : msgval).

Record req := mkReq {
  rq_holds : Prop;
  rq_reason : list piece;
  rq_cause : cause_kind }.

Definition want (p : Prop) (r : list piece) : req := mkReq p r NoCause.
Definition want_c (p : Prop) (r : list piece) : req := mkReq p r LibCause.

Definition when {A} (o : option A) (f : A -> req) : list req :=
  match o with Some a => [f a] | None => [] end.
Definition whenb (b : bool) (l : list req) : list req := if b then l else [].

Section Reqs.
Variable orc : oracles.
Variable sc : schema.

(** ** const, in, not_in *)
Definition in_reqs {A} (eq : A -> Prop) (l nl : list A) (pr : list A -> piece) : list req :=
  match l with
  | _ :: _ => [want (Exists eq l) [PStr "value must be in list "; pr l]]
  | [] => match nl with
          | _ :: _ => [want (~ Exists eq nl) [PStr "value must not be in list "; pr nl]]
          | [] => []
          end
  end.

(** ** Numbers.  A NaN satisfies every range rule (all comparisons with it are false). *)
Definition num_zero_b (v : num) : bool :=
  match v with NI 0 => true | NF (S754_zero _) => true | _ => false end.
Definition nltb (a b : num) : bool :=
  match a, b with
  | NI x, NI y => Z.ltb x y
  | NF x, NF y => match SFcompare x y with Some Lt => true | _ => false end
  | _, _ => false
  end.

Definition num_reqs (r : num_rules) (v : num) : list req :=
  if getb (n_ignore_empty r) && num_zero_b v then []
  else
    when (n_const r) (fun c => want (neq v c) [PStr "value must equal "; PNum c])
    ++ (let up := bnd (n_lt r) (n_lte r) in
        let lo := bnd (n_gt r) (n_gte r) in
        match up, lo with
        | None, None => []
        | _, _ => [want (nan v \/ within_range nlt neq up lo v) (range_reason nltb PNum up lo)]
        end)
    ++ in_reqs (neq v) (n_in r) (n_not_in r) PNums.

Definition bool_reqs (c : option bool) (v : bool) : list req :=
  when c (fun b => want (v = b) [PStr "value must equal "; PBool b]).

(** ** Lengths.  A [len] rule hides min and max. *)
Definition len_reqs (count : N -> Prop) (unit : string) (l mn mx : option N) : list req :=
  match l, mn, mx with
  | Some n, _, _ => [want (count n) [PStr "value length must be "; PNat n; PStr (" " ++ unit)]]
  | None, Some a, Some b =>
      if N.eqb a b
      then [want (count a) [PStr "value length must be "; PNat a; PStr (" " ++ unit)]]
      else [want (exists n, count n /\ (a <= n <= b)%N)
              [PStr "value length must be between "; PNat a; PStr " and "; PNat b;
               PStr (" " ++ unit ++ ", inclusive")]]
  | None, Some a, None =>
      [want (exists n, count n /\ (a <= n)%N) [PStr "value length must be at least "; PNat a; PStr (" " ++ unit)]]
  | None, None, Some b =>
      [want (exists n, count n /\ (n <= b)%N) [PStr "value length must be at most "; PNat b; PStr (" " ++ unit)]]
  | None, None, None => []
  end.

(** ** Strings *)
Definition ip_text (s : bytes) (ok : bytes -> Prop) : Prop :=
  exists ip, o_parse_ip orc s = Some ip /\ ok ip.

Definition wk_reqs (w : option str_wk) (s : bytes) : list req :=
  match w with
  | Some (WIp true) => [want (ip_text s (fun _ => True)) [PStr "value must be a valid IP address"]]
  | Some (WIpv4 true) => [want (ip_text s ip4_bytes) [PStr "value must be a valid IPv4 address"]]
  | Some (WIpv6 true) => [want (ip_text s (fun ip => ~ ip4_bytes ip)) [PStr "value must be a valid IPv6 address"]]
  | Some (WEmail true) => [want_c (email_ok (o_mail orc s)) [PStr "value must be a valid email address"]]
  | Some (WHostname true) => [want_c (hostname s) [PStr "value must be a valid hostname"]]
  | Some (WAddress true) =>
      [want (hostname s \/ ip_text s (fun _ => True)) [PStr "value must be a valid hostname, or ip address"]]
  | Some (WUri true) =>
      [want_c (o_url orc s <> None) [PStr "value must be a valid URI"];
       want (o_url orc s <> Some false) [PStr "value must be absolute"]]
  | Some (WUriRef true) => [want_c (o_url orc s <> None) [PStr "value must be a valid URI"]]
  | Some (WUuid true) => [want_c (uuid s) [PStr "value must be a valid UUID"]]
  | _ => []
  end.

(** The text of the pattern behind [well_known_regex], for the reason only. *)
Definition header_text (k : known_regex) (strict : bool) : bytes :=
  match k, strict with
  | KRHeaderName, true => re_header_name
  | KRHeaderValue, true => re_header_value
  | _, _ => re_header_string
  end.

Definition header_ok (k : known_regex) (strict : bool) (s : bytes) : Prop :=
  exists l, decodes s l /\
    match k, strict with
    | KRHeaderName, true => header_name l
    | KRHeaderValue, true => header_value l
    | _, _ => header_line l
    end.

Definition regex_reqs (r : string_rules) (s : bytes) : list req :=
  let reason p := [PStr "value does not match regex pattern "; PLit p] in
  match s_pattern r with
  | Some p => [want (o_match orc p s = true) (reason p)]
  | None =>
      let strict := match s_strict r with Some false => false | _ => true end in
      match s_wk r with
      | Some (WRegex ((KRHeaderName | KRHeaderValue) as k)) =>
          [want (header_ok k strict s) (reason (header_text k strict))]
      | _ => []
      end
  end.

Definition str_reqs (r : string_rules) (s : bytes) : list req :=
  if getb (s_ignore_empty r) && is_nil s then []
  else
    when (s_const r) (fun c => want (s = c) [PStr "value must equal "; PText c])
    ++ in_reqs (fun x => s = x) (s_in r) (s_not_in r) PTexts
    ++ len_reqs (chars_count s) "runes" (s_len r) (s_min_len r) (s_max_len r)
    ++ len_reqs (bytes_count s) "bytes" (s_len_bytes r) (s_min_bytes r) (s_max_bytes r)
    ++ when (s_prefix r) (fun p => want (starts_with s p) [PStr "value does not have prefix "; PLit p])
    ++ when (s_suffix r) (fun p => want (ends_with s p) [PStr "value does not have suffix "; PLit p])
    ++ when (s_contains r) (fun p => want (has_inside s p) [PStr "value does not contain substring "; PLit p])
    ++ when (s_not_contains r) (fun p => want (~ has_inside s p) [PStr "value contains substring "; PLit p])
    ++ wk_reqs (s_wk r) s
    ++ regex_reqs r s.

(** ** Bytes.  Empty const, prefix, suffix and contains rules are not enforced (for the
    last three there is nothing to enforce). *)
Definition when_ne (o : option bytes) (f : bytes -> req) : list req :=
  match o with Some ((_ :: _) as s) => [f s] | _ => [] end.

Definition byt_reqs (r : bytes_rules) (s : bytes) : list req :=
  if getb (b_ignore_empty r) && is_nil s then []
  else
    len_reqs (bytes_count s) "bytes" (b_len r) (b_min_len r) (b_max_len r)
    ++ when_ne (b_prefix r) (fun p => want (starts_with s p) [PStr "value does not have prefix "; PByteStr p])
    ++ when_ne (b_suffix r) (fun p => want (ends_with s p) [PStr "value does not have suffix "; PByteStr p])
    ++ when_ne (b_contains r) (fun p => want (has_inside s p) [PStr "value does not contain "; PByteStr p])
    ++ in_reqs (fun x => s = x) (b_in r) (b_not_in r) PBytess
    ++ when_ne (b_const r) (fun c => want (s = c) [PStr "value must equal "; PBytes c])
    ++ match b_wk r with
       | Some (BIp true) => [want (ip_bytes s) [PStr "value must be a valid IP address"]]
       | Some (BIpv4 true) => [want (ip4_bytes s) [PStr "value must be a valid IPv4 address"]]
       | Some (BIpv6 true) => [want (ip_bytes s /\ ~ ip4_bytes s) [PStr "value must be a valid IPv6 address"]]
       | _ => []
       end
    ++ when (b_pattern r) (fun p => want (o_match orc p s = true)
                                     [PStr "value does not match regex pattern "; PLit p]).

(** ** Enums *)
Definition defined (e : string) (z : Z) : Prop :=
  exists d, find_enum sc e = Some d /\ In z (en_values d).

Definition enum_reqs (e : string) (r : enum_rules) (z : Z) : list req :=
  when (e_const r) (fun c => want (z = c) [PStr "value must equal "; PInt c])
  ++ in_reqs (fun x => z = x) (e_in r) (e_not_in r) PInts
  ++ whenb (getb (e_defined_only r))
       [want (defined e z) [PStr "value must be one of the defined enum values"]].

Definition required_reqs {A} (b : option bool) (o : option A) : list req :=
  whenb (getb b) [want (o <> None) [PStr "value is required"]].

(** ** Any *)
Definition any_reqs (r : any_rules) (o : option bytes) : list req :=
  required_reqs (a_required r) o
  ++ match o with
     | None => []
     | Some url =>
         match a_in r, a_not_in r with
         | (_ :: _) as l, _ => [want (In url l) [PStr "type URL must be in list "; PTexts l]]
         | [], (_ :: _) as l => [want (~ In url l) [PStr "type URL must not be in list "; PTexts l]]
         | [], [] => []
         end
     end.

(** ** Durations: compared as Go durations; the rest is only checked on a valid one. *)
Definition dur_reqs (r : duration_rules) (o : option sn) : list req :=
  required_reqs (d_required r) o
  ++ match o with
     | None => []
     | Some d =>
         let v := go_duration d in
         let up := bnd (d_lt r) (d_lte r) in
         let lo := bnd (d_gt r) (d_gte r) in
         let checks :=
           when (d_const r) (fun c => want (valid_duration d -> v = go_duration c)
                                        [PStr "value must equal "; PDur c])
           ++ match up, lo with
              | None, None => []
              | _, _ =>
                  [want (valid_duration d ->
                         within_range (fun a b => (go_duration a < go_duration b)%Z)
                                  (fun a b => go_duration a = go_duration b) up lo d)
                     (range_reason (fun a b => Z.ltb (go_duration a) (go_duration b)) PDur up lo)]
              end
           ++ match d_in r, d_not_in r with
              | (_ :: _) as l, _ =>
                  [want (valid_duration d -> Exists (fun x => v = go_duration x) l)
                     [PStr "value must be in list "; PDurs l]]
              | [], (_ :: _) as l =>
                  [want (valid_duration d -> ~ Exists (fun x => v = go_duration x) l)
                     [PStr "value must not be in list "; PDurs l]]
              | [], [] => []
              end in
         match checks with
         | [] => []
         | _ => want_c (valid_duration d) [PStr "value is not a valid duration"] :: checks
         end
     end.

(** ** Timestamps *)
Definition now_reqs (r : timestamp_rules) (v : Z) (g : Prop -> Prop) : list req :=
  let now := o_now orc in
  match t_lt_now r, t_gt_now r, t_within r with
  | Some _, _, Some w =>
      [want (g (now - nanos w <= v < now)%Z) [PStr "value must be less than now within "; PDur w]]
  | Some _, _, None => [want (g (v < now)%Z) [PStr "value must be less than now"]]
  | None, Some _, Some w =>
      [want (g (now < v <= now + nanos w)%Z) [PStr "value must be greater than now within "; PDur w]]
  | None, Some _, None => [want (g (now < v)%Z) [PStr "value must be greater than now"]]
  | None, None, Some w =>
      [want (g (Z.abs (v - now) < nanos w)%Z) [PStr "value must be within "; PDur w; PStr " of now"]]
  | None, None, None => []
  end.

Definition ts_reqs (r : timestamp_rules) (o : option sn) : list req :=
  required_reqs (t_required r) o
  ++ match o with
     | None => []
     | Some t =>
         let g (p : Prop) := valid_timestamp t -> p in
         let up := bnd (t_lt r) (t_lte r) in
         let lo := bnd (t_gt r) (t_gte r) in
         let checks :=
           when (t_const r) (fun c => want (g (nanos t = nanos c)) [PStr "value must equal "; PTs c])
           ++ match up, lo with
              | None, None => now_reqs r (nanos t) g
              | _, _ =>
                  [want (g (within_range (fun a b => (nanos a < nanos b)%Z)
                                     (fun a b => nanos a = nanos b) up lo t))
                     (range_reason (fun a b => Z.ltb (nanos a) (nanos b)) PTs up lo)]
              end in
         match checks with
         | [] => []
         | _ => want_c (valid_timestamp t) [PStr "value is not a valid timestamp"] :: checks
         end
     end.

(** ** One rule on one value of the right kind *)
Definition rule_reqs (e : etype) (r : rule_type) (v : value) : list req :=
  match r, v with
  | RNum _ r, VNum n => num_reqs r n
  | RBool c, VBool b => bool_reqs c b
  | RString r, VStr s => str_reqs r s
  | RBytes r, VByt s => byt_reqs r s
  | REnum r, VEnum z => enum_reqs (match e with TEnum n => n | _ => ""%string end) r z
  | RAny r, VAny o => any_reqs r o
  | RDuration r, VDur o => dur_reqs r o
  | RTimestamp r, VTs o => ts_reqs r o
  | _, _ => []
  end.

(** ** Embedded messages.  [emb n m] is the validity demanded of an embedded message. *)
Variable emb : string -> msgval -> Prop.

Definition is_set (v : value) : Prop :=
  match v with
  | VMsg o => o <> None | VWrap o => o <> None | VAny o => o <> None
  | VDur o => o <> None | VTs o => o <> None
  | _ => True
  end.

(** A message type whose Go type has a Validate method. *)
Definition validated_type (n : string) : bool :=
  match find_msg sc n with
  | Some d => match md_methods d with MNone => false | _ => true end
  | None => false
  end.

Definition skipped (mr : option message_rules) : bool :=
  match mr with Some m => getb (m_skip m) | None => false end.
Definition required (mr : option message_rules) : bool :=
  match mr with Some m => getb (m_required m) | None => false end.

Definition message_reqs (e : etype) (mr : option message_rules) (v : value) : list req :=
  whenb (required mr) [want (is_set v) [PStr "value is required"]]
  ++ whenb (negb (skipped mr))
       (match e, v with
        | TMsg n, VMsg (Some m) =>
            whenb (validated_type n)
              [mkReq (emb n m) [PStr "embedded message failed validation"] (Embedded n m)]
        | _, _ => []
        end).

(** ** One element: a singular field, a list item, a map key or value *)
Definition elem_reqs (e : etype) (fr : field_rules) (v : value) : list req :=
  match fr with
  | FR mr (Some r) =>
      match e, v with
      | TWrap w, VWrap (Some x) => rule_reqs (wrapped_type w) r x
      | TWrap w, VWrap None =>
          whenb (required mr) [want False [PStr "value is required and must not be nil."]]
      | _, _ => rule_reqs e r v
      end
  | FR mr None => if is_embed e then message_reqs e mr v else []
  end.

Definition rules_or_none (o : option field_rules) : field_rules :=
  match o with Some fr => fr | None => FR None None end.

(** ** Fields: requirements tagged with the index they are reported under *)
Definition tag (ix : option ixval) (l : list req) : list (option ixval * req) := map (fun r => (ix, r)) l.

Definition count_reqs (n : N) (mn mx : option N) (one many : string) : list req :=
  match mn, mx with
  | Some a, Some b =>
      if N.eqb a 0 then [want (n <= b)%N [PStr "value must contain no more than "; PNat b; PStr one]]
      else if N.eqb a b then [want (n = a) [PStr "value must contain exactly "; PNat a; PStr one]]
      else [want (a <= n <= b)%N [PStr "value must contain between "; PNat a; PStr " and "; PNat b; PStr many]]
  | Some a, None =>
      if N.eqb a 0 then []
      else [want (a <= n)%N [PStr "value must contain at least "; PNat a; PStr one]]
  | None, Some b => [want (n <= b)%N [PStr "value must contain no more than "; PNat b; PStr one]]
  | None, None => []
  end.

(** Equality of scalar items (IEEE equality for floats). *)
Definition same_item (a b : value) : Prop :=
  match a, b with VNum x, VNum y => neq x y | _, _ => a = b end.

Fixpoint items_reqs (e : etype) (uniq : bool) (fr : field_rules) (earlier : list value) (i : nat)
    (l : list value) : list (option ixval * req) :=
  match l with
  | [] => []
  | x :: t =>
      tag (Some (IxN i))
        (whenb uniq [want (~ Exists (same_item x) earlier) [PStr "repeated value must contain unique items"]]
         ++ elem_reqs e fr x)
      ++ items_reqs e uniq fr (earlier ++ [x]) (S i) t
  end.

Definition rep_reqs (e : etype) (r : rep_rules field_rules) (l : list value) : list (option ixval * req) :=
  if getb (r_ignore_empty r) && is_nil l then []
  else
    tag None (count_reqs (N.of_nat (List.length l)) (r_min r) (r_max r) " item(s)" " items, inclusive")
    ++ items_reqs e (getb (r_unique r)) (rules_or_none (r_items r)) [] 0 l.

Definition map_reqs (k v : etype) (r : map_rules field_rules) (l : list (value * value)) : list (option ixval * req) :=
  if getb (p_ignore_empty r) && is_nil l then []
  else
    tag None (count_reqs (N.of_nat (List.length l)) (p_min r) (p_max r) " pair(s)" " pairs, inclusive")
    ++ flat_map (fun p =>
         tag (Some (IxV (fst p)))
           (whenb (getb (p_no_sparse r))
              [want (is_set (snd p)) [PStr "value cannot be sparse, all pairs must be non-nil"]]
            ++ elem_reqs k (rules_or_none (p_keys r)) (fst p)
            ++ elem_reqs v (rules_or_none (p_values r)) (snd p))) l.

Definition field_reqs (f : field) (v : value) : list (option ixval * req) :=
  match f_type f, v with
  | FOne e, _ => tag None (elem_reqs e (f_rules f) v)
  | FRep e, VList l =>
      match fr_typ (f_rules f) with
      | Some (RRepeated r) => rep_reqs e r l
      | _ => rep_reqs e (mkRepRules None None None None None) l
      end
  | FMap k w, VMap l =>
      match fr_typ (f_rules f) with
      | Some (RMap r) => map_reqs k w r l
      | _ => map_reqs k w (mkMapRules None None None None None None) l
      end
  | _, _ => []
  end.

(** ** Messages: (field name, index, requirement), plain fields first, then oneofs *)
Definition oneof_reqs (o : oneof) (set : option (string * value)) : list (string * (option ixval * req)) :=
  match set with
  | None =>
      if getb (o_required o) then [(o_name o, (None, want False [PStr "value is required"]))] else []
  | Some (fn, v) =>
      match find (fun f => String.eqb fn (f_name f)) (o_fields o) with
      | Some f => map (fun r => (f_name f, r)) (field_reqs f v)
      | None => []
      end
  end.

Definition msg_reqs (d : msgdesc) (m : msgval) : list (string * (option ixval * req)) :=
  flat_map (fun f => match assoc (f_name f) (mv_fields m) with
                     | Some v => map (fun r => (f_name f, r)) (field_reqs f v)
                     | None => []
                     end) (md_fields d)
  ++ flat_map (fun o => match assoc (o_name o) (mv_oneofs m) with
                        | Some set => oneof_reqs o set
                        | None => []
                        end) (md_oneofs d).
End Reqs.

(** * Validity of a message *)

Section Valid.
Variable orc : oracles.
Variable sc : schema.

(** The requirements a message has of its own: those on embedded messages only say which
    messages are embedded. *)
Definition own_reqs (d : msgdesc) (m : msgval) := msg_reqs orc sc (fun _ _ => True) d m.

(** [reach n m n' m']: validating the message [m] of type [n] includes validating the
    message [m'] of type [n'].  A disabled message is not descended into. *)
Inductive reach : string -> msgval -> string -> msgval -> Prop :=
| reach_here n m : reach n m n m
| reach_down n m d f ix r n1 m1 n' m' :
    find_msg sc n = Some d -> md_disabled d = false ->
    In (f, (ix, r)) (own_reqs d m) -> rq_cause r = Embedded n1 m1 ->
    reach n1 m1 n' m' -> reach n m n' m'.

Definition valid (n : string) (m : msgval) : Prop :=
  forall n' m' d, reach n m n' m' -> find_msg sc n' = Some d -> md_disabled d = false ->
    forall f ix r, In (f, (ix, r)) (own_reqs d m') -> rq_holds r.
End Valid.
