(** The Python side: python/protoc_gen_validate/validator.py, which writes the source of a
    validator for the type of a message, executes it, and calls it.

    A source is modelled by its statements, and a statement by its effect on the value that it is
    about: one function per template.  [None] is a template that raises an exception, or a source
    that is not Python.  The texts of exceptions are left out.  That the constants of the rules
    are still the same when they have been pasted into the source is a condition of the theorems
    ([py_text] and others in PySpec.v), as is that the names of the fields are not Python
    keywords.  Line numbers below are those of validator.py. *)
From Coq Require Import Floats.SpecFloat.
From Verif Require Import Base Utf8 Num Rules Types Regex Known Outcome.

(** * Sources *)

Definition code (A : Type) := option (list (A -> outcome)).

Definition run {A} (c : list (A -> outcome)) (a : A) : outcome := in_order (map (fun s => s a) c).

Section Code.
Context {A : Type}.
Fixpoint seq (l : list (code A)) : code A :=
  match l with
  | [] => Some []
  | c :: t => match c, seq t with Some x, Some y => Some (x ++ y) | _, _ => None end
  end.
Definition nothing : code A := Some [].
Definition stmt (s : A -> outcome) : code A := Some [s].
(** An assignment to a local variable. *)
Definition assign : code A := Some [fun _ => Passes].
(** [if cond:] and an indented block.  Without a statement in the block it is not Python. *)
Definition block (cond : A -> bool) (body : code A) : code A :=
  match body with
  | None | Some [] => None
  | Some l => Some [fun a => only_if (cond a) (run l a)]
  end.
Definition when (b : bool) (s : A -> outcome) : code A := if b then Some [s] else Some [].
Definition guarded (b : bool) (cond : A -> bool) (body : code A) : code A := if b then block cond body else body.

(** [HasField]: the field of the rules is present. *)
Definition if_set {B} (o : option B) (s : B -> A -> outcome) : code A :=
  match o with Some b => Some [s b] | None => Some [] end.
(** A Jinja test of a field of the rules: false for 0 and the empty string. *)
Definition if_size (o : option N) (s : N -> A -> outcome) : code A :=
  match o with Some n => if (n =? 0)%N then Some [] else Some [s n] | None => Some [] end.
Definition if_text (o : option bytes) (s : bytes -> A -> outcome) : code A :=
  match o with Some (c :: t) => Some [s (c :: t)] | _ => Some [] end.
Definition if_list {B} (l : list B) (s : list B -> A -> outcome) : code A :=
  match l with [] => Some [] | _ => Some [s l] end.
End Code.

(** The same statements about a part of a value. *)
Definition about {A B} (part : B -> option A) (c : code A) : code B :=
  option_map (map (fun s b => match part b with Some a => s a | None => Crashes end)) c.

(** [if cond: raise ValidationFailed]; evaluating the condition may raise something else. *)
Definition raise_if (c : option bool) : outcome :=
  match c with Some true => Rejects | Some false => Passes | None => Crashes end.
Definition py_or (a b : option bool) : option bool := match a with Some false => b | _ => a end.
Definition py_and (a b : option bool) : option bool := match a with Some true => b | _ => a end.

Section Bounds.
Context {A B : Type}.
(** [v < b], [v <= b], [v > b], [v >= b] when the code runs; and [b > b'] when it is written. *)
Variable lt_ le_ gt_ ge_ : A -> B -> option bool.
Variable gen_gt : B -> B -> bool.
(** 343-391 for numbers, 447-494 for durations, 535-582 for timestamps. *)
Definition py_bounds (lt lte gt gte : option B) : code A :=
  match lt with
  | Some l =>
      stmt (fun v => match gt, gte with
      | Some g, _ => if gen_gt l g then raise_if (py_or (le_ v g) (ge_ v l)) else raise_if (py_and (ge_ v l) (le_ v g))
      | None, Some g => if gen_gt l g then raise_if (py_or (lt_ v g) (ge_ v l)) else raise_if (py_and (ge_ v l) (lt_ v g))
      | None, None => raise_if (ge_ v l)
      end)
  | None =>
      match lte with
      | Some l =>
          stmt (fun v => match gt, gte with
          | Some g, _ => if gen_gt l g then raise_if (py_or (le_ v g) (gt_ v l)) else raise_if (py_and (gt_ v l) (le_ v g))
          | None, Some g => if gen_gt l g then raise_if (py_or (lt_ v g) (gt_ v l)) else raise_if (py_and (gt_ v l) (lt_ v g))
          | None, None => raise_if (gt_ v l)
          end)
      | None =>
          match gt, gte with
          | Some g, _ => stmt (fun v => raise_if (le_ v g))
          | None, Some g => stmt (fun v => raise_if (lt_ v g))
          | None, None => nothing
          end
      end
  end.
End Bounds.

(** * Numbers *)

(** A number printed by Jinja and read back by Python.  Integers and finite floats are exact
    ([repr]), and a [float] constant survives [struct.pack]; [inf] and [nan] are names that are not
    defined. *)
Definition py_lit (n : num) : option num :=
  match n with NF (S754_infinity _) | NF S754_nan => None | _ => Some n end.
Fixpoint py_lits (l : list num) : option (list num) :=
  match l with
  | [] => Some []
  | n :: t => match py_lit n, py_lits t with Some a, Some b => Some (a :: b) | _, _ => None end
  end.
(** The truth of a number. *)
Definition py_zero (n : num) : bool :=
  match n with NI z => Z.eqb z 0 | NF (S754_zero _) => true | _ => false end.

(** num_template, 326-394: [ignore_empty] by presence. *)
Definition py_num (r : num_rules) : code num :=
  guarded (is_some (n_ignore_empty r)) (fun v => negb (py_zero v))
    (seq [if_set (n_const r) (fun c v => raise_if (option_map (fun c => negb (num_eqb v c)) (py_lit c)));
          if_list (n_in r) (fun l v => raise_if (option_map (fun l => negb (existsb (num_eqb v) l)) (py_lits l)));
          if_list (n_not_in r) (fun l v => raise_if (option_map (existsb (num_eqb v)) (py_lits l)));
          py_bounds (fun v b => option_map (num_ltb v) (py_lit b)) (fun v b => option_map (num_leb v) (py_lit b))
            (fun v b => option_map (fun b => num_ltb b v) (py_lit b)) (fun v b => option_map (fun b => num_leb b v) (py_lit b))
            (fun a b => num_ltb b a)
            (n_lt r) (n_lte r) (n_gt r) (n_gte r)]).

(** bool_template, 319-323, and const_template, 139-141: the constant [False] where none is given. *)
Definition py_bool (c : option bool) : code bool := stmt (fun v => raise_if (Some (negb (Bool.eqb v (getb c))))).

(** * Strings *)

(** A str is its code points. *)
Definition pystr (s : bytes) : list N := runes s.

(** _validateHostName, 86-106. *)
Definition py_host_char (c : N) : bool :=
  (negb ((c <? 65) || (90 <? c)) || negb ((c <? 97) || (122 <? c)) || negb ((c <? 48) || (57 <? c)) || (c =? 45))%N.
Definition py_host_part (p : list N) : bool :=
  negb ((blen p =? 0) || (63 <? blen p))%N && negb ((hd 0 p =? 45) || (List.last p 0 =? 45))%N && forallb py_host_char p.
Definition py_hostname (s : list N) : bool :=
  negb (is_nil s) && negb (253 <? blen s)%N && forallb py_host_part (split_on 46 (trim_suffix s [46%N])).

(** What is not modelled: [re.search] on str and on bytes; IPv4Address and IPv6Address on str (do they
    accept it?); the package validate_email; which of the scheme, the netloc, the path and the fragment
    are there according to urlparse ([None] when it raises ValueError); [int(s, 16)] (is it a number?);
    and time.time(). *)
Record py_url := mkPyUrl { u_scheme : bool; u_netloc : bool; u_path : bool; u_fragment : bool }.
Record py_libs := mkPyLibs {
  pl_search : bytes -> list N -> bool;
  pl_bsearch : bytes -> bytes -> bool;
  pl_ip4 : list N -> bool;
  pl_ip6 : list N -> bool;
  pl_email : list N -> bool;
  pl_url : list N -> option py_url;
  pl_int16 : list N -> bool;
  pl_now : spec_float }.

Section Libs.
Variable pl : py_libs.

Definition py_raise_unless (b : bool) : outcome := raise_if (Some (negb b)).

(** _validateEmail, 109-122. *)
Definition py_email (s : list N) : outcome :=
  let addr := if existsb (N.eqb 60) s && existsb (N.eqb 62) s then hd [] (split_on 62 (nth 1 (split_on 60 s) [])) else s in
  if negb (pl_email pl addr) then Rejects
  else if (254 <? blen addr)%N then Rejects
  else let parts := split_on 64 addr in
       if (64 <? blen (hd [] parts))%N then Rejects
       else match parts with
            | _ :: dom :: _ => py_raise_unless (py_hostname dom)
            | _ => Crashes
            end.

(** ipaddress.ip_address *)
Definition py_ip (s : list N) : bool := pl_ip4 pl s || pl_ip6 pl s.

(** [s.replace(pat, '')] *)
Fixpoint py_remove (pat : list N) (skip : nat) (s : list N) : list N :=
  match s with
  | [] => []
  | c :: t =>
      match skip with
      | S k => py_remove pat k t
      | O => if has_prefix s pat then py_remove pat (List.length pat - 1) t else c :: py_remove pat 0 t
      end
  end.
(** [s.strip('{}')] *)
Fixpoint py_lstrip (s : list N) : list N :=
  match s with c :: t => if ((c =? 123) || (c =? 125))%N then py_lstrip t else s | [] => [] end.
Definition py_strip (s : list N) : list N := rev (py_lstrip (rev (py_lstrip s))).
(** The constructor of uuid.UUID (Python's standard library). *)
Definition py_uuid (s : list N) : bool :=
  let hex := py_remove (bs "-") 0 (py_strip (py_remove (bs "uuid:") 0 (py_remove (bs "urn:") 0 s))) in
  (blen hex =? 32)%N && pl_int16 pl hex.

(** 235-283.  The oneof well_known has at most one of these. *)
Definition py_well_known (w : str_wk) : code (list N) :=
  match w with
  | WEmail true => stmt py_email
  | WHostname true => stmt (fun s => py_raise_unless (py_hostname s))
  | WAddress true => stmt (fun s => py_raise_unless (py_ip s || py_hostname s))
  | WIp true => stmt (fun s => py_raise_unless (py_ip s))
  | WIpv4 true => stmt (fun s => py_raise_unless (pl_ip4 pl s))
  | WIpv6 true => stmt (fun s => py_raise_unless (pl_ip6 pl s))
  | WUri true => stmt (fun s => match pl_url pl s with
                                | Some u => py_raise_unless (u_scheme u && u_netloc u && u_path u)
                                | None => Crashes
                                end)
  | WUriRef true => stmt (fun s => match pl_url pl s with
                                   | Some u => py_raise_unless (negb (negb (u_scheme u && u_path u) && u_fragment u))
                                   | None => Crashes
                                   end)
  | WUuid true => stmt (fun s => py_raise_unless (py_uuid s))
  | _ => nothing
  end.

(** [re.search] of [^...$]: the dollar sign also matches before a newline at the end. *)
Definition py_whole (re : regex) (s : list N) : bool :=
  rmatch re s || (has_suffix s [10%N] && rmatch re (trim_suffix s [10%N])).

(** The pattern of a string rule, 173-180 and 215-218.  The three patterns of regex_map (17-22) are
    those of the checker; KRUnknown and numbers without a name do not count as set. *)
Definition py_pattern (r : string_rules) : code (list N) :=
  match s_wk r with
  | Some (WRegex KRHeaderName) =>
      stmt (fun s => py_raise_unless (py_whole (match s_strict r with Some false => header_string_re | _ => header_name_re end) s))
  | Some (WRegex KRHeaderValue) =>
      stmt (fun s => py_raise_unless (py_whole (match s_strict r with Some false => header_string_re | _ => header_value_re end) s))
  | _ => if_text (s_pattern r) (fun p s => py_raise_unless (pl_search pl p s))
  end.

(** byte_len, 79-83. *)
Definition byte_len (s : list N) : N := blen (utf8_encode s).

(** string_template, 172-286. *)
Definition py_string (r : string_rules) : code (list N) :=
  guarded (getb (s_ignore_empty r)) (fun s => negb (is_nil s))
    (seq [if_set (s_const r) (fun c s => py_raise_unless (bytes_eqb s (pystr c)));
          if_list (s_in r) (fun l s => py_raise_unless (existsb (bytes_eqb s) (map pystr l)));
          if_list (s_not_in r) (fun l s => py_raise_unless (negb (existsb (bytes_eqb s) (map pystr l))));
          if_size (s_len r) (fun n s => py_raise_unless (blen s =? n)%N);
          if_size (s_min_len r) (fun n s => py_raise_unless (negb (blen s <? n)%N));
          if_size (s_max_len r) (fun n s => py_raise_unless (negb (n <? blen s)%N));
          if_size (s_len_bytes r) (fun n s => py_raise_unless (byte_len s =? n)%N);
          if_size (s_min_bytes r) (fun n s => py_raise_unless (negb (byte_len s <? n)%N));
          if_size (s_max_bytes r) (fun n s => py_raise_unless (negb (n <? byte_len s)%N));
          py_pattern r;
          if_text (s_prefix r) (fun p s => py_raise_unless (has_prefix s (pystr p)));
          if_text (s_suffix r) (fun p s => py_raise_unless (has_suffix s (pystr p)));
          if_text (s_contains r) (fun p s => py_raise_unless (contains s (pystr p)));
          if_text (s_not_contains r) (fun p s => py_raise_unless (negb (contains s (pystr p))));
          match s_wk r with Some w => py_well_known w | None => nothing end]).

(** * Bytes *)

(** [p.encode('unicode-escape')]: a backslash is doubled, and what is not printable ASCII is written
    with an escape. *)
Definition hexdigit (n : N) : N := (if n <? 10 then 48 + n else 87 + n)%N.
Fixpoint hexes_of (k : nat) (n : N) : bytes :=
  match k with O => [] | S k => hexes_of k (n / 16) ++ [hexdigit (n mod 16)] end.
Definition unicode_escape1 (c : N) : bytes :=
  (if c =? 92 then [92; 92]
   else if c =? 9 then bs "\t"
   else if c =? 10 then bs "\n"
   else if c =? 13 then bs "\r"
   else if (32 <=? c) && (c <? 127) then [c]
   else if c <? 256 then bs "\x" ++ hexes_of 2 c
   else if c <? 65536 then bs "\u" ++ hexes_of 4 c
   else bs "\U" ++ hexes_of 8 c)%N.
Definition unicode_escape (p : bytes) : bytes := flat_map unicode_escape1 (pystr p).

(** ip_address, IPv4Address and IPv6Address of the packed bytes: 4 or 16 of them. *)
Definition py_packed (l : list N) (s : bytes) : bool := existsb (N.eqb (blen s)) l.

(** bytes_template, 701-780. *)
Definition py_bytes (r : bytes_rules) : code bytes :=
  guarded (getb (b_ignore_empty r)) (fun s => negb (is_nil s))
    (seq [if_set (b_const r) (fun c s => py_raise_unless (bytes_eqb s c));
          if_list (b_in r) (fun l s => py_raise_unless (existsb (bytes_eqb s) l));
          if_list (b_not_in r) (fun l s => py_raise_unless (negb (existsb (bytes_eqb s) l)));
          if_size (b_len r) (fun n s => py_raise_unless (blen s =? n)%N);
          if_size (b_min_len r) (fun n s => py_raise_unless (negb (blen s <? n)%N));
          if_size (b_max_len r) (fun n s => py_raise_unless (negb (n <? blen s)%N));
          match b_wk r with
          | Some (BIp true) => stmt (fun s => py_raise_unless (py_packed [4; 16]%N s))
          | Some (BIpv4 true) => stmt (fun s => py_raise_unless (py_packed [4]%N s))
          | Some (BIpv6 true) => stmt (fun s => py_raise_unless (py_packed [16]%N s))
          | _ => nothing
          end;
          if_text (b_pattern r) (fun p s => py_raise_unless (pl_bsearch pl (unicode_escape p) s));
          if_text (b_contains r) (fun p s => py_raise_unless (contains s p));
          if_text (b_prefix r) (fun p s => py_raise_unless (has_prefix s p));
          if_text (b_suffix r) (fun p s => py_raise_unless (has_suffix s p))]).

(** * Enums *)
Variable sc : schema.

(** enum_values, 658-659. *)
Definition py_enum_values (e : string) : list Z :=
  match find_enum sc e with Some d => en_values d | None => [] end.
(** enum_template, 662-672; const_template, 142-144: the constant 0 counts as absent. *)
Definition py_enum (e : string) (r : enum_rules) : code Z :=
  seq [match e_const r with
       | Some c => when (negb (c =? 0)%Z) (fun z => py_raise_unless (Z.eqb z c))
       | None => nothing
       end;
       if_list (e_in r) (fun l z => py_raise_unless (existsb (Z.eqb z) l));
       if_list (e_not_in r) (fun l z => py_raise_unless (negb (existsb (Z.eqb z) l)));
       when (getb (e_defined_only r)) (fun z => py_raise_unless (existsb (Z.eqb z) (py_enum_values e)))].

(** * Presence and embedded messages *)

(** [_has_field(p, ...)], 125-133, of the field the value is in. *)
Definition py_has (v : value) : bool :=
  match v with VMsg None | VWrap None | VAny None | VDur None | VTs None => false | _ => true end.
(** The test of a block: [if item:] in lists and maps ([elem]), where a message is true. *)
Definition py_there (elem : bool) (v : value) : bool := elem || py_has v.
(** required_template, 289-295.  In lists and maps it asks whether [p] has a field of the name
    "item", or of the name "x[key]" where there is none.  (A message with a field "item" is
    left out here.) *)
Definition py_required (elem : bool) (b : option bool) : code value :=
  when (getb b) (fun v => if elem then Rejects else py_raise_unless (py_has v)).

(** [validate] of a message of type [n]. *)
Variable validate : string -> msgval -> outcome.
(** [validate(v)].  The types of google.protobuf have no rules. *)
Definition py_embedded (e : etype) (v : value) : outcome :=
  match e, v with TMsg n, VMsg (Some m) => validate n m | _, _ => Passes end.

(** message_template, 298-316.  In lists and maps it calls [validate(p.item)] or
    [validate(p.p.x[key])]: AttributeError. *)
Definition py_message (elem : bool) (e : etype) (mr : option message_rules) : code value :=
  seq [py_required elem (match mr with Some m => m_required m | None => None end);
       if match mr with Some m => getb (m_skip m) | None => false end then nothing
       else block (py_there elem) (stmt (fun v => if elem then Crashes else py_embedded e v))].

(** any_template, 675-698. *)
Definition any_url (v : value) : option (list N) := match v with VAny (Some u) => Some (pystr u) | _ => None end.
Definition py_any (elem : bool) (r : any_rules) : code value :=
  seq [py_required elem (a_required r);
       match a_in r with
       | [] => nothing
       | l => block (py_there elem) (about any_url (stmt (fun u => py_raise_unless (existsb (bytes_eqb u) (map pystr l)))))
       end;
       match a_not_in r with
       | [] => nothing
       | l => block (py_there elem) (about any_url (stmt (fun u => py_raise_unless (negb (existsb (bytes_eqb u) (map pystr l))))))
       end].

(** * Durations and timestamps: as float numbers of seconds *)

Definition fadd := SFadd 53 1024.
Definition fsub := SFsub 53 1024.
Definition fmul := SFmul 53 1024.
Definition of_int (z : Z) : spec_float := binary_normalize 53 1024 z 0 false.
(** [10**-9] *)
Definition nano : spec_float := S754_finite false 4835703278458517 (-82).
(** [round(x, 9)]: the float next to the next multiple of 10^-9. *)
Definition nearest_even (n d : Z) : Z :=
  (let q := n / d in
   match 2 * (n mod d) ?= d with Lt => q | Gt => q + 1 | Eq => if Z.even q then q else q + 1 end)%Z.
Definition round9 (x : spec_float) : spec_float :=
  match x with
  | S754_finite s m e =>
      let k := if (0 <=? e)%Z then (Zpos m * 1000000000 * 2 ^ e)%Z else nearest_even (Zpos m * 1000000000) (2 ^ (- e)) in
      match k with
      | Zpos p => SFdiv 53 1024 (of_int (if s then Zneg p else Zpos p)) (of_int 1000000000)
      | _ => S754_zero s
      end
  | _ => x
  end.
(** dur_lit, 408-410, and dur_arr, 397-405: the constants. *)
Definition py_dur_lit (d : sn) : spec_float := fadd (of_int (sn_s d)) (fmul nano (of_int (sn_n d))).
(** 421 and 509: the value. *)
Definition py_seconds (d : sn) : spec_float := fadd (of_int (sn_s d)) (round9 (fmul nano (of_int (sn_n d)))).

Definition f_gt (a b : spec_float) : bool := SFltb b a.
Definition f_ge (a b : spec_float) : bool := SFleb b a.
Definition py_dur_bounds : option sn -> option sn -> option sn -> option sn -> code spec_float :=
  py_bounds (fun v b => Some (SFltb v (py_dur_lit b))) (fun v b => Some (SFleb v (py_dur_lit b)))
    (fun v b => Some (f_gt v (py_dur_lit b))) (fun v b => Some (f_ge v (py_dur_lit b)))
    (fun a b => f_gt (py_dur_lit a) (py_dur_lit b)).

(** 449-490: an upper bound that is alone, or not above the lower bound, comes after [{%- else -%}], which removes the line break before it.
    That of the assignments (425-436) is kept, but not that of const, in and not_in ([{%- endif -%}], 438, 442, 446): behind one of these
    it is not Python. *)
Definition py_dur_glued (r : duration_rules) : bool :=
  (is_some (d_const r) || negb (is_nil (d_in r)) || negb (is_nil (d_not_in r))) &&
  match d_lt r, d_lte r with
  | Some u, _ | None, Some u =>
      match d_gt r, d_gte r with
      | Some l, _ | None, Some l => negb (f_gt (py_dur_lit u) (py_dur_lit l))
      | None, None => true
      end
  | None, None => false
  end.

Definition dur_part (v : value) : option spec_float := match v with VDur (Some d) => Some (py_seconds d) | _ => None end.
(** duration_template, 413-498. *)
Definition py_duration (elem : bool) (r : duration_rules) : code value :=
  if py_dur_glued r then None
  else
  seq [py_required elem (d_required r);
       block (py_there elem) (about dur_part
         (seq [assign;
               if_set (d_const r) (fun c v => py_raise_unless (SFeqb v (py_dur_lit c)));
               if_list (d_in r) (fun l v => py_raise_unless (existsb (SFeqb v) (map py_dur_lit l)));
               if_list (d_not_in r) (fun l v => py_raise_unless (negb (existsb (SFeqb v) (map py_dur_lit l))));
               py_dur_bounds (d_lt r) (d_lte r) (d_gt r) (d_gte r)]))].

Definition ts_part (v : value) : option spec_float := match v with VTs (Some t) => Some (py_seconds t) | _ => None end.
(** 583-608: reached only if there is no other bound. *)
Definition py_now (lt_now gt_now : option bool) (within : option sn) : code spec_float :=
  let now := pl_now pl in
  match lt_now, gt_now, within with
  | Some _, _, Some w => stmt (fun t => raise_if (Some (f_ge t now || SFleb t (fsub now (py_dur_lit w)))))
  | Some _, _, None => stmt (fun t => raise_if (Some (f_ge t now)))
  | None, Some _, Some w => stmt (fun t => raise_if (Some (SFleb t now || f_ge t (fadd now (py_dur_lit w)))))
  | None, Some _, None => stmt (fun t => raise_if (Some (SFleb t now)))
  | None, None, Some w =>
      stmt (fun t => raise_if (Some (f_ge t (fadd now (py_dur_lit w)) || SFleb t (fsub now (py_dur_lit w)))))
  | None, None, None => nothing
  end.
(** timestamp_template, 501-611.  TimestampRules has no fields [in] and [not_in]; Jinja takes a
    missing attribute as false. *)
Definition py_timestamp (elem : bool) (r : timestamp_rules) : code value :=
  seq [py_required elem (t_required r);
       block (py_there elem) (about ts_part
         (seq [assign;
               if_set (t_const r) (fun c v => py_raise_unless (SFeqb v (py_dur_lit c)));
               if is_some (t_lt r) || is_some (t_lte r) || is_some (t_gt r) || is_some (t_gte r)
               then py_dur_bounds (t_lt r) (t_lte r) (t_gt r) (t_gte r)
               else py_now (t_lt_now r) (t_gt_now r) (t_within r)]))].

(** * Fields *)

(** [str(rules) != ""]: some field of the message is present. *)
Definition told (r : rule_type) : bool :=
  match r with
  | RNum _ r => is_some (n_const r) || is_some (n_lt r) || is_some (n_lte r) || is_some (n_gt r) || is_some (n_gte r) ||
                negb (is_nil (n_in r)) || negb (is_nil (n_not_in r)) || is_some (n_ignore_empty r)
  | RBool c => is_some c
  | RString r => is_some (s_const r) || is_some (s_len r) || is_some (s_min_len r) || is_some (s_max_len r) ||
                 is_some (s_len_bytes r) || is_some (s_min_bytes r) || is_some (s_max_bytes r) || is_some (s_pattern r) ||
                 is_some (s_prefix r) || is_some (s_suffix r) || is_some (s_contains r) || is_some (s_not_contains r) ||
                 negb (is_nil (s_in r)) || negb (is_nil (s_not_in r)) || is_some (s_wk r) || is_some (s_strict r) ||
                 is_some (s_ignore_empty r)
  | RBytes r => is_some (b_const r) || is_some (b_len r) || is_some (b_min_len r) || is_some (b_max_len r) ||
                is_some (b_pattern r) || is_some (b_prefix r) || is_some (b_suffix r) || is_some (b_contains r) ||
                negb (is_nil (b_in r)) || negb (is_nil (b_not_in r)) || is_some (b_wk r) || is_some (b_ignore_empty r)
  | REnum r => is_some (e_const r) || is_some (e_defined_only r) || negb (is_nil (e_in r)) || negb (is_nil (e_not_in r))
  | RRepeated r => is_some (r_min r) || is_some (r_max r) || is_some (r_unique r) || is_some (r_items r) || is_some (r_ignore_empty r)
  | RMap r => is_some (p_min r) || is_some (p_max r) || is_some (p_no_sparse r) || is_some (p_keys r) ||
              is_some (p_values r) || is_some (p_ignore_empty r)
  | RAny r => is_some (a_required r) || negb (is_nil (a_in r)) || negb (is_nil (a_not_in r))
  | RDuration r => is_some (d_required r) || is_some (d_const r) || is_some (d_lt r) || is_some (d_lte r) || is_some (d_gt r) ||
                   is_some (d_gte r) || negb (is_nil (d_in r)) || negb (is_nil (d_not_in r))
  | RTimestamp r => is_some (t_required r) || is_some (t_const r) || is_some (t_lt r) || is_some (t_lte r) || is_some (t_gt r) ||
                    is_some (t_gte r) || is_some (t_lt_now r) || is_some (t_gt_now r) || is_some (t_within r)
  end.
Definition told_message (mr : option message_rules) : bool :=
  match mr with Some m => is_some (m_skip m) || is_some (m_required m) | None => false end.
Definition told_rules (fr : option field_rules) : bool :=
  match fr with Some (FR mr t) => is_some mr || is_some t | None => false end.

Definition num_part (v : value) : option num := match v with VNum n => Some n | _ => None end.
Definition bool_part (v : value) : option bool := match v with VBool b => Some b | _ => None end.
Definition str_part (v : value) : option (list N) := match v with VStr s => Some (pystr s) | _ => None end.
Definition byt_part (v : value) : option bytes := match v with VByt s => Some s | _ => None end.
Definition enum_part (v : value) : option Z := match v with VEnum z => Some z | _ => None end.

(** The templates for scalars.  A rule that does not fit the type of the value crashes here when it
    runs; the checker rejects nearly all of them. *)
Definition py_scalar (e : etype) (r : rule_type) : code value :=
  match r with
  | RNum _ r => about num_part (py_num r)
  | RBool c => about bool_part (py_bool c)
  | RString r => about str_part (py_string r)
  | RBytes r => about byt_part (py_bytes r)
  | REnum r => about enum_part (py_enum (match e with TEnum n => n | _ => ""%string end) r)
  | _ => stmt (fun _ => Crashes)
  end.

(** string_template prints the [if] of ignore_empty without a line break before it ([{%- ... -%}], 184-187), unlike the other templates.  It
    follows the indentation in a function (1050) and in wrapper_template (633, 644).  It is not Python behind [for item in ...:] and
    [for key in ...:] (869, 902), behind the check of a key, and where the first line is indented once more (1039). *)
Definition headless (r : rule_type) : bool := match r with RString r => getb (s_ignore_empty r) | _ => false end.
Definition py_inline (e : etype) (r : rule_type) : code value := if headless r then None else py_scalar e r.

(** wrapper_template, 614-655. *)
Definition py_wrapper (e : etype) (mr : option message_rules) (r : rule_type) : code value :=
  match py_scalar (match e with TWrap w => wrapped_type w | _ => e end) r with
  | None | Some [] => None
  | Some body =>
      stmt (fun v => match v with
                     | VWrap (Some x) => run body x
                     | VWrap None => py_raise_unless (negb (match mr with Some m => getb (m_required m) | None => false end))
                     | _ => Crashes
                     end)
  end.

(** switcher_template, 783-833: rules for items, and for the values of maps.  There are none for bytes. *)
Definition py_switcher (e : etype) (fr : option field_rules) : code value :=
  match fr with
  | None => nothing
  | Some (FR mr typ) =>
      let otherwise :=
        if told_message mr then py_message true e mr
        else match typ with
             | Some (RAny r) => if told (RAny r) then py_any true r else nothing
             | _ => nothing
             end in
      match typ with
      | Some ((RNum _ _ | RBool _ | RString _ | REnum _) as r) => if told r then py_inline e r else otherwise
      | Some (RDuration r) => if told (RDuration r) then py_duration true r else otherwise
      | Some (RTimestamp r) => if told (RTimestamp r) then py_timestamp true r else otherwise
      | _ => otherwise
      end
  end.

(** 905-931: rules for keys. *)
Definition py_keys (k : etype) (fr : option field_rules) : code value :=
  match fr with
  | Some (FR _ (Some (RNum KFloat _))) => nothing
  | Some (FR _ (Some ((RNum _ _ | RBool _ | RString _) as r))) => if told r then py_inline k r else nothing
  | _ => nothing
  end.

(** [==] of the items that are hashable; a message is not. *)
Definition py_same (a b : value) : bool :=
  match a, b with
  | VNum x, VNum y => num_eqb x y
  | VBool x, VBool y => Bool.eqb x y
  | VStr x, VStr y => bytes_eqb (pystr x) (pystr y)
  | VByt x, VByt y => bytes_eqb x y
  | VEnum x, VEnum y => Z.eqb x y
  | _, _ => false
  end.
Definition py_hashable (v : value) : bool :=
  match v with VNum _ | VBool _ | VStr _ | VByt _ | VEnum _ => true | _ => false end.
(** 853-858 *)
Fixpoint py_unique (seen l : list value) : outcome :=
  match l with
  | [] => Passes
  | x :: t => if py_hashable x then if existsb (py_same x) seen then Rejects else py_unique (x :: seen) t else Crashes
  end.

Definition list_part (v : value) : option (list value) := match v with VList l => Some l | _ => None end.
Definition map_part (v : value) : option (list (value * value)) := match v with VMap l => Some l | _ => None end.
Definition len_ge {A} (n : N) (l : list A) : outcome := py_raise_unless (negb (N.of_nat (List.length l) <? n)%N).
Definition len_le {A} (n : N) (l : list A) : outcome := py_raise_unless (negb (n <? N.of_nat (List.length l))%N).
(** [for a in l:] and the statements [c]. *)
Definition for_each {A} (c : list (A -> outcome)) (l : list A) : outcome := in_order (map (run c) l).

Definition items_skip (fr : option field_rules) : bool :=
  match fr with Some (FR (Some m) _) => getb (m_skip m) | _ => false end.

Definition no_rep : rep_rules field_rules := mkRepRules None None None None None.
Definition no_map : map_rules field_rules := mkMapRules None None None None None None.

(** repeated_template, 836-877. *)
Definition py_repeated (e : etype) (r : rep_rules field_rules) : code value :=
  about list_part
    (guarded (getb (r_ignore_empty r)) (fun l => negb (is_nil l))
       (seq [if_size (r_min r) len_ge;
             if_size (r_max r) len_le;
             when (getb (r_unique r)) (py_unique []);
             when (is_embed e) (for_each [fun v => if items_skip (r_items r) then Passes else py_embedded e v]);
             if told_rules (r_items r)
             then match py_switcher e (r_items r) with Some c => stmt (for_each c) | None => None end
             else nothing])).

(** map_template, 885-943, for a map. *)
Definition py_map (k w : etype) (r : map_rules field_rules) : code value :=
  about map_part
    (guarded (getb (p_ignore_empty r)) (fun l => negb (is_nil l))
       (seq [if_size (p_min r) len_ge;
             if_size (p_max r) len_le;
             if told_rules (p_keys r) || told_rules (p_values r)
             then match py_keys k (p_keys r), py_switcher w (p_values r) with
                  | Some ks, Some vs => stmt (for_each [fun kv => run ks (fst kv); fun kv => run vs (snd kv)])
                  | _, _ => None
                  end
             else when (is_embed w) (for_each [fun kv => py_embedded w (snd kv)])])).

(** What of a schema [rule_type] asks for by name: the full name of a message type; and whether it has
    just two fields, "key" and "value" in this order (is_map, 880-882). *)
Record py_names := mkPyNames {
  pn_full : string -> string;
  pn_entry : string -> bool;
  pn_ignored : string -> bool }.   (* option (validate.ignored) *)
Variable pn : py_names.

Definition google (n : string) : bool := String.prefix "google.protobuf" (pn_full pn n).

(** map_template on a list of messages that look like entries: [for key in l: validate(l[key])]
    fails for the first of them; or there is nothing, if the field "value" is not a message. *)
Definition py_entries (n : string) : code value :=
  match find_msg sc n with
  | Some d =>
      match md_fields d with
      | [_; f] =>
          when (match f_type f with FOne e | FRep e => is_embed e | FMap _ _ => true end)
            (fun v => match v with VList [] => Passes | _ => Crashes end)
      | _ => nothing
      end
  | None => nothing
  end.

(** The wrapper_template's rules, 998-1000. *)
Definition wrapper_rule (r : rule_type) : bool :=
  match r with
  | RNum (KFloat | KInt32 | KInt64 | KDouble | KUInt32 | KUInt64) _ | RBool _ | RString _ | RBytes _ => true
  | _ => false
  end.

Definition fields_embed (t : ftype) : bool :=
  match t with FOne e | FRep e => is_embed e | FMap _ _ => true end.

(** rule_type, 946-1020, for a field of the message type [n].  FieldRules has no field [required]: where
    no rule is told, 989 and 1010 raise AttributeError. *)
Definition py_field (n : string) (f : field) : code value :=
  let 'FR mr typ := f_rules f in
  if negb (is_some mr || is_some typ) then
    match f_type f with
    | FOne (TMsg m) => if google m then nothing else py_message false (TMsg m) None
    | FRep (TMsg m) => if google m then nothing else if pn_entry pn m then py_entries m else py_repeated (TMsg m) no_rep
    | FMap k w => if google n then nothing else py_map k w no_map
    | _ => nothing
    end
  else if fields_embed (f_type f) then
    let elem := match f_type f with FOne e | FRep e => e | FMap _ w => w end in
    match typ with
    | Some (RDuration r) => if told (RDuration r) then py_duration false r else if told_message mr then py_message false elem mr else None
    | Some (RTimestamp r) => if told (RTimestamp r) then py_timestamp false r else if told_message mr then py_message false elem mr else None
    | _ =>
        if match typ with Some r => wrapper_rule r && told r | None => false end
        then match typ with Some r => py_wrapper elem mr r | None => None end
        else if told_message mr then py_message false elem mr
        else match typ with
             | Some (RAny r) => if told (RAny r) then py_any false r else None
             | Some (RRepeated r) => if told (RRepeated r) then py_repeated elem r else None
             | Some (RMap r) =>
                 if told (RMap r)
                 then match f_type f with FMap k w => py_map k w r | _ => stmt (fun _ => Crashes) end
                 else None
             | _ => None
             end
    end
  else
    let elem := match f_type f with FOne e | FRep e => e | FMap _ w => w end in
    match typ with
    | Some (RString r) => if told (RString r) then py_scalar elem (RString r) else if told_message mr then py_message false elem mr else None
    | _ =>
        if told_message mr then py_message false elem mr
        else match typ with
             | Some ((RNum _ _ | RBool _ | REnum _ | RBytes _) as r) => if told r then py_scalar elem r else None
             | Some (RRepeated r) => if told (RRepeated r) then py_repeated elem r else None
             | Some (RMap r) => if told (RMap r) then stmt (fun _ => Crashes) else None
             | _ => None
             end
    end.

(** 1039: the source of a member of a oneof is indented, its first line too. *)
Definition headless_member (f : field) : bool :=
  negb (fields_embed (f_type f)) && match fr_typ (f_rules f) with Some r => headless r | None => false end.
Definition py_member (n : string) (f : field) : code value := if headless_member f then None else py_field n f.

(** 1034-1047: [present] and the members of a oneof. *)
Definition py_oneof (n : string) (o : oneof) : code (option (string * value)) :=
  seq (map (fun f => match py_member n f with
                     | Some c => stmt (fun s => match s with
                                                | Some (fn, v) => only_if (String.eqb fn (f_name f)) (run c v)
                                                | None => Passes
                                                end)
                     | None => None
                     end) (o_fields o)
       ++ [when (getb (o_required o)) (fun s => py_raise_unless (is_some s))]).

(** file_template, 1023-1054: the oneofs, then the other fields. *)
Definition py_body (d : msgdesc) : code msgval :=
  seq (map (fun o => option_map (fun c => [fun m => match assoc (o_name o) (mv_oneofs m) with Some s => run c s | None => Passes end])
                       (py_oneof (md_name d) o)) (md_oneofs d)
       ++ map (fun f => option_map (fun c => [fun m => match assoc (f_name f) (mv_fields m) with Some v => run c v | None => Passes end])
                       (py_field (md_name d) f)) (md_fields d)).

(** _validate_inner, 53-64, without its cache, and the call of the function it returns.  For a
    message type with the option [disabled] or [ignored] the function starts with [return None]
    (1027-1033), but all of it must be Python. *)
Definition py_msg (d : msgdesc) (m : msgval) : outcome :=
  match py_body d with
  | None => Crashes
  | Some c => if md_disabled d || pn_ignored pn (md_name d) then Passes else run c m
  end.
End Libs.

Section Run.
Variable pl : py_libs.
Variable pn : py_names.
Variable sc : schema.

(** validate, 48-49.  Python reads the descriptors of the schema as they are: they were not seen by
    the checker.  The fuel is for the nesting of messages. *)
Fixpoint py_validate_f (fuel : nat) (n : string) (m : msgval) : outcome :=
  match fuel with
  | O => Crashes
  | S k =>
      match find_msg sc n with
      | Some d => py_msg pl sc (py_validate_f k) pn d m
      | None => Passes
      end
  end.
End Run.
