(** On which schemas, and for which values, validation in C++ must agree with the rules.

    The conditions are about what the generated C++ can express.  Each clause excludes something
    that does not compile, that throws UnimplementedException, or that deviates; PropCc.v has
    the deviations. *)
From Coq Require Import Floats.SpecFloat.
From Verif Require Import Base Num Rules Types Iface Checker Spec Meaning LitSpec Wt Values Outcome Cc.

(** ** Constants *)

(** Numbers whose literals are C++ constants: the least int64 and large unsigned numbers are not
    of type [long long], NaN and the infinities have no literal. *)
Definition cc_const (k : numkind) (n : num) : Prop :=
  num_of_kind k n = true /\
  match n with
  | NI z => (- 2^63 < z < 2^63)%Z
  | NF f => (exists s, f = S754_zero s) \/ exists s m e, f = S754_finite s m e
  end.
(** Texts whose Go escapes mean the same in C++: a control character without a letter escape is
    written \x.., which in C++ takes in all hexadecimal digits that follow; and there are no
    trigraphs. *)
Definition hex_escaped (c : N) : Prop := (c < 7 \/ 13 < c < 32 \/ c = 127)%N.
Definition hex_digit (c : N) : Prop := (48 <= c <= 57 \/ 65 <= c <= 70 \/ 97 <= c <= 102)%N.
Definition cc_literal (s : bytes) : Prop :=
  valid_utf8 s /\ (forall a c d b, s = a ++ c :: d :: b -> hex_escaped c -> ~ hex_digit d) /\ ~ has_inside s (bs "??").
(** Such a text as a C string, which ends at a NUL. *)
Definition cc_text (s : bytes) : Prop := cc_literal s /\ ~ In 0%N s.
Definition cc_bytes_const (s : bytes) : Prop := ~ In 0%N s.
Definition cc_size (o : option N) : Prop := forall n, o = Some n -> (n < 2^63)%N.
(** Durations that Go compares exactly, too. *)
Definition cc_time (d : sn) : Prop := (- 2^63 < nanos d < 2^63 - 1)%Z.

(** ** Places of a rule: a singular field, the value in a wrapper field, an item of a list, a key or
    value of a map *)
Inductive rule_place := PField | PWrap | PItem | PEntry.

Definition has_lists (r : rule_type) : Prop :=
  match r with
  | RNum _ r => n_in r <> [] \/ n_not_in r <> []
  | RString r => s_in r <> [] \/ s_not_in r <> []
  | RBytes r => b_in r <> [] \/ b_not_in r <> []
  | REnum r => e_in r <> [] \/ e_not_in r <> []
  | RAny r => a_in r <> [] \/ a_not_in r <> []
  | RDuration r => d_in r <> [] \/ d_not_in r <> []
  | _ => False
  end.
(** A std::set is declared only for these. *)
Definition list_place (p : rule_place) (r : rule_type) : Prop :=
  match p, r with
  | PField, _ => True
  | PWrap, RString _ => True
  | PItem, (RString _ | REnum _) => True
  | _, _ => False
  end.
(** A RE2 is declared for bytes only in fields. *)
Definition pattern_place (p : rule_place) (r : rule_type) : Prop :=
  match p, r with
  | (PItem | PEntry), RBytes r => b_pattern r = None
  | _, _ => True
  end.

(** ** Rules *)
Section Frag.
Variable cl : cc_libs.

Definition cc_num_ok (k : numkind) (r : num_rules) : Prop :=
  (forall n, (n_const r = Some n \/ n_lt r = Some n \/ n_lte r = Some n \/ n_gt r = Some n \/ n_gte r = Some n \/
              In n (n_in r) \/ In n (n_not_in r)) -> cc_const k n) /\
  (** A float constant is exact in six decimals, and a float bound exact as the double. *)
  (k = KFloat -> forall f, (n_const r = Some (NF f) \/ In (NF f) (n_in r) \/ In (NF f) (n_not_in r)) -> fixed6 f = f) /\
  (k = KFloat -> forall f, (n_lt r = Some (NF f) \/ n_lte r = Some (NF f) \/ n_gt r = Some (NF f) \/ n_gte r = Some (NF f)) ->
     cl_short cl f = widen f).

Definition cc_str_ok (r : string_rules) : Prop :=
  (forall s, (s_const r = Some s \/ s_prefix r = Some s \/ s_suffix r = Some s \/ s_contains r = Some s \/
              s_not_contains r = Some s \/ In s (s_in r) \/ In s (s_not_in r)) -> cc_text s) /\
  (forall p, s_pattern r = Some p -> cc_literal p) /\
  Forall cc_size [s_len r; s_min_len r; s_max_len r; s_len_bytes r; s_min_bytes r; s_max_bytes r] /\
  (** not implemented *)
  s_wk r <> Some (WEmail true) /\ s_wk r <> Some (WUri true) /\ s_wk r <> Some (WUriRef true).

Definition cc_byt_ok (r : bytes_rules) : Prop :=
  (forall s, (b_const r = Some s \/ b_prefix r = Some s \/ b_suffix r = Some s \/ b_contains r = Some s \/
              In s (b_in r) \/ In s (b_not_in r)) -> cc_bytes_const s) /\
  (forall p, b_pattern r = Some p -> cc_literal p) /\
  Forall cc_size [b_len r; b_min_len r; b_max_len r] /\
  (** not implemented *)
  b_wk r <> Some (BIp true) /\ b_wk r <> Some (BIpv4 true) /\ b_wk r <> Some (BIpv6 true).

Definition cc_any_ok (r : any_rules) : Prop := forall s, (In s (a_in r) \/ In s (a_not_in r)) -> cc_text s.

Definition cc_dur_ok (r : duration_rules) : Prop :=
  forall d, (d_const r = Some d \/ d_lt r = Some d \/ d_lte r = Some d \/ d_gt r = Some d \/ d_gte r = Some d \/
             In d (d_in r) \/ In d (d_not_in r)) -> cc_time d.

Definition cc_rule_ok (p : rule_place) (e : etype) (r : rule_type) : Prop :=
  (has_lists r -> list_place p r) /\ pattern_place p r /\
  match r, e with
  | RNum k r, TNum k' => k = k' /\ cc_num_ok k r
  | RBool _, TBool => True
  | RString r, TString => cc_str_ok r
  | RBytes r, TBytes => cc_byt_ok r
  | REnum _, TEnum _ => True
  | RAny r, TAny => cc_any_ok r
  | RDuration r, TDur => cc_dur_ok r
  | RTimestamp r, TTs => ~ ts_constrained r (** not implemented *)
  | _, _ => False
  end.

Definition cc_elem_ok (p : rule_place) (e : etype) (fr : field_rules) : Prop :=
  match fr with
  | FR mr (Some r) =>
      match e with
      | TWrap w => p = PField /\ cc_rule_ok PWrap (wrapped_type w) r
      | _ => cc_rule_ok p e r
      end
  | FR mr None => True
  end.

Definition string_pattern (fr : field_rules) : Prop :=
  match fr with FR _ (Some (RString r)) => s_pattern r <> None | _ => False end.

Definition cc_field_ok (f : field) : Prop :=
  match f_type f, fr_typ (f_rules f) with
  | FOne e, _ => cc_elem_ok PField e (f_rules f)
  | FRep e, None => True
  | FRep e, Some (RRepeated r) =>
      cc_size (r_min r) /\ cc_size (r_max r) /\
      (** items of enum type are ints in C++, which [unique] cannot cast *)
      (r_unique r = Some true -> is_embed e = false /\ forall n, e <> TEnum n) /\
      cc_elem_ok PItem e (inner (r_items r))
  | FMap k v, None => True
  | FMap k v, Some (RMap r) =>
      cc_size (p_min r) /\ cc_size (p_max r) /\
      p_no_sparse r <> Some true /\ (** not implemented *)
      ~ (string_pattern (inner (p_keys r)) /\ string_pattern (inner (p_values r))) /\ (** the same name *)
      cc_elem_ok PEntry k (inner (p_keys r)) /\ cc_elem_ok PEntry v (inner (p_values r))
  | _, _ => False
  end.

Definition cc_schema (sc : schema) : Prop :=
  forall d, In d (sc_msgs sc) -> active d = true -> Forall cc_field_ok (all_fields d).

(** ** Values *)
Variable orc : oracles.

Definition ascii (s : bytes) : Prop := Forall (fun c => c < 128)%N s.

(** inet_pton and Go's net.ParseIP agree about [s]; and host names are ASCII.  C++ would not see
    what follows a NUL. *)
Definition cc_formats_agree (w : str_wk) (s : bytes) : Prop :=
  let ips := ~ In 0%N s /\ (cl_inet4 cl s = true \/ cl_inet6 cl s = true <-> ip_text orc s (fun _ => True)) in
  match w with
  | WIp true => ips
  | WIpv4 true => ~ In 0%N s /\ (cl_inet4 cl s = true <-> ip_text orc s ip4_bytes)
  | WIpv6 true => ~ In 0%N s /\ (cl_inet6 cl s = true <-> ip_text orc s (fun ip => ~ ip4_bytes ip))
  | WAddress true => ascii s /\ ips
  | WHostname true => ascii s
  | _ => True
  end.

Definition cc_ruled (r : rule_type) (v : value) : Prop :=
  match r, v with
  | RNum _ r, VNum n => n_in r <> [] \/ n_not_in r <> [] -> ~ nan n
  | RString r, VStr s =>
      (s_len r <> None \/ s_min_len r <> None \/ s_max_len r <> None -> valid_utf8 s) /\
      (forall p, s_pattern r = Some p -> cl_full cl p s = o_match orc p s) /\
      (forall w, s_wk r = Some w -> cc_formats_agree w s)
  | RBytes r, VByt s => forall p, b_pattern r = Some p -> cl_full cl p s = o_match orc p s
  | RDuration r, VDur (Some d) => ~ ((sn_s d < 0 < sn_n d)%Z \/ (sn_n d < 0 < sn_s d)%Z)
  | _, _ => True
  end.

(** In lists and maps there are no absent messages. *)
Definition cc_value (inside uniq : bool) (e : etype) (fr : field_rules) (v : value) : Prop :=
  (inside = true -> is_set v) /\
  (forall mr r, fr = FR mr (Some r) ->
     match v with
     | VWrap (Some x) => cc_ruled r x
     | _ => cc_ruled r v
     end).
End Frag.

(** ** The assumptions of the theorems about C++ *)

(** The plugin accepts the well-formed schema [sc0] and generates C++ code from [sc], its checked
    form, which is in the fragment above. *)
Record cc_setting (re_ok : bytes -> bool) (sc0 sc : schema) (orc : oracles) (cl : cc_libs) : Prop := mkCcSetting {
  cs_checked : check_schema re_ok sc0 = Some sc;
  cs_wf : wf_schema sc0;
  cs_orc : oracle_ok orc;
  cs_cc : cc_schema cl sc }.

(** All the values in [m] are in the fragment. *)
Definition cc_values (sc : schema) (orc : oracles) (cl : cc_libs) (n : string) (m : msgval) : Prop :=
  all_values sc (cc_value cl orc) n m.
