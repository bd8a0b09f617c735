(** On which schemas, and for which values, validation in Java must agree with the rules.

    The conditions are about what Java can express: literals that are Java constants and denote
    what the rule says, and values that do not run into a difference between Java and protobuf (no
    unsigned types, one NaN, UTF-16).  Each clause excludes a deviation; PropJava.v shows
    that without it the agreement fails. *)
From Coq Require Import Floats.SpecFloat.
From Verif Require Import Base Num Rules Types Iface Checker Spec Meaning LitSpec Wt Values Outcome Java.

(** ** Constants *)

(** Unsigned numbers are the Java [int] or [long] of the same bits. *)
Definition half (k : numkind) (z : Z) : Prop :=
  match k with
  | KUInt32 | KFixed32 => (z < 2^31)%Z
  | KUInt64 | KFixed64 => (z < 2^63)%Z
  | _ => True
  end.
Definition java_const (k : numkind) (n : num) : Prop :=
  num_of_kind k n = true /\
  match n with
  | NI z => half k z
  | NF f => f = S754_zero false \/ exists s m e, f = S754_finite s m e
  end.
(** Texts are pasted between quotes as they are. *)
Definition java_text (s : bytes) : Prop := valid_utf8 s /\ forall c, In c [10; 13; 34; 92]%N -> ~ In c s.
Definition java_len (o : option N) : Prop := forall n, o = Some n -> (n < 2^31)%N.
(** Seconds are [int] literals. *)
Definition java_time (d : sn) : Prop := (- 2^31 <= sn_s d < 2^31)%Z.

(** ** Rules *)
Definition java_num (k : numkind) (r : num_rules) : Prop :=
  forall n, (n_const r = Some n \/ n_lt r = Some n \/ n_lte r = Some n \/ n_gt r = Some n \/ n_gte r = Some n \/
             In n (n_in r) \/ In n (n_not_in r)) -> java_const k n.

Definition java_str (r : string_rules) : Prop :=
  (forall s, (s_const r = Some s \/ s_prefix r = Some s \/ s_suffix r = Some s \/ s_contains r = Some s \/
              s_not_contains r = Some s \/ In s (s_in r) \/ In s (s_not_in r)) -> java_text s) /\
  Forall java_len [s_len r; s_min_len r; s_max_len r; s_len_bytes r; s_min_bytes r; s_max_bytes r].

(** Go lets [len] switch the other two off. *)
Definition java_byt (r : bytes_rules) : Prop :=
  (b_len r <> None -> b_min_len r = None /\ b_max_len r = None) /\
  Forall java_len [b_len r; b_min_len r; b_max_len r].

(** Enum constants must exist, and cannot be named in map values. *)
Definition java_enum (sc : schema) (in_map : bool) (e : string) (r : enum_rules) : Prop :=
  (forall z, (e_const r = Some z \/ In z (e_in r) \/ In z (e_not_in r)) -> defined sc e z) /\
  (in_map = true -> e_const r = None /\ e_in r = [] /\ e_not_in r = []).

Definition java_any (r : any_rules) : Prop := forall s, (In s (a_in r) \/ In s (a_not_in r)) -> java_text s.

Definition java_dur (r : duration_rules) : Prop :=
  forall d, (d_const r = Some d \/ d_lt r = Some d \/ d_lte r = Some d \/ d_gt r = Some d \/ d_gte r = Some d \/
             In d (d_in r) \/ In d (d_not_in r)) -> java_time d.

(** [within] alone excludes its ends in Go and includes them in Java. *)
Definition java_ts (r : timestamp_rules) : Prop :=
  (forall t, (t_const r = Some t \/ t_lt r = Some t \/ t_lte r = Some t \/ t_gt r = Some t \/ t_gte r = Some t \/
              t_within r = Some t) -> java_time t) /\
  (t_within r <> None -> t_lt_now r <> None \/ t_gt_now r <> None).

Definition java_rule (sc : schema) (in_map : bool) (e : etype) (r : rule_type) : Prop :=
  match r, e with
  | RNum k r, TNum k' => k = k' /\ java_num k r
  | RBool _, TBool => True
  | RString r, TString => java_str r
  | RBytes r, TBytes => java_byt r
  | REnum r, TEnum n => java_enum sc in_map n r
  | RAny r, TAny => java_any r
  | RDuration r, TDur => java_dur r
  | RTimestamp r, TTs => java_ts r
  | _, _ => False
  end.

Section Frag.
Variable sc : schema.
(** The option [ignored]: no validator is generated, and asking for it yields null. *)
Variable ignored : string -> bool.

(** [inside]: in a list or map.  [skip] hides [required]. *)
Definition java_elem (inside in_map : bool) (e : etype) (fr : field_rules) : Prop :=
  match fr with
  | FR mr (Some r) =>
      match e with
      | TWrap w => inside = false /\ java_rule sc in_map (wrapped_type w) r
      | _ => java_rule sc in_map e r
      end
  | FR mr None =>
      ~ (skipped mr = true /\ required mr = true) /\ (skipped mr = false -> forall n, e = TMsg n -> ignored n = false)
  end.

(** A maximum of 0 is not rendered. *)
Definition java_counts (mn mx : option N) : Prop := mx <> Some 0%N /\ java_len mn /\ java_len mx.

Definition java_field (f : field) : Prop :=
  match f_type f, fr_typ (f_rules f) with
  | FOne e, _ => java_elem false false e (f_rules f)
  | FRep e, None => java_elem true false e no_rules
  | FRep e, Some (RRepeated r) =>
      java_counts (r_min r) (r_max r) /\ (r_unique r = Some true -> is_embed e = false) /\
      java_elem true false e (inner (r_items r))
  | FMap k v, None => java_elem true true v no_rules
  | FMap k v, Some (RMap r) =>
      java_counts (p_min r) (p_max r) /\ p_no_sparse r <> Some true /\
      java_elem true true k (inner (p_keys r)) /\ java_elem true true v (inner (p_values r))
  | _, _ => False
  end.

Definition java_schema : Prop :=
  forall d, In d (sc_msgs sc) -> active d = true -> Forall java_field (all_fields d).

(** ** Values *)
Variable orc : oracles.
Variable jl : java_libs.

Definition java_number (k : numkind) (n : num) : Prop :=
  match n with
  | NI z => half k z
  | NF f => f <> S754_nan /\ f <> S754_zero true
  end.

(** The text whose form the e-mail validator is asked about: what is between the last "<" and a ">" at the end. *)
Definition address_part (s addr : bytes) : Prop :=
  (addr = s /\ ~ ends_with s [62%N]) \/
  exists name, s = name ++ [60%N] ++ addr ++ [62%N] /\ valid_utf8 name /\ Forall (fun c => c < 128)%N addr /\
    ~ In 60%N addr /\ ~ In 34%N addr.

(** The Java libraries and Go's give the same answer about the text [s]. *)
Definition formats_agree (w : str_wk) (s : bytes) : Prop :=
  let ascii := Forall (fun c => c < 128)%N s in
  match w with
  | WEmail true => exists addr, address_part s addr /\ (jl_email jl (jstring addr) = true <-> email_ok (o_mail orc s))
  | WHostname true => ascii /\ jl_domain jl (jstring s) = true <-> hostname s
  | WIp true => jl_inet jl (jstring s) = true <-> ip_text orc s (fun _ => True)
  | WIpv4 true => jl_inet4 jl (jstring s) = true <-> ip_text orc s ip4_bytes
  | WIpv6 true => jl_inet6 jl (jstring s) = true <-> ip_text orc s (fun ip => ~ ip4_bytes ip)
  | WAddress true =>
      (ascii /\ jl_domain jl (jstring s) = true <-> hostname s) /\
      (jl_inet jl (jstring s) = true <-> ip_text orc s (fun _ => True))
  | WUri true => jl_uri jl (jstring s) = Some true <-> o_url orc s = Some true
  | WUriRef true => jl_uri jl (jstring s) <> None <-> o_url orc s <> None
  | _ => True
  end.

(** The clocks show the same time, in whole milliseconds. *)
Definition clocks_agree : Prop :=
  o_now orc = (jl_now_ms jl * 1000000)%Z /\ (-62135596800000 <= jl_now_ms jl <= 253402300799999)%Z.

Definition java_ruled (r : rule_type) (v : value) : Prop :=
  match r, v with
  | RNum k _, VNum n => java_number k n
  | RString r, VStr s =>
      valid_utf8 s /\
      (forall p, s_pattern r = Some p -> jl_matches jl p (jstring s) = o_match orc p s) /\
      (forall w, s_wk r = Some w -> (forall k, w <> WRegex k) -> (forall b, w <> WUuid b) -> formats_agree w s)
  | RBytes r, VByt s =>
      (forall p, b_pattern r = Some p -> jl_matches jl p (jl_utf8 jl s) = o_match orc p s) /\
      (b_wk r <> None -> ~ mapped4 s)
  | RAny _, VAny (Some url) => valid_utf8 url
  | RDuration _, VDur (Some d) => valid_duration d
  | RTimestamp r, VTs (Some t) =>
      valid_timestamp t /\
      (t_lt_now r <> None \/ t_gt_now r <> None \/ t_within r <> None -> clocks_agree) /\
      (t_within r <> None -> (Z.abs (nanos t - o_now orc) < 2^63)%Z)
  | _, _ => True
  end.

(** Values that are compared by [unique]. *)
Definition java_unique (e : etype) (v : value) : Prop :=
  match e, v with
  | TNum k, VNum n => java_number k n
  | TString, VStr s => valid_utf8 s
  | TEnum n, VEnum z => defined sc n z
  | _, _ => True
  end.

(** In lists and maps there are no absent messages. *)
Definition java_value (inside uniq : bool) (e : etype) (fr : field_rules) (v : value) : Prop :=
  (inside = true -> is_set v) /\
  (uniq = true -> java_unique e v) /\
  (forall mr r, fr = FR mr (Some r) ->
     match v with
     | VWrap (Some x) => java_ruled r x
     | _ => java_ruled r v
     end).
End Frag.

(** What Java takes an unsigned number with its top bit set for. *)
Definition top_bit (k : numkind) (z : Z) : option Z :=
  match k with
  | KUInt32 | KFixed32 => if (2^31 <=? z) && (z <? 2^32) then Some (z - 2^32) else None
  | KUInt64 | KFixed64 => if (2^63 <=? z) && (z <? 2^64) then Some (z - 2^64) else None
  | _ => None
  end%Z.

(** ** The assumptions of the theorems about Java *)

(** The plugin accepts the well-formed schema [sc0] and generates Java code from [sc], its checked
    form, which is in the fragment above. *)
Record java_setting (re_ok : bytes -> bool) (sc0 sc : schema) (orc : oracles) (ignored : string -> bool) : Prop := mkJavaSetting {
  js_checked : check_schema re_ok sc0 = Some sc;
  js_wf : wf_schema sc0;
  js_orc : oracle_ok orc;
  js_java : java_schema sc ignored }.

(** A validator was generated for the type of [m], and all the values in [m] are in the fragment. *)
Record java_message (sc : schema) (orc : oracles) (jl : java_libs) (ignored : string -> bool) (n : string) (m : msgval) : Prop :=
  mkJavaMessage {
  jm_ignored : ignored n = false;
  jm_values : all_values sc (java_value sc orc jl) n m }.
