(** On which schemas, and for which values, validation in Python must agree with the rules.

    The conditions are about what the generated Python can express.  Each clause excludes something
    for which there is no Python source, that fails when it runs, or that deviates; PropPy.v
    has the deviations. *)
From Coq Require Import Floats.SpecFloat.
From Verif Require Import Base Utf8 Num Rules Types Iface Checker Spec Meaning LitSpec Wt Values Outcome Says Py.

(** ** Constants *)

(** Numbers that have a literal. *)
Definition py_const (k : numkind) (n : num) : Prop :=
  num_of_kind k n = true /\ (forall s, n <> NF (S754_infinity s)) /\ n <> NF S754_nan.
(** str.splitlines, which the Jinja filter [indent] uses, breaks lines at these. *)
Definition line_break (c : N) : Prop :=
  In c [10; 11; 12; 13; 28; 29; 30; 133; 8232; 8233]%N.
(** A text pasted between double quotes. *)
Definition py_text (s : bytes) : Prop :=
  valid_utf8 s /\ Forall (fun c => c <> 0 /\ c <> 34 /\ c <> 92 /\ ~ line_break c)%N (runes s).
(** The texts of a list are written by [repr], and again between double quotes. *)
Definition py_quoted (s : bytes) : Prop := valid_utf8 s /\ ~ In 34%N s /\ ~ In 39%N s.
Definition py_bytes_const (s : bytes) : Prop := ~ In 34%N s /\ ~ In 39%N s.
(** A pattern is pasted into r'...', and between double quotes, where it must not end an escape
    sequence of the wrong form. *)
Definition py_regex (p : bytes) : Prop :=
  valid_utf8 p /\ Forall (fun c => c <> 0 /\ c <> 34 /\ c <> 39 /\ ~ line_break c)%N (runes p) /\
  (forall a b, runes p = a ++ 92%N :: b -> exists c t, b = c :: t /\ ~ In c (bs "NUux")).
(** A pattern for bytes: backslashes would be doubled. *)
Definition plain_ascii (p : bytes) : Prop := Forall (fun c => 32 <= c < 127 /\ c <> 92)%N p.
(** Whole seconds, and few enough that Go does not saturate. *)
Definition whole_seconds (d : sn) : Prop := sn_n d = 0%Z /\ (Z.abs (sn_s d) < 2^53)%Z.
Definition py_dur_const (d : sn) : Prop := whole_seconds d /\ (- 2^63 < nanos d < 2^63 - 1)%Z.

(** ** Sources *)

(** Rules in which nothing is set. *)
Definition blank (r : rule_type) : Prop :=
  match r with
  | RNum _ r => r = num_none
  | RBool c => c = None
  | RString r => r = str_none
  | RBytes r => r = byt_none
  | REnum r => r = mkEnumRules None None [] []
  | RRepeated r => r = mkRepRules None None None None None
  | RMap r => r = mkMapRules None None None None None None
  | RAny r => r = mkAnyRules None [] []
  | RDuration r => r = dur_none
  | RTimestamp r => r = ts_none
  end.

Definition no_size (o : option N) : Prop := o = None \/ o = Some 0%N.
Definition no_text (o : option bytes) : Prop := o = None \/ o = Some [].
(** Rules for a scalar that print no statement, apart from the [if] of [ignore_empty]. *)
Definition idle (r : rule_type) : Prop :=
  match r with
  | RNum _ r => n_const r = None /\ n_in r = [] /\ n_not_in r = [] /\
                n_lt r = None /\ n_lte r = None /\ n_gt r = None /\ n_gte r = None
  | RBool _ => False
  | RString r => s_const r = None /\ s_in r = [] /\ s_not_in r = [] /\
      Forall no_size [s_len r; s_min_len r; s_max_len r; s_len_bytes r; s_min_bytes r; s_max_bytes r] /\
      Forall no_text [s_prefix r; s_suffix r; s_contains r; s_not_contains r] /\
      match s_wk r with
      | None | Some (WRegex KRUnknown) | Some (WRegex KROther) | Some (WEmail false) | Some (WHostname false) | Some (WIp false)
      | Some (WIpv4 false) | Some (WIpv6 false) | Some (WUri false) | Some (WUriRef false) | Some (WAddress false)
      | Some (WUuid false) => no_text (s_pattern r)
      | _ => False
      end
  | RBytes r => b_const r = None /\ b_in r = [] /\ b_not_in r = [] /\
      Forall no_size [b_len r; b_min_len r; b_max_len r] /\
      Forall no_text [b_pattern r; b_prefix r; b_suffix r; b_contains r] /\
      match b_wk r with None | Some (BIp false) | Some (BIpv4 false) | Some (BIpv6 false) => True | _ => False end
  | REnum r => (e_const r = None \/ e_const r = Some 0%Z) /\ e_in r = [] /\ e_not_in r = [] /\ e_defined_only r <> Some true
  | _ => False
  end.
(** [ignore_empty] prints an [if]. *)
Definition ignoring (r : rule_type) : Prop :=
  match r with
  | RNum _ r => n_ignore_empty r <> None
  | RString r => s_ignore_empty r = Some true
  | RBytes r => b_ignore_empty r = Some true
  | _ => False
  end.

(** A text with [ignore_empty] prints its [if] without a line break before it, which only a field that is not in a oneof may have. *)
Definition text_ignoring (r : rule_type) : Prop := match r with RString r => s_ignore_empty r = Some true | _ => False end.
Definition member_shape (f : field) : Prop :=
  match f_type f, f_rules f with FOne TString, FR _ (Some r) => ~ text_ignoring r | _, _ => True end.
(** An upper bound of a duration is printed without a line break, unless there is a lower bound below it: there must be no check before. *)
Definition dur_apart (r : rule_type) : Prop :=
  match r with
  | RDuration r =>
      (d_const r = None /\ d_in r = [] /\ d_not_in r = []) \/ (d_lt r = None /\ d_lte r = None) \/
      exists u l, (d_lt r = Some u \/ d_lt r = None /\ d_lte r = Some u) /\ (d_gt r = Some l \/ d_gt r = None /\ d_gte r = Some l) /\
        whole_seconds u /\ whole_seconds l /\ (sn_s l < sn_s u)%Z
  | _ => True
  end.

Definition fits (e : etype) (r : rule_type) : Prop :=
  match r, e with
  | RNum k _, TNum k' => k = k'
  | RBool _, TBool | RString _, TString | RBytes _, TBytes | REnum _, TEnum _ => True
  | RAny _, TAny | RDuration _, TDur | RTimestamp _, TTs => True
  | _, _ => False
  end.
(** The rules of an item, a key or a value print a block with something in it. *)
Definition py_inner_shape (e : etype) (fr : field_rules) : Prop :=
  match fr with
  | FR mr (Some r) => fits e r /\ mr = None /\ ~ (ignoring r /\ idle r) /\ ~ text_ignoring r /\ dur_apart r
  | _ => True
  end.
(** There is Python source for the field. *)
Definition py_shape (f : field) : Prop :=
  match f_type f, f_rules f with
  | _, FR None None => True
  | FOne (TWrap w), FR _ (Some r) => fits (wrapped_type w) r /\ ~ blank r /\ ~ idle r
  | FOne e, FR None (Some r) => fits e r /\ ~ blank r /\ ~ (ignoring r /\ idle r) /\ dur_apart r
  | FOne _, FR (Some mr) None => m_skip mr <> None \/ m_required mr <> None
  | FRep e, FR None (Some (RRepeated r)) =>
      ~ blank (RRepeated r) /\
      (r_ignore_empty r = Some true ->
         ~ (no_size (r_min r) /\ no_size (r_max r) /\ r_unique r <> Some true /\ is_embed e = false /\
            inner (r_items r) = no_rules)) /\
      py_inner_shape e (inner (r_items r))
  | FMap k w, FR None (Some (RMap r)) =>
      ~ blank (RMap r) /\
      (p_ignore_empty r = Some true ->
         ~ (no_size (p_min r) /\ no_size (p_max r) /\ is_embed w = false /\
            inner (p_keys r) = no_rules /\ inner (p_values r) = no_rules)) /\
      py_inner_shape k (inner (p_keys r)) /\ py_inner_shape w (inner (p_values r))
  | _, _ => False
  end.

(** ** Rules *)

Definition py_num_ok (k : numkind) (r : num_rules) : Prop :=
  (forall n, (n_const r = Some n \/ n_lt r = Some n \/ n_lte r = Some n \/ n_gt r = Some n \/ n_gte r = Some n \/
              In n (n_in r) \/ In n (n_not_in r)) -> py_const k n) /\
  n_ignore_empty r <> Some false.

(** Rules with a pattern of the checker. *)
Definition header_rule (r : string_rules) : Prop :=
  s_wk r = Some (WRegex KRHeaderName) \/ s_wk r = Some (WRegex KRHeaderValue).
Definition py_str_ok (r : string_rules) : Prop :=
  (forall s, (s_const r = Some s \/ s_prefix r = Some s \/ s_suffix r = Some s \/ s_contains r = Some s \/
              s_not_contains r = Some s) -> py_text s) /\
  (forall s, In s (s_in r) \/ In s (s_not_in r) -> py_quoted s) /\
  (~ header_rule r -> forall p, s_pattern r = Some p -> p <> [] /\ py_regex p) /\
  s_wk r <> Some (WRegex KROther) /\ (** cannot be told from no rule at all *)
  (** a zero and an empty text count as absent *)
  s_len r <> Some 0%N /\ s_max_len r <> Some 0%N /\ s_len_bytes r <> Some 0%N /\ s_max_bytes r <> Some 0%N /\
  s_not_contains r <> Some [].

Definition py_byt_ok (r : bytes_rules) : Prop :=
  (forall s, (b_const r = Some s \/ b_prefix r = Some s \/ b_suffix r = Some s \/ b_contains r = Some s \/
              In s (b_in r) \/ In s (b_not_in r)) -> py_bytes_const s) /\
  (forall p, b_pattern r = Some p -> p <> [] /\ plain_ascii p) /\
  b_const r <> Some [] /\ b_len r <> Some 0%N /\ b_max_len r <> Some 0%N /\
  (** all of them are enforced *)
  (b_len r <> None -> b_min_len r = None /\ b_max_len r = None).

Definition py_rule_ok (r : rule_type) : Prop :=
  match r with
  | RNum k r => py_num_ok k r
  | RBool _ => True
  | RString r => py_str_ok r
  | RBytes r => py_byt_ok r
  | REnum r => e_const r <> Some 0%Z
  | RAny r => forall s, In s (a_in r) \/ In s (a_not_in r) -> py_quoted s
  | RDuration r =>
      forall d, (d_const r = Some d \/ d_lt r = Some d \/ d_lte r = Some d \/ d_gt r = Some d \/ d_gte r = Some d \/
                 In d (d_in r) \/ In d (d_not_in r)) -> py_dur_const d
  | RTimestamp r =>
      (forall d, (t_const r = Some d \/ t_lt r = Some d \/ t_lte r = Some d \/ t_gt r = Some d \/ t_gte r = Some d) -> whole_seconds d) /\
      t_within r = None
  | _ => False
  end.

(** Inside lists and maps: no rules for bytes, and nothing is required. *)
Definition py_inner_ok (fr : field_rules) : Prop :=
  match fr with
  | FR _ (Some r) =>
      py_rule_ok r /\
      match r with
      | RBytes _ => False
      | RAny r => a_required r <> Some true
      | RDuration r => d_required r <> Some true
      | RTimestamp r => t_required r <> Some true
      | _ => True
      end
  | FR (Some mr) None => m_skip mr = Some true /\ m_required mr <> Some true
  | FR None None => True
  end.

Section Names.
Variable pn : py_names.

Definition py_field_ok (f : field) : Prop :=
  match f_type f, f_rules f with
  | FOne _, FR _ (Some r) => py_rule_ok r
  | FOne _, FR _ None => True
  | FRep e, FR _ None => forall m, e = TMsg m -> pn_entry pn m = false
  | FRep e, FR _ (Some (RRepeated r)) =>
      r_max r <> Some 0%N /\ (r_unique r = Some true -> is_embed e = false) /\ py_inner_ok (inner (r_items r))
  | FMap _ _, FR _ None => True
  | FMap k w, FR _ (Some (RMap r)) =>
      p_max r <> Some 0%N /\
      py_inner_ok (inner (p_keys r)) /\ py_inner_ok (inner (p_values r)) /\
      (** rules for keys take the place of the validation of values *)
      (forall m, w = TMsg m -> inner (p_values r) = no_rules -> inner (p_keys r) = no_rules)
  | _, _ => False
  end.

(** A message type about which there is nothing to check. *)
Definition plain (sc : schema) (d : msgdesc) : Prop :=
  Forall (fun f => f_rules f = no_rules /\
     forall m, (f_type f = FOne (TMsg m) \/ f_type f = FRep (TMsg m) \/ exists k, f_type f = FMap k (TMsg m)) ->
       pn_entry pn m = false /\ exists d', find_msg sc m = Some d' /\ md_methods d' = MNone) (all_fields d) /\
  Forall (fun o => o_required o <> Some true) (md_oneofs d).

(** ** Values *)
Variable pl : py_libs.
Variable orc : oracles.

(** The text whose form the e-mail validator is asked about. *)
Definition mail_part (s addr : bytes) : Prop :=
  (addr = s /\ (~ In 60%N s \/ ~ In 62%N s)) \/
  exists a b, s = a ++ [60%N] ++ addr ++ [62%N] ++ b /\ ~ In 60%N a /\ ~ In 60%N addr /\ ~ In 62%N addr.

(** The libraries of Python and of Go agree about [s].  An address has one "@", and what is taken for a
    UUID is one. *)
Definition py_formats_agree (w : str_wk) (s : bytes) : Prop :=
  let ascii := Forall (fun c => c < 128)%N s in
  let ips := pl_ip4 pl (runes s) = true \/ pl_ip6 pl (runes s) = true <-> ip_text orc s (fun _ => True) in
  match w with
  | WEmail true =>
      ascii /\ exists addr, mail_part s addr /\
        if pl_email pl addr then o_mail orc s = Some addr /\ exists a b, addr = a ++ [64%N] ++ b /\ ~ In 64%N a /\ ~ In 64%N b
        else ~ email_ok (o_mail orc s)
  | WHostname true => ascii
  | WIp true => ips
  | WIpv4 true => pl_ip4 pl (runes s) = true <-> ip_text orc s ip4_bytes
  | WIpv6 true => pl_ip6 pl (runes s) = true <-> ip_text orc s (fun ip => ~ ip4_bytes ip)
  | WAddress true => ascii /\ ips
  | WUri true =>
      exists u, pl_url pl (runes s) = Some u /\
        (u_scheme u = true /\ u_netloc u = true /\ u_path u = true <-> o_url orc s = Some true)
  | WUriRef true =>
      exists u, pl_url pl (runes s) = Some u /\
        ((u_scheme u = true /\ u_path u = true) \/ u_fragment u = false <-> o_url orc s <> None)
  | WUuid true =>
      uuid s \/ (Forall (fun c => ~ In c [58; 123; 125])%N s /\ ascii /\
                List.length (filter (fun c => negb (c =? 45)%N) s) <> 32)
  | WRegex _ => ~ ends_with s [10%N]
  | _ => True
  end.

(** The clocks show the same whole second. *)
Definition same_second : Prop :=
  exists k, pl_now pl = of_int k /\ (Z.abs k < 2^53)%Z /\ o_now orc = (k * 1000000000)%Z.

Definition py_ruled (r : rule_type) (v : value) : Prop :=
  match r, v with
  | RString r, VStr s =>
      valid_utf8 s /\
      (~ header_rule r -> forall p, s_pattern r = Some p -> pl_search pl p (runes s) = o_match orc p s) /\
      (forall w, s_wk r = Some w -> py_formats_agree w s)
  | RBytes r, VByt s =>
      (forall p, b_pattern r = Some p -> pl_bsearch pl p s = o_match orc p s) /\
      (b_wk r <> None -> ~ mapped4 s)
  | RAny _, VAny (Some url) => valid_utf8 url
  | RDuration r, VDur (Some d) => dur_constrained r -> valid_duration d /\ sn_n d = 0%Z
  | RTimestamp r, VTs (Some t) =>
      ts_constrained r -> valid_timestamp t /\ sn_n t = 0%Z /\ (t_lt_now r <> None \/ t_gt_now r <> None -> same_second)
  | _, _ => True
  end.

(** In lists and maps there are no absent messages. *)
Definition py_value (inside uniq : bool) (e : etype) (fr : field_rules) (v : value) : Prop :=
  (inside = true -> is_set v) /\
  (forall s, uniq = true -> v = VStr s -> valid_utf8 s) /\
  (forall mr r, fr = FR mr (Some r) ->
     match v with
     | VWrap (Some x) => py_ruled r x
     | _ => py_ruled r v
     end).
End Names.

(** ** The assumptions of the theorems about Python *)

(** The plugin accepts the well-formed schema [sc0], and [sc] is what the checker makes of it (it
    writes down the patterns of well_known_regex).  Python validates by [sc0]. *)
Record py_setting (re_ok : bytes -> bool) (sc0 sc : schema) (orc : oracles) (pl : py_libs) (pn : py_names) : Prop := mkPySetting {
  ps_checked : check_schema re_ok sc0 = Some sc;
  ps_wf : wf_schema sc0;
  ps_orc : oracle_ok orc;
  (** [int(h, 16)] *)
  ps_hex : forall h, List.length h = 32 -> Forall hexdig h -> pl_int16 pl h = true;
  ps_shape : forall d, In d (sc_msgs sc) -> Forall py_shape (all_fields d);
  ps_members : forall d o, In d (sc_msgs sc) -> In o (md_oneofs d) -> Forall member_shape (o_fields o);
  ps_fields : forall d, In d (sc_msgs sc) -> active d = true -> Forall (py_field_ok pn) (all_fields d);
  ps_ignored : forall d, In d (sc_msgs sc) -> pn_ignored pn (md_name d) = true -> md_methods d = MNone;
  ps_plain : forall d, In d (sc_msgs sc) -> md_methods d = MNone -> pn_ignored pn (md_name d) = false -> plain pn sc d;
  (** no validated type looks like one of google.protobuf *)
  ps_google : forall n, validated_type sc0 n = true -> String.prefix "google.protobuf" (pn_full pn n) = false }.

(** All the values in [m] are in the fragment. *)
Definition py_values (sc : schema) (orc : oracles) (pl : py_libs) (n : string) (m : msgval) : Prop :=
  all_values sc (py_value pl orc) n m.
