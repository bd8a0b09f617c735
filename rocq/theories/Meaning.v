(** What the rules mean, one rule at a time.

    This is a second reading of validate.proto: each rule that is present demands something of
    the value, independently of the other rules.  Spec.v is finer (it also says in which
    order violations are reported and in which words); for schemas the plugin accepts both
    admit the same messages (MeaningFacts.v).  The texts, numbers and times used
    here are those of Spec.v. *)
From Coq Require Import Floats.SpecFloat.
From Verif Require Import Base Num Rules Types Iface Spec.

(** A membership rule: [in] when not empty, and [not_in]. *)
Definition listed {A} (eq : A -> Prop) (l nl : list A) : Prop :=
  (l <> [] -> Exists eq l) /\ ~ Exists eq nl.

(** Numbers (validate.proto:69-499).  NaN passes every range. *)
Definition num_meaning (r : num_rules) (v : num) : Prop :=
  (n_ignore_empty r = Some true /\ nzero v) \/
  ((forall c, n_const r = Some c -> neq v c) /\
   (nan v \/ within_range nlt neq (bnd (n_lt r) (n_lte r)) (bnd (n_gt r) (n_gte r)) v) /\
   listed (neq v) (n_in r) (n_not_in r)).

Section Meaning.
Variable orc : oracles.
Variable sc : schema.

(** The well-known formats (validate.proto:560-607). *)
Definition format_meaning (w : str_wk) (strict : bool) (s : bytes) : Prop :=
  match w with
  | WEmail b => b = true -> email_ok (o_mail orc s)
  | WHostname b => b = true -> hostname s
  | WIp b => b = true -> ip_text orc s (fun _ => True)
  | WIpv4 b => b = true -> ip_text orc s ip4_bytes
  | WIpv6 b => b = true -> ip_text orc s (fun ip => ~ ip4_bytes ip)
  | WUri b => b = true -> o_url orc s = Some true
  | WUriRef b => b = true -> o_url orc s <> None
  | WAddress b => b = true -> hostname s \/ ip_text orc s (fun _ => True)
  | WUuid b => b = true -> uuid s
  | WRegex KRHeaderName => header_ok KRHeaderName strict s
  | WRegex KRHeaderValue => header_ok KRHeaderValue strict s
  | WRegex _ => True
  end.

(** Strings (validate.proto:507-621). *)
Definition str_meaning (r : string_rules) (s : bytes) : Prop :=
  (s_ignore_empty r = Some true /\ s = []) \/
  ((forall c, s_const r = Some c -> s = c) /\
   listed (fun x => s = x) (s_in r) (s_not_in r) /\
   (forall n, s_len r = Some n -> chars_count s n) /\
   (forall n, s_min_len r = Some n -> exists k, chars_count s k /\ (n <= k)%N) /\
   (forall n, s_max_len r = Some n -> exists k, chars_count s k /\ (k <= n)%N) /\
   (forall n, s_len_bytes r = Some n -> bytes_count s n) /\
   (forall n, s_min_bytes r = Some n -> exists k, bytes_count s k /\ (n <= k)%N) /\
   (forall n, s_max_bytes r = Some n -> exists k, bytes_count s k /\ (k <= n)%N) /\
   (forall p, s_prefix r = Some p -> starts_with s p) /\
   (forall p, s_suffix r = Some p -> ends_with s p) /\
   (forall p, s_contains r = Some p -> has_inside s p) /\
   (forall p, s_not_contains r = Some p -> ~ has_inside s p) /\
   (forall p, s_pattern r = Some p -> o_match orc p s = true) /\
   (forall w, s_wk r = Some w -> format_meaning w (match s_strict r with Some b => b | None => true end) s)).

(** Bytes (validate.proto:635-694).  Deviations from the documentation: [len] switches
    [min_len] and [max_len] off, and an empty [const] is not enforced. *)
Definition byt_meaning (r : bytes_rules) (s : bytes) : Prop :=
  (b_ignore_empty r = Some true /\ s = []) \/
  ((forall n, b_len r = Some n -> bytes_count s n) /\
   (forall n, b_len r = None -> b_min_len r = Some n -> exists k, bytes_count s k /\ (n <= k)%N) /\
   (forall n, b_len r = None -> b_max_len r = Some n -> exists k, bytes_count s k /\ (k <= n)%N) /\
   (forall p, b_prefix r = Some p -> starts_with s p) /\
   (forall p, b_suffix r = Some p -> ends_with s p) /\
   (forall p, b_contains r = Some p -> has_inside s p) /\
   listed (fun x => s = x) (b_in r) (b_not_in r) /\
   (forall c, b_const r = Some c -> c <> [] -> s = c) /\
   (b_wk r = Some (BIp true) -> ip_bytes s) /\
   (b_wk r = Some (BIpv4 true) -> ip4_bytes s) /\
   (b_wk r = Some (BIpv6 true) -> ip_bytes s /\ ~ ip4_bytes s) /\
   (forall p, b_pattern r = Some p -> o_match orc p s = true)).

(** Enums (validate.proto:697-712). *)
Definition enum_meaning (e : string) (r : enum_rules) (z : Z) : Prop :=
  (forall c, e_const r = Some c -> z = c) /\
  listed (fun x => z = x) (e_in r) (e_not_in r) /\
  (e_defined_only r = Some true -> defined sc e z).

(** Any (validate.proto:779-790). *)
Definition any_meaning (r : any_rules) (o : option bytes) : Prop :=
  (a_required r = Some true -> o <> None) /\
  (forall url, o = Some url -> listed (fun x => url = x) (a_in r) (a_not_in r)).

(** Durations (validate.proto:794-824), compared as Go durations. *)
Definition dur_constrained (r : duration_rules) : Prop :=
  d_const r <> None \/ d_lt r <> None \/ d_lte r <> None \/ d_gt r <> None \/ d_gte r <> None \/
  d_in r <> [] \/ d_not_in r <> [].

Definition dur_meaning (r : duration_rules) (o : option sn) : Prop :=
  (d_required r = Some true -> o <> None) /\
  (forall d, o = Some d -> dur_constrained r ->
     valid_duration d /\
     (forall c, d_const r = Some c -> go_duration d = go_duration c) /\
     within_range (fun a b => (go_duration a < go_duration b)%Z) (fun a b => go_duration a = go_duration b)
       (bnd (d_lt r) (d_lte r)) (bnd (d_gt r) (d_gte r)) d /\
     listed (fun x => go_duration d = go_duration x) (d_in r) (d_not_in r)).

(** Timestamps (validate.proto:828-863).  Deviation: [lt_now] and [gt_now] count as set even
    when set to false. *)
Definition ts_constrained (r : timestamp_rules) : Prop :=
  t_const r <> None \/ t_lt r <> None \/ t_lte r <> None \/ t_gt r <> None \/ t_gte r <> None \/
  t_lt_now r <> None \/ t_gt_now r <> None \/ t_within r <> None.

Definition ts_meaning (r : timestamp_rules) (o : option sn) : Prop :=
  (t_required r = Some true -> o <> None) /\
  (forall t, o = Some t -> ts_constrained r ->
     let now := o_now orc in
     valid_timestamp t /\
     (forall c, t_const r = Some c -> nanos t = nanos c) /\
     within_range (fun a b => (nanos a < nanos b)%Z) (fun a b => nanos a = nanos b)
       (bnd (t_lt r) (t_lte r)) (bnd (t_gt r) (t_gte r)) t /\
     (t_lt_now r <> None -> (nanos t < now)%Z) /\
     (t_gt_now r <> None -> (now < nanos t)%Z) /\
     (forall w, t_within r = Some w ->
        match t_lt_now r, t_gt_now r with
        | None, None => (Z.abs (nanos t - now) < nanos w)%Z
        | _, _ => (Z.abs (nanos t - now) <= nanos w)%Z
        end)).

(** A rule on a value. *)
Definition rule_meaning (e : etype) (r : rule_type) (v : value) : Prop :=
  match r, v with
  | RNum _ r, VNum n => num_meaning r n
  | RBool c, VBool b => forall x, c = Some x -> b = x
  | RString r, VStr s => str_meaning r s
  | RBytes r, VByt s => byt_meaning r s
  | REnum r, VEnum z => enum_meaning (match e with TEnum n => n | _ => ""%string end) r z
  | RAny r, VAny o => any_meaning r o
  | RDuration r, VDur o => dur_meaning r o
  | RTimestamp r, VTs o => ts_meaning r o
  | _, _ => True
  end.

(** Field, item, map key or map value.  On a wrapper the rule is about the wrapped value,
    and an absent wrapper is only rejected when required.  Otherwise, [required] is about
    message types without rules of their own. *)
Definition elem_meaning (e : etype) (fr : field_rules) (v : value) : Prop :=
  match fr with
  | FR mr (Some r) =>
      match e, v with
      | TWrap w, VWrap (Some x) => rule_meaning (wrapped_type w) r x
      | TWrap w, VWrap None => required mr = false
      | _, _ => rule_meaning e r v
      end
  | FR mr None => is_embed e = true -> required mr = true -> is_set v
  end.

(** Counts. *)
Definition count_meaning (n : N) (mn mx : option N) : Prop :=
  (forall a, mn = Some a -> (a <= n)%N) /\ (forall b, mx = Some b -> (n <= b)%N).

(** Repeated fields (validate.proto:726-748). *)
Definition rep_meaning (e : etype) (r : rep_rules field_rules) (l : list value) : Prop :=
  (r_ignore_empty r = Some true /\ l = []) \/
  (count_meaning (N.of_nat (List.length l)) (r_min r) (r_max r) /\
   (r_unique r = Some true -> forall i j x y, i < j -> nth_error l i = Some x -> nth_error l j = Some y -> ~ same_item y x) /\
   (forall x, In x l -> elem_meaning e (rules_or_none (r_items r)) x)).

(** Maps (validate.proto:751-775). *)
Definition map_meaning (k v : etype) (r : map_rules field_rules) (l : list (value * value)) : Prop :=
  (p_ignore_empty r = Some true /\ l = []) \/
  (count_meaning (N.of_nat (List.length l)) (p_min r) (p_max r) /\
   (p_no_sparse r = Some true -> forall x y, In (x, y) l -> is_set y) /\
   (forall x y, In (x, y) l -> elem_meaning k (rules_or_none (p_keys r)) x /\ elem_meaning v (rules_or_none (p_values r)) y)).

Definition rep_of (fr : field_rules) : rep_rules field_rules :=
  match fr_typ fr with Some (RRepeated r) => r | _ => mkRepRules None None None None None end.
Definition map_of (fr : field_rules) : map_rules field_rules :=
  match fr_typ fr with Some (RMap r) => r | _ => mkMapRules None None None None None None end.

Definition field_meaning (f : field) (v : value) : Prop :=
  match f_type f, v with
  | FOne e, _ => elem_meaning e (f_rules f) v
  | FRep e, VList l => rep_meaning e (rep_of (f_rules f)) l
  | FMap k w, VMap l => map_meaning k w (map_of (f_rules f)) l
  | _, _ => True
  end.

(** Messages: every field, and the populated member of every oneof. *)
Definition msg_meaning (d : msgdesc) (m : msgval) : Prop :=
  (forall f v, In f (md_fields d) -> assoc (f_name f) (mv_fields m) = Some v -> field_meaning f v) /\
  (forall o, In o (md_oneofs d) -> assoc (o_name o) (mv_oneofs m) = Some None -> o_required o <> Some true) /\
  (forall o f v, In o (md_oneofs d) -> In f (o_fields o) ->
     assoc (o_name o) (mv_oneofs m) = Some (Some (f_name f, v)) -> field_meaning f v).

(** Which embedded messages count: set, of a type that has a Validate method, not skipped, and
    without rules other than message rules. *)
Definition elem_embeds (e : etype) (fr : field_rules) (v : value) (n : string) (m : msgval) : Prop :=
  e = TMsg n /\ v = VMsg (Some m) /\ fr_typ fr = None /\ skipped (fr_msg fr) = false /\ validated_type sc n = true.

Definition field_embeds (f : field) (v : value) (n : string) (m : msgval) : Prop :=
  match f_type f, v with
  | FOne e, _ => elem_embeds e (f_rules f) v n m
  | FRep e, VList l => exists x, In x l /\ elem_embeds e (rules_or_none (r_items (rep_of (f_rules f)))) x n m
  | FMap k w, VMap l =>
      exists x y, In (x, y) l /\
        (elem_embeds k (rules_or_none (p_keys (map_of (f_rules f)))) x n m \/
         elem_embeds w (rules_or_none (p_values (map_of (f_rules f)))) y n m)
  | _, _ => False
  end.

Definition msg_embeds (d : msgdesc) (m : msgval) (n1 : string) (m1 : msgval) : Prop :=
  (exists f v, In f (md_fields d) /\ assoc (f_name f) (mv_fields m) = Some v /\ field_embeds f v n1 m1) \/
  (exists o f v, In o (md_oneofs d) /\ In f (o_fields o) /\
     assoc (o_name o) (mv_oneofs m) = Some (Some (f_name f, v)) /\ field_embeds f v n1 m1).

Inductive includes : string -> msgval -> string -> msgval -> Prop :=
| includes_here n m : includes n m n m
| includes_down n m d n1 m1 n' m' : find_msg sc n = Some d -> md_disabled d = false ->
    msg_embeds d m n1 m1 -> includes n1 m1 n' m' -> includes n m n' m'.

(** [meant n m]: the message and all embedded ones obey the rules of their types. *)
Definition meant (n : string) (m : msgval) : Prop :=
  forall n' m' d, includes n m n' m' -> find_msg sc n' = Some d -> md_disabled d = false -> msg_meaning d m'.
End Meaning.
