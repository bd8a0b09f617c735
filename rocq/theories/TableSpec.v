(** rule_comparison.md of /repo: which rules the languages implement.  The table as data, what it means for the rules of a
    message to have a rule of a row, and the rules without those of a row. *)
From Verif Require Import Base Num Rules Types Iface Checker GoSem Outcome Java Cc Py HarnessMainSpec.

(** The columns are the languages of HarnessMainSpec.v.  The column GoGo is left out: templates/pkg.go:24-30 has templates for
    cc, go and java, and none for gogo. *)

(** The rows, in the order of the file.  The row "prefix/suffix/contains" and the row "contains/not_contains" of strings are
    both there. *)
Inductive row :=
| Disabled
| NumConst | NumRange | NumIn
| BoolConst
| StrConst | StrLen | StrBytes | StrPattern | StrAffix | StrContains | StrIn | Email | Hostname | Address | Ip | Ipv4 | Ipv6 | Uri | UriRef
| Uuid | KnownRegex
| BytConst | BytLen | BytPattern | BytAffix | BytIn | BytIp | BytIpv4 | BytIpv6
| EnumConst | DefinedOnly | EnumIn
| Skip | Required
| Items_ | Unique | ItemRules
| Pairs | NoSparse | KeyRules | ValueRules
| OneofRequired
| Wrapped
| AnyRequired | AnyIn
| DurRequired | DurConst | DurRange | DurIn
| TsRequired | TsConst | TsRange | TsNow | TsWithin.

(** rule_comparison.md:2-118. *)
Definition ticked (l : lang) (x : row) : bool :=
  match l, x with
  | LCc, (Email | Uri | UriRef | BytIp | BytIpv4 | BytIpv6 | ItemRules | NoSparse | KeyRules | ValueRules |
         TsRequired | TsConst | TsRange | TsNow | TsWithin) => false
  | LJava, NoSparse => false
  | LPython, NoSparse => false
  | _, _ => true
  end.

(** The four cells that are wrong: C++ does implement these. *)
Definition overlooked (l : lang) (x : row) : bool :=
  match l, x with LCc, (ItemRules | KeyRules | ValueRules | TsRequired) => true | _, _ => false end.

(** ** Rules without those of a row *)

Definition num_without (x : row) (r : num_rules) : num_rules :=
  match x with
  | NumConst => mkNumRules None (n_lt r) (n_lte r) (n_gt r) (n_gte r) (n_in r) (n_not_in r) (n_ignore_empty r)
  | NumRange => mkNumRules (n_const r) None None None None (n_in r) (n_not_in r) (n_ignore_empty r)
  | NumIn => mkNumRules (n_const r) (n_lt r) (n_lte r) (n_gt r) (n_gte r) [] [] (n_ignore_empty r)
  | _ => r
  end.

(** Is the format [w] that of the row? *)
Definition wk_row (x : row) (w : str_wk) : bool :=
  match x, w with
  | Email, WEmail _ | Hostname, WHostname _ | Address, WAddress _ | Ip, WIp _ | Ipv4, WIpv4 _ | Ipv6, WIpv6 _ | Uri, WUri _
  | UriRef, WUriRef _ | Uuid, WUuid _ | KnownRegex, WRegex _ => true
  | _, _ => false
  end.
Definition bwk_row (x : row) (w : byt_wk) : bool :=
  match x, w with BytIp, BIp _ | BytIpv4, BIpv4 _ | BytIpv6, BIpv6 _ => true | _, _ => false end.
Definition drop {A} (p : A -> bool) (o : option A) : option A :=
  match o with Some a => if p a then None else Some a | None => None end.

Definition str_without (x : row) (r : string_rules) : string_rules :=
  let is (l : list row) := existsb (fun y => match y, x with
    | StrConst, StrConst | StrLen, StrLen | StrBytes, StrBytes | StrPattern, StrPattern | StrAffix, StrAffix | StrContains, StrContains
    | StrIn, StrIn => true | _, _ => false end) l in
  let keep {A} (l : list row) (o : option A) := if is l then None else o in
  mkStringRules (keep [StrConst] (s_const r)) (keep [StrLen] (s_len r)) (keep [StrLen] (s_min_len r)) (keep [StrLen] (s_max_len r))
    (keep [StrBytes] (s_len_bytes r)) (keep [StrBytes] (s_min_bytes r)) (keep [StrBytes] (s_max_bytes r))
    (keep [StrPattern] (s_pattern r)) (keep [StrAffix] (s_prefix r)) (keep [StrAffix] (s_suffix r))
    (keep [StrAffix; StrContains] (s_contains r)) (keep [StrContains] (s_not_contains r))
    (if is [StrIn] then [] else s_in r) (if is [StrIn] then [] else s_not_in r)
    (drop (wk_row x) (s_wk r)) (s_strict r) (s_ignore_empty r).

Definition byt_without (x : row) (r : bytes_rules) : bytes_rules :=
  let c := match x with BytConst => true | _ => false end in
  let n := match x with BytLen => true | _ => false end in
  let p := match x with BytPattern => true | _ => false end in
  let a := match x with BytAffix => true | _ => false end in
  let i := match x with BytIn => true | _ => false end in
  let keep {A} (b : bool) (o : option A) := if b then None else o in
  mkBytesRules (keep c (b_const r)) (keep n (b_len r)) (keep n (b_min_len r)) (keep n (b_max_len r)) (keep p (b_pattern r))
    (keep a (b_prefix r)) (keep a (b_suffix r)) (keep a (b_contains r)) (if i then [] else b_in r) (if i then [] else b_not_in r)
    (drop (bwk_row x) (b_wk r)) (b_ignore_empty r).

Definition enum_without (x : row) (r : enum_rules) : enum_rules :=
  match x with
  | EnumConst => mkEnumRules None (e_defined_only r) (e_in r) (e_not_in r)
  | DefinedOnly => mkEnumRules (e_const r) None (e_in r) (e_not_in r)
  | EnumIn => mkEnumRules (e_const r) (e_defined_only r) [] []
  | _ => r
  end.
Definition any_without (x : row) (r : any_rules) : any_rules :=
  match x with
  | AnyRequired => mkAnyRules None (a_in r) (a_not_in r)
  | AnyIn => mkAnyRules (a_required r) [] []
  | _ => r
  end.
Definition dur_without (x : row) (r : duration_rules) : duration_rules :=
  match x with
  | DurRequired => mkDurationRules None (d_const r) (d_lt r) (d_lte r) (d_gt r) (d_gte r) (d_in r) (d_not_in r)
  | DurConst => mkDurationRules (d_required r) None (d_lt r) (d_lte r) (d_gt r) (d_gte r) (d_in r) (d_not_in r)
  | DurRange => mkDurationRules (d_required r) (d_const r) None None None None (d_in r) (d_not_in r)
  | DurIn => mkDurationRules (d_required r) (d_const r) (d_lt r) (d_lte r) (d_gt r) (d_gte r) [] []
  | _ => r
  end.
Definition ts_without (x : row) (r : timestamp_rules) : timestamp_rules :=
  match x with
  | TsRequired => mkTimestampRules None (t_const r) (t_lt r) (t_lte r) (t_gt r) (t_gte r) (t_lt_now r) (t_gt_now r) (t_within r)
  | TsConst => mkTimestampRules (t_required r) None (t_lt r) (t_lte r) (t_gt r) (t_gte r) (t_lt_now r) (t_gt_now r) (t_within r)
  | TsRange => mkTimestampRules (t_required r) (t_const r) None None None None (t_lt_now r) (t_gt_now r) (t_within r)
  | TsNow => mkTimestampRules (t_required r) (t_const r) (t_lt r) (t_lte r) (t_gt r) (t_gte r) None None (t_within r)
  | TsWithin => mkTimestampRules (t_required r) (t_const r) (t_lt r) (t_lte r) (t_gt r) (t_gte r) (t_lt_now r) (t_gt_now r) None
  | _ => r
  end.

(** The rules for one value; those for lists and maps come below. *)
Definition rule_without (x : row) (r : rule_type) : rule_type :=
  match r with
  | RNum k r => RNum k (num_without x r)
  | RBool c => RBool c
  | RString r => RString (str_without x r)
  | RBytes r => RBytes (byt_without x r)
  | REnum r => REnum (enum_without x r)
  | RAny r => RAny (any_without x r)
  | RDuration r => RDuration (dur_without x r)
  | RTimestamp r => RTimestamp (ts_without x r)
  | RRepeated _ | RMap _ => r
  end.
Definition mr_without (x : row) (mr : message_rules) : message_rules :=
  match x with
  | Skip => mkMessageRules None (m_required mr)
  | Required => mkMessageRules (m_skip mr) None
  | _ => mr
  end.
Definition is_wrapper (e : etype) : bool := match e with TWrap _ => true | _ => false end.
(** The rules for a value of the type [e]; those of a wrapper are the rules of the row "wrapper validation" as well, and
    rules for a truth value consist of nothing but [const]. *)
Definition elem_without (x : row) (e : etype) (fr : field_rules) : field_rules :=
  match fr with FR mr t =>
    FR (option_map (mr_without x) mr)
       (match x with
        | Wrapped => if is_wrapper e then None else t
        | BoolConst => match t with Some (RBool _) => None | _ => t end
        | _ => option_map (rule_without x) t
        end)
  end.

Definition rep_without (x : row) (e : etype) (r : rep_rules field_rules) : rep_rules field_rules :=
  match x with
  | Items_ => mkRepRules None None (r_unique r) (r_items r) (r_ignore_empty r)
  | Unique => mkRepRules (r_min r) (r_max r) None (r_items r) (r_ignore_empty r)
  | ItemRules => mkRepRules (r_min r) (r_max r) (r_unique r) None (r_ignore_empty r)
  | _ => mkRepRules (r_min r) (r_max r) (r_unique r) (option_map (elem_without x e) (r_items r)) (r_ignore_empty r)
  end.
Definition map_without (x : row) (k w : etype) (r : map_rules field_rules) : map_rules field_rules :=
  match x with
  | Pairs => mkMapRules None None (p_no_sparse r) (p_keys r) (p_values r) (p_ignore_empty r)
  | NoSparse => mkMapRules (p_min r) (p_max r) None (p_keys r) (p_values r) (p_ignore_empty r)
  | KeyRules => mkMapRules (p_min r) (p_max r) (p_no_sparse r) None (p_values r) (p_ignore_empty r)
  | ValueRules => mkMapRules (p_min r) (p_max r) (p_no_sparse r) (p_keys r) None (p_ignore_empty r)
  | _ => mkMapRules (p_min r) (p_max r) (p_no_sparse r) (option_map (elem_without x k) (p_keys r))
           (option_map (elem_without x w) (p_values r)) (p_ignore_empty r)
  end.
Definition field_without (x : row) (f : field) : field :=
  mkField (f_name f) (f_type f)
    (match f_type f, f_rules f with
     | FRep e, FR mr (Some (RRepeated r)) => FR mr (Some (RRepeated (rep_without x e r)))
     | FMap k w, FR mr (Some (RMap r)) => FR mr (Some (RMap (map_without x k w r)))
     | FOne e, fr => elem_without x e fr
     | _, fr => fr
     end).
Definition oneof_without (x : row) (o : oneof) : oneof :=
  mkOneof (o_name o) (map (field_without x) (o_fields o)) (match x with OneofRequired => None | _ => o_required o end).
Definition msg_without (x : row) (d : msgdesc) : msgdesc :=
  mkMsg (md_name d) (map (field_without x) (md_fields d)) (map (oneof_without x) (md_oneofs d))
    (match x with Disabled => false | _ => md_disabled d end) (md_methods d).
Definition without (x : row) (sc : schema) : schema :=
  mkSchema (map (msg_without x) (sc_msgs sc)) (sc_enums sc) (sc_top sc).

(** ** What the cells say *)

(** The libraries of the four languages; which patterns compile; which message types have the option [ignored]. *)
Record world := mkWorld {
  w_re : bytes -> bool; w_go : oracles; w_jl : java_libs; w_ignored : string -> bool; w_cl : cc_libs; w_pl : py_libs; w_pn : py_names }.

(** What a program of a language makes of the message [m] of the type [n], if its code was generated from the schema [sc].
    There is none, if the plugin refuses the schema; Python works without the plugin. *)
Definition says (w : world) (l : lang) (sc : schema) (n : string) (m : msgval) : option outcome :=
  match l with
  | LPython => Some (py_validate_f (w_pl w) (w_pn w) sc (S (mheight m)) n m)
  | _ =>
      match check_schema (w_re w) sc with
      | None => None
      | Some sc =>
          Some (match l with
                | LGo => match validate sc (w_go w) false n m with VNil => Passes | VErr _ => Rejects | VStuck => Crashes end
                | LJava => assert_valid_f (w_jl w) sc (w_ignored w) (S (mheight m)) n m
                | _ => cc_validate_f (w_cl w) sc (S (mheight m)) n m
                end)
      end
  end.

(** The rules of the row [x] decide about [m]: with them it is accepted and without them rejected, or the other way round. *)
Definition decides (w : world) (l : lang) (x : row) (sc : schema) (n : string) (m : msgval) : Prop :=
  says w l sc n m = Some Passes /\ says w l (without x sc) n m = Some Rejects \/
  says w l sc n m = Some Rejects /\ says w l (without x sc) n m = Some Passes.
