(** When a schema is changed: which changes of rules ask for more, and how the code generated from one schema sees the messages of another.

    In all relations the first argument is the schema, field, rule or message of the code in question, and the second that of the
    other side, whose demands are at least as strong. *)
From Coq Require Import Floats.SpecFloat Sorting.Permutation.
From Verif Require Import Base Num Rules Types Iface Spec Meaning.

(** * Rules *)

(** A rule that is absent, or the same. *)
Definition kept {A} (a a' : option A) : Prop := a = None \/ a' = a.
Definition flag (a a' : option bool) : Prop := a = Some true -> a' = Some true.
(** A lower limit of the other side is not lower, an upper limit not higher. *)
Definition min_kept (a a' : option N) : Prop := forall n, a = Some n -> exists n', a' = Some n' /\ (n <= n')%N.
Definition max_kept (a a' : option N) : Prop := forall n, a = Some n -> exists n', a' = Some n' /\ (n' <= n)%N.
(** Nothing new in a list of admitted values, nothing removed from a list of excluded ones. *)
Definition lists_kept {A} (l nl l' nl' : list A) : Prop := (l <> [] -> l' <> [] /\ incl l' l) /\ incl nl nl'.

Section Ranges.
Context {T : Type} (lt : T -> T -> Prop).
Definition up_kept (u u' : bound T) : Prop := u' = u \/ lt (bval u') (bval u) \/ exists t, u = Incl t /\ u' = Excl t.
Definition lo_kept (l l' : bound T) : Prop := l' = l \/ lt (bval l) (bval l') \/ exists t, l = Incl t /\ l' = Excl t.
(** No range, the same range, or narrower limits, which must not be the wrong way round: with [lt: 5] and [gt: 10] one of the two is
    enough. *)
Definition range_kept (up lo up' lo' : option (bound T)) : Prop :=
  (up = None /\ lo = None) \/ (up' = up /\ lo' = lo) \/
  ((forall u, up = Some u -> exists u', up' = Some u' /\ up_kept u u') /\
   (forall l, lo = Some l -> exists l', lo' = Some l' /\ lo_kept l l') /\
   (forall u' l', up' = Some u' -> lo' = Some l' -> lt (bval l') (bval u'))).
End Ranges.

Definition num_kept (r r' : num_rules) : Prop :=
  flag (n_ignore_empty r') (n_ignore_empty r) /\ kept (n_const r) (n_const r') /\
  range_kept nlt (bnd (n_lt r) (n_lte r)) (bnd (n_gt r) (n_gte r)) (bnd (n_lt r') (n_lte r')) (bnd (n_gt r') (n_gte r')) /\
  lists_kept (n_in r) (n_not_in r) (n_in r') (n_not_in r').

Definition str_kept (r r' : string_rules) : Prop :=
  flag (s_ignore_empty r') (s_ignore_empty r) /\ kept (s_const r) (s_const r') /\
  lists_kept (s_in r) (s_not_in r) (s_in r') (s_not_in r') /\
  kept (s_len r) (s_len r') /\ min_kept (s_min_len r) (s_min_len r') /\ max_kept (s_max_len r) (s_max_len r') /\
  kept (s_len_bytes r) (s_len_bytes r') /\ min_kept (s_min_bytes r) (s_min_bytes r') /\ max_kept (s_max_bytes r) (s_max_bytes r') /\
  kept (s_prefix r) (s_prefix r') /\ kept (s_suffix r) (s_suffix r') /\ kept (s_contains r) (s_contains r') /\
  kept (s_not_contains r) (s_not_contains r') /\ kept (s_pattern r) (s_pattern r') /\
  (s_wk r = None \/ (s_wk r' = s_wk r /\ s_strict r' = s_strict r)).

(** [len] of bytes hides [min_len] and [max_len], so that it must not be added to these. *)
Definition byt_kept (r r' : bytes_rules) : Prop :=
  flag (b_ignore_empty r') (b_ignore_empty r) /\ kept (b_const r) (b_const r') /\
  lists_kept (b_in r) (b_not_in r) (b_in r') (b_not_in r') /\
  kept (b_len r) (b_len r') /\ (b_len r = None -> b_len r' <> None -> b_min_len r = None /\ b_max_len r = None) /\
  (b_len r = None -> min_kept (b_min_len r) (b_min_len r') /\ max_kept (b_max_len r) (b_max_len r')) /\
  kept (b_prefix r) (b_prefix r') /\ kept (b_suffix r) (b_suffix r') /\ kept (b_contains r) (b_contains r') /\
  kept (b_pattern r) (b_pattern r') /\ kept (b_wk r) (b_wk r').

Definition enum_kept (r r' : enum_rules) : Prop :=
  kept (e_const r) (e_const r') /\ lists_kept (e_in r) (e_not_in r) (e_in r') (e_not_in r') /\ flag (e_defined_only r) (e_defined_only r').

Definition any_kept (r r' : any_rules) : Prop :=
  flag (a_required r) (a_required r') /\ lists_kept (a_in r) (a_not_in r) (a_in r') (a_not_in r').

Definition dur_kept (r r' : duration_rules) : Prop :=
  flag (d_required r) (d_required r') /\ kept (d_const r) (d_const r') /\
  range_kept (fun a b => (go_duration a < go_duration b)%Z)
    (bnd (d_lt r) (d_lte r)) (bnd (d_gt r) (d_gte r)) (bnd (d_lt r') (d_lte r')) (bnd (d_gt r') (d_gte r')) /\
  lists_kept (d_in r) (d_not_in r) (d_in r') (d_not_in r').

(** [within] excludes its end points if it stands alone, and includes them beside [lt_now] or [gt_now]. *)
Definition ts_kept (r r' : timestamp_rules) : Prop :=
  flag (t_required r) (t_required r') /\ kept (t_const r) (t_const r') /\
  range_kept (fun a b => (nanos a < nanos b)%Z)
    (bnd (t_lt r) (t_lte r)) (bnd (t_gt r) (t_gte r)) (bnd (t_lt r') (t_lte r')) (bnd (t_gt r') (t_gte r')) /\
  (t_lt_now r <> None -> t_lt_now r' <> None) /\ (t_gt_now r <> None -> t_gt_now r' <> None) /\
  (t_within r = None \/ (t_within r' = t_within r /\
     (t_lt_now r = None -> t_gt_now r = None -> t_lt_now r' = None /\ t_gt_now r' = None))).

Definition rule_kept (r r' : rule_type) : Prop :=
  match r, r' with
  | RNum k r, RNum k' r' => k = k' /\ num_kept r r'
  | RBool c, RBool c' => kept c c'
  | RString r, RString r' => str_kept r r'
  | RBytes r, RBytes r' => byt_kept r r'
  | REnum r, REnum r' => enum_kept r r'
  | RAny r, RAny r' => any_kept r r'
  | RDuration r, RDuration r' => dur_kept r r'
  | RTimestamp r, RTimestamp r' => ts_kept r r'
  | _, _ => r' = r
  end.

(** The rules of a field, item, key or value of the type [e].  On Any, Duration and Timestamp, rules of their own replace the [required]
    of the message rules. *)
Definition elem_kept (e : etype) (fr fr' : field_rules) : Prop :=
  (skipped (fr_msg fr') = true -> skipped (fr_msg fr) = true) /\
  (required (fr_msg fr) = true -> required (fr_msg fr') = true) /\
  match fr_typ fr, fr_typ fr' with
  | None, None => True
  | None, Some _ => match e with
                    | TMsg _ => False
                    | TAny | TDur | TTs => required (fr_msg fr) = false
                    | _ => True
                    end
  | Some r, Some r' => rule_kept r r'
  | Some _, None => False
  end.

(** Items that are messages look different to the two sides; [unique] is not for them. *)
Definition rep_kept (e : etype) (r r' : rep_rules field_rules) : Prop :=
  flag (r_ignore_empty r') (r_ignore_empty r) /\ min_kept (r_min r) (r_min r') /\ max_kept (r_max r) (r_max r') /\
  flag (r_unique r) (r_unique r') /\ (r_unique r = Some true -> forall n, e <> TMsg n) /\
  elem_kept e (rules_or_none (r_items r)) (rules_or_none (r_items r')).
Definition map_kept (k v : etype) (r r' : map_rules field_rules) : Prop :=
  flag (p_ignore_empty r') (p_ignore_empty r) /\ min_kept (p_min r) (p_min r') /\ max_kept (p_max r) (p_max r') /\
  flag (p_no_sparse r) (p_no_sparse r') /\
  elem_kept k (rules_or_none (p_keys r)) (rules_or_none (p_keys r')) /\
  elem_kept v (rules_or_none (p_values r)) (rules_or_none (p_values r')).

Definition field_kept (f f' : field) : Prop :=
  f_name f' = f_name f /\ f_type f' = f_type f /\
  match f_type f with
  | FOne e => elem_kept e (f_rules f) (f_rules f')
  | FRep e => rep_kept e (rep_of (f_rules f)) (rep_of (f_rules f'))
  | FMap k v => map_kept k v (map_of (f_rules f)) (map_of (f_rules f'))
  end.

(** * Schemas *)

(** The value of a field that is not on the wire. *)
Definition default_elem (e : etype) : value :=
  match e with
  | TNum k => VNum (if is_float k then NF (S754_zero false) else NI 0)
  | TBool => VBool false
  | TString => VStr []
  | TBytes => VByt []
  | TEnum _ => VEnum 0
  | TMsg _ => VMsg None
  | TWrap _ => VWrap None
  | TAny => VAny None
  | TDur => VDur None
  | TTs => VTs None
  end.
Definition default (t : ftype) : value :=
  match t with FOne e => default_elem e | FRep _ => VList [] | FMap _ _ => VMap [] end.

Section Schemas.
Variable orc : oracles.

(** A field that the other side has too, with rules at least as strong; or one that it does not have, and whose rules admit the default. *)
Definition field_covered (sc : schema) (fs' : list field) (f : field) : Prop :=
  (exists f', In f' fs' /\ field_kept f f') \/
  (~ In (f_name f) (map f_name fs') /\ field_meaning orc sc f (default (f_type f))).
(** A required oneof has no member that this side does not know: it would be missing. *)
Definition oneof_covered (os' : list oneof) (o : oneof) : Prop :=
  (exists o', In o' os' /\ o_name o' = o_name o /\
     (o_required o = Some true -> o_required o' = Some true /\ incl (map f_name (o_fields o')) (map f_name (o_fields o))) /\
     forall f, In f (o_fields o) ->
       (exists f', In f' (o_fields o') /\ field_kept f f') \/ ~ In (f_name f) (map f_name (o_fields o'))) \/
  (~ In (o_name o) (map o_name os') /\ o_required o <> Some true).
Definition msg_covered (sc : schema) (d d' : msgdesc) : Prop :=
  md_disabled d' = false /\ Forall (field_covered sc (md_fields d')) (md_fields d) /\ Forall (oneof_covered (md_oneofs d')) (md_oneofs d).

(** Every rule of [sc] is also in [sc'], or is about a field that [sc'] does not know. *)
Definition covered (sc sc' : schema) : Prop :=
  (forall n d, find_msg sc n = Some d -> exists d', find_msg sc' n = Some d' /\
     (md_methods d <> MNone -> md_methods d' <> MNone) /\ (md_disabled d = false -> msg_covered sc d d')) /\
  (forall e z, defined sc' e z -> defined sc e z).
End Schemas.

(** The same schema with the declarations of fields, of oneofs and of their members in another order. *)
Definition oneof_reordered (o o' : oneof) : Prop :=
  o_name o' = o_name o /\ o_required o' = o_required o /\ Permutation (o_fields o) (o_fields o').
Definition msg_reordered (d d' : msgdesc) : Prop :=
  md_disabled d' = md_disabled d /\ md_methods d' = md_methods d /\ Permutation (md_fields d) (md_fields d') /\
  exists os, Forall2 oneof_reordered (md_oneofs d) os /\ Permutation os (md_oneofs d').
Definition reordered (sc sc' : schema) : Prop :=
  (forall n, match find_msg sc n, find_msg sc' n with
             | Some d, Some d' => msg_reordered d d'
             | None, None => True
             | _, _ => False
             end) /\
  (forall e z, defined sc e z <-> defined sc' e z).

(** * Messages *)

Section Messages.
Variable sc : schema.

(** [sees d m m']: [m] is what a program, for which the type of the message is [d], makes of the message [m'] that another one sent.
    Known fields that the sender knows too have the same values, other known fields have their defaults, and unknown fields are not
    there; a oneof with an unknown member is not populated. *)
Inductive sees_val : etype -> value -> value -> Prop :=
| sees_same e v : sees_val e v v
| sees_emb n d m m' : find_msg sc n = Some d -> sees d m m' -> sees_val (TMsg n) (VMsg (Some m)) (VMsg (Some m'))
with sees_field : ftype -> value -> value -> Prop :=
| sees_one e v v' : sees_val e v v' -> sees_field (FOne e) v v'
| sees_rep e l l' : Forall2 (sees_val e) l l' -> sees_field (FRep e) (VList l) (VList l')
| sees_map k e l l' : Forall2 (fun p p' => fst p = fst p' /\ sees_val e (snd p) (snd p')) l l' -> sees_field (FMap k e) (VMap l) (VMap l')
with sees : msgdesc -> msgval -> msgval -> Prop :=
| sees_msg d m m' :
    (forall f v, In f (md_fields d) -> assoc (f_name f) (mv_fields m) = Some v ->
       (exists v', assoc (f_name f) (mv_fields m') = Some v' /\ sees_field (f_type f) v v') \/
       (assoc (f_name f) (mv_fields m') = None /\ v = default (f_type f))) ->
    (forall o f v, In o (md_oneofs d) -> In f (o_fields o) -> assoc (o_name o) (mv_oneofs m) = Some (Some (f_name f, v)) ->
       exists v', assoc (o_name o) (mv_oneofs m') = Some (Some (f_name f, v')) /\ sees_field (f_type f) v v') ->
    (forall o, In o (md_oneofs d) -> assoc (o_name o) (mv_oneofs m) = Some None ->
       assoc (o_name o) (mv_oneofs m') = None \/ assoc (o_name o) (mv_oneofs m') = Some None \/
       exists g v', assoc (o_name o) (mv_oneofs m') = Some (Some (g, v')) /\ ~ In g (map f_name (o_fields o))) ->
    sees d m m'.
End Messages.
