(** Fields compile exactly when their rules fit. *)
From Coq Require Import Floats.SpecFloat Lia.
From Verif Require Import Base Num Rules Types Time Checker GoIR GoGen GoSem Spec Wt GoType GoFit
  BaseFacts NumFacts GoTypeFacts.
Local Open Scope string_scope.

(** * Which local the code of a rule mentions *)

Lemma uses_seq x l : uses x (seq l) = existsb (uses x) l.
Proof.
  induction l as [|s [|s' l] IH]; auto.
  - cbn. now rewrite orb_false_r.
  - change (seq (s :: s' :: l)) with (SSeq s (seq (s' :: l))). cbn [uses existsb]. now rewrite IH.
Qed.

Section Uses.
Variable c : ctx.
Hypothesis ix : cx_ix c = Some "key".

Lemma key_chk f r : uses "key" (chk c f r) = true.
Proof using ix. rewrite uses_chk, ix. cbn. now rewrite orb_true_r. Qed.

Lemma key_opt {A} (o : option A) f r : uses "key" (opt o (fun a => chk c (f a) (r a))) = is_some o.
Proof using ix. destruct o; cbn [opt]; auto. apply key_chk. Qed.

Lemma key_in conv a b p q : uses "key" (in_tpl c conv a b p q) = a || b.
Proof using ix. destruct a, b; cbn [in_tpl]; rewrite ?key_chk; auto. Qed.

Lemma key_len f u l mn mx : uses "key" (len_tpl c f u l mn mx) = is_some l || is_some mn || is_some mx.
Proof using ix. unfold len_tpl. destruct l, mn, mx; try destruct (N.eqb _ _); rewrite ?key_chk; auto. Qed.

Lemma key_ltgt r : uses "key" (ltgt_num c r) =
  is_some (n_lt r) || is_some (n_lte r) || is_some (n_gt r) || is_some (n_gte r).
Proof using ix.
  unfold ltgt_num. destruct (n_lt r), (n_lte r), (n_gt r), (n_gte r);
    try match goal with |- context [if ?b then _ else _] => destruct b end; rewrite ?key_chk; auto.
Qed.

Lemma key_guard b a f s : cond_uses "key" f = false ->
  uses "key" (guarded b a f s) = uses "key" s || (acc_uses "key" a && b).
Proof using.
  clear. intros H. destruct b; cbn [guarded uses]; rewrite ?H, ?andb_true_r, ?andb_false_r, ?orb_false_r; auto.
  apply orb_comm.
Qed.

Lemma key_err r : err_uses "key" (err c r) = true.
Proof using ix. unfold err_uses. cbn. now rewrite ix. Qed.
Lemma key_err_cause r : err_uses "key" (err_cause c r) = true.
Proof using ix. unfold err_uses. cbn. now rewrite ix. Qed.

Lemma key_wk w : uses "key" (str_wk_tpl c w) =
  match w with
  | Some (WEmail b | WHostname b | WIp b | WIpv4 b | WIpv6 b | WUri b | WUriRef b | WAddress b | WUuid b) => b
  | _ => false
  end.
Proof using ix.
  destruct w as [[[]|[]|[]|[]|[]|[]|[]|[]|[]|[]]|]; cbn [str_wk_tpl]; rewrite ?key_chk; auto;
    cbn [uses]; rewrite ?key_err_cause, ?key_chk; cbn; rewrite ?orb_true_r; auto.
Qed.

Lemma key_required o : uses "key" (required_tpl c o) = getb o.
Proof using ix. unfold required_tpl. destruct (getb o); auto. apply key_chk. Qed.

Lemma full_some o : is_some (nonempty o) = full o.
Proof using. destruct o as [[|]|]; reflexivity. Qed.

Lemma key_leaf r : uses "key" (leaf_tpl c r) = has_check r || (acc_uses "key" (cx_acc c) && tests_empty r).
Proof using ix.
  destruct r; cbn [leaf_tpl has_check tests_empty].
  - unfold num_tpl. rewrite key_guard by reflexivity. f_equal. rewrite uses_seq. cbn [existsb].
    unfold const_num. rewrite key_opt, key_ltgt, key_in, orb_false_r, <- !orb_assoc. reflexivity.
  - unfold bool_tpl. rewrite key_opt, andb_false_r, orb_false_r. reflexivity.
  - unfold str_tpl. rewrite key_guard by reflexivity. f_equal. rewrite uses_seq. cbn [existsb].
    rewrite !key_opt, !key_len, key_in, key_wk.
    destruct (s_const r), (s_len r), (s_min_len r), (s_max_len r), (s_len_bytes r), (s_min_bytes r), (s_max_bytes r);
      cbn [is_some orb]; rewrite ?orb_true_r; auto;
    destruct (s_pattern r), (s_prefix r), (s_suffix r), (s_contains r), (s_not_contains r), (is_nil (s_in r)),
      (is_nil (s_not_in r)); cbn [is_some orb negb]; rewrite ?orb_true_r, ?orb_false_r; auto.
  - unfold byt_tpl. rewrite key_guard by reflexivity. f_equal. rewrite uses_seq. cbn [existsb].
    rewrite !key_opt, !key_len, key_in, !full_some.
    assert (W : uses "key" match b_wk r with
          | Some (BIp true) => chk c (CBadIpByt IpAny) [PStr "value must be a valid IP address"]
          | Some (BIpv4 true) => chk c (CBadIpByt Ip4) [PStr "value must be a valid IPv4 address"]
          | Some (BIpv6 true) => chk c (CBadIpByt Ip6) [PStr "value must be a valid IPv6 address"]
          | _ => SSkip
          end = match b_wk r with Some (BIp b | BIpv4 b | BIpv6 b) => b | None => false end).
    { destruct (b_wk r) as [[[]|[]|[]]|]; rewrite ?key_chk; reflexivity. }
    rewrite W. clear W.
    destruct (full (b_const r)), (is_some (b_len r)), (is_some (b_min_len r)), (is_some (b_max_len r)),
      (is_some (b_pattern r)); cbn [orb]; rewrite ?orb_true_r; auto;
    destruct (full (b_prefix r)), (full (b_suffix r)), (full (b_contains r)), (is_nil (b_in r)), (is_nil (b_not_in r));
      cbn [orb negb]; rewrite ?orb_true_r, ?orb_false_r; auto.
  - unfold enum_tpl. rewrite uses_seq, andb_false_r. cbn [existsb]. rewrite key_opt, key_in, !orb_false_r.
    assert (W : uses "key" (if getb (e_defined_only r) then chk c (CUndefined (enum_name (cx_ftype c)))
              [PStr "value must be one of the defined enum values"] else SSkip) = getb (e_defined_only r)).
    { destruct (getb _); rewrite ?key_chk; auto. }
    rewrite W. destruct (is_some (e_const r)), (getb (e_defined_only r)), (is_nil (e_in r)), (is_nil (e_not_in r)); reflexivity.
  - cbn. now rewrite andb_false_r.
  - cbn. now rewrite andb_false_r.
  - unfold any_tpl. cbn [uses]. rewrite key_required. cbn [String.eqb Ascii.eqb Bool.eqb negb andb].
    rewrite andb_true_r, orb_false_r.
    destruct (a_in r); cbn [is_nil negb]; [destruct (a_not_in r); cbn [is_nil negb]|];
      rewrite ?uses_chk; cbn [cx_ix]; rewrite ?ix; cbn [String.eqb Ascii.eqb Bool.eqb];
      destruct (getb (a_required r)), (acc_uses "key" (cx_acc c)); cbn; rewrite ?orb_true_r; auto.
  - unfold duration_tpl. cbn [uses]. rewrite key_required, andb_false_r, orb_false_r.
    assert (W := dur_active r).
    match goal with |- context [if ?b then _ else _] => destruct b eqn:E end; cbn [uses].
    + rewrite key_err_cause. cbn. rewrite ?orb_true_r.
      destruct (d_const r), (d_lt r), (d_lte r), (d_gt r), (d_gte r), (d_in r), (d_not_in r); cbn in E |- *;
        rewrite ?orb_true_r; try discriminate E; auto.
    + destruct W as [W _]. destruct (W eq_refl) as (-> & -> & -> & -> & -> & -> & ->). cbn. now rewrite !orb_false_r.
  - unfold timestamp_tpl. cbn [uses]. rewrite key_required, andb_false_r, orb_false_r.
    assert (W := ts_active r).
    match goal with |- context [if ?b then _ else _] => destruct b eqn:E end; cbn [uses].
    + rewrite key_err_cause. cbn. rewrite ?orb_true_r.
      destruct (t_const r), (t_lt r), (t_lte r), (t_gt r), (t_gte r), (t_lt_now r), (t_gt_now r), (t_within r); cbn in E |- *;
        rewrite ?orb_true_r; try discriminate E; auto.
    + destruct W as [W _]. destruct (W eq_refl) as (-> & -> & -> & -> & -> & -> & -> & ->). cbn. now rewrite !orb_false_r.
Qed.

Lemma key_message e mr : acc_uses "key" (cx_acc c) = false -> uses "key" (message_tpl c e mr) = msg_check mr.
Proof using ix.
  intros A. unfold message_tpl, msg_check. destruct mr as [m|]; cbn [uses]; rewrite key_required.
  - destruct (getb (m_skip m)); cbn [uses negb]; [reflexivity|]. rewrite key_err_cause, !orb_true_r. reflexivity.
  - cbn [uses]. rewrite key_err_cause, A. reflexivity.
Qed.
End Uses.

(** * Declared tables *)

Lemma nodupb_NoDup {A} (eqA : A -> A -> bool) (l : list A) : (forall x, In x l -> eqA x x = true) ->
  nodupb eqA l = true -> NoDup l.
Proof.
  induction l as [|x l IH]; intros R H; [constructor|]. cbn in H. apply andb_true_iff in H. destruct H as [H1 H2].
  constructor.
  - intros Hi. apply negb_true_iff in H1. assert (X : existsb (eqA x) l = true).
    { apply existsb_exists. exists x. split; auto. apply R. now left. }
    congruence.
  - apply IH; auto. intros y Hy. apply R. now right.
Qed.

Lemma map_NoDup {A B} (f : A -> B) l : (forall x y, f x = f y -> x = y) -> NoDup l -> NoDup (map f l).
Proof.
  intros I. induction 1 as [|x l N _ IH]; cbn; constructor; auto.
  intros Hi. apply in_map_iff in Hi. destruct Hi as (y & E & Hy). apply I in E. now subst.
Qed.

Lemma num_set_ok k l : (forall n, In n l -> num_of_kind k n = true) ->
  (decl_ok (num_set (go_type (TNum k)) l) <->
   forallb num_lit_ok l = true /\ nodupb num_eqb (map lit_num l) = true).
Proof.
  intros W. unfold num_set.
  destruct (forallb num_lit_ok l) eqn:L, (nodupb num_eqb (map lit_num l)) eqn:N; cbn [andb decl_ok];
    split; intros H; try contradiction; try (destruct H; discriminate); auto.
  rewrite forallb_forall in L. split; [destruct k; exact I|]. split.
  - apply Forall_forall. intros v Hv. apply in_map_iff in Hv. destruct Hv as (n & <- & Hn).
    cbn [key_fits]. apply lit_fits_iff; auto.
  - rewrite <- (map_map lit_num VNum). apply map_NoDup; [intros x y [=]; auto|].
    apply (nodupb_NoDup num_eqb); auto. intros x Hx. apply in_map_iff in Hx. destruct Hx as (n & <- & Hn).
    specialize (L n Hn). destruct n as [z|[| | |]]; cbn in L |- *; try discriminate; auto.
    + apply Z.eqb_refl.
    + unfold SFeqb, SFcompare. rewrite ?Z.compare_refl, ?Pos.compare_refl. destruct s; now rewrite ?Z.compare_refl, ?Pos.compare_refl.
Qed.

Lemma str_set_ok l : decl_ok (str_set GString l) <-> nodupb bytes_eqb l = true.
Proof.
  unfold str_set. destruct (nodupb bytes_eqb l) eqn:N; cbn [decl_ok]; split; intros H; try contradiction; auto; try discriminate.
  split; [exact I|]. split.
  - apply Forall_forall. intros v Hv. apply in_map_iff in Hv. destruct Hv as (n & <- & Hn). reflexivity.
  - apply map_NoDup; [intros x y [=]; auto|]. apply (nodupb_NoDup bytes_eqb); auto. intros x _. apply bytes_eqb_eq. reflexivity.
Qed.

Lemma byt_set_ok l : decl_ok (byt_set (FOne TBytes) l) <-> forallb byte_str_ok l = true /\ nodupb bytes_eqb l = true.
Proof.
  unfold byt_set. cbn [in_type]. destruct (forallb byte_str_ok l), (nodupb bytes_eqb l) eqn:N; cbn [andb decl_ok];
    split; intros H; try contradiction; try (destruct H; discriminate); auto.
  split; [exact I|]. split.
  - apply Forall_forall. intros v Hv. apply in_map_iff in Hv. destruct Hv as (n & <- & Hn). reflexivity.
  - apply map_NoDup; [intros x y [=]; auto|]. apply (nodupb_NoDup bytes_eqb); auto. intros x _. apply bytes_eqb_eq. reflexivity.
Qed.

Lemma enum_set_ok e l : (forall z, In z l -> enum_fits z) ->
  (decl_ok (enum_set (GEnum e) l) <-> nodupb Z.eqb l = true).
Proof.
  intros W. unfold enum_set. destruct (nodupb Z.eqb l) eqn:N; cbn [decl_ok]; split; intros H; try contradiction; auto; try discriminate.
  split; [exact I|]. split.
  - apply Forall_forall. intros v Hv. apply in_map_iff in Hv. destruct Hv as (n & <- & Hn). cbn. eauto.
  - apply map_NoDup; [intros x y [=]; auto|]. apply (nodupb_NoDup Z.eqb); auto. intros x _. apply Z.eqb_refl.
Qed.

Lemma dur_set_ok l : decl_ok (dur_set GDuration l) <-> nodupb Z.eqb (map as_duration l) = true.
Proof.
  unfold dur_set. destruct (nodupb Z.eqb (map as_duration l)) eqn:N; cbn [decl_ok]; split; intros H; try contradiction; auto; try discriminate.
  split; [reflexivity|]. apply (nodupb_NoDup Z.eqb); auto. intros x _. apply Z.eqb_refl.
Qed.

(** * Checked rules *)

Definition excl {A} (l m : list A) : Prop := negb (is_nil l) && negb (is_nil m) = false.
Definition rule_checked (r : rule_type) : Prop :=
  match r with
  | RNum _ r => check_num r = true
  | RBool _ => True
  | RString r => excl (s_in r) (s_not_in r)
  | RBytes r => excl (b_in r) (b_not_in r)
  | REnum r => excl (e_in r) (e_not_in r)
  | RAny r => excl (a_in r) (a_not_in r)
  | RDuration r => check_duration r = true
  | RTimestamp r => check_timestamp r = true
  | RRepeated _ | RMap _ => False
  end.
Definition rule_at (e : etype) (r : rule_type) : Prop :=
  match r with
  | RNum k _ => e = TNum k \/ exists w, e = TWrap w /\ wrapped_type w = TNum k
  | RBool _ => e = TBool \/ e = TWrap WkBool
  | RString _ => e = TString \/ e = TWrap WkString
  | RBytes _ => e = TBytes \/ e = TWrap WkBytes
  | REnum _ => exists n, e = TEnum n
  | RAny _ | RDuration _ | RTimestamp _ => True
  | RRepeated _ | RMap _ => False
  end.

Lemma guard_some {A} b (k : option A) x : guard b k = Some x -> b = true /\ k = Some x.
Proof. destruct b; cbn; auto. discriminate. Qed.

Section Check.
Variable re_ok : bytes -> bool.
Variable sc0 : schema.
Notation check_fr := (check_fr re_ok sc0).

Lemma must_num e k : must_type e (TNum k) = true -> e = TNum k \/ exists w, e = TWrap w /\ wrapped_type w = TNum k.
Proof using.
  destruct e; cbn; intros H; try discriminate; auto.
  - left. destruct k, k0; try discriminate; reflexivity.
  - right. exists w. split; auto. destruct k, w; try discriminate; reflexivity.
Qed.

Lemma check_string_ins r r' : check_string re_ok r = Some r' -> excl (s_in r') (s_not_in r').
Proof using.
  unfold check_string. intros H. apply guard_some in H. destruct H as [A H].
  rewrite !andb_true_iff in A. destruct A as [_ A]. apply ins_parts in A.
  destruct (check_wkr r) as [r1|] eqn:W; [|discriminate]. apply guard_some in H. destruct H as [_ [= <-]].
  unfold check_wkr in W.
  assert (E : s_in r1 = s_in r /\ s_not_in r1 = s_not_in r).
  { destruct (get_wkr r); try (injection W as <-; auto);
      apply guard_some in W; destruct W as [_ [= <-]]; auto. }
  destruct E as [-> ->]. exact A.
Qed.

Lemma elem_checked t e fr0 m r : t = CElem e \/ t = CField (FOne e) ->
  check_fr t fr0 = Some (FR m (Some r)) -> rule_checked r /\ rule_at e r.
Proof using.
  intros Ht H. assert (M : must_type_c t = must_type e) by (destruct Ht as [-> | ->]; reflexivity).
  destruct fr0 as [m0 [r0|]]; [|discriminate H]. destruct r0; cbn [Checker.check_fr] in H; try rewrite M in H.
  - apply guard_some in H. destruct H as [A [= <- <-]]. apply andb_true_iff in A. destruct A as [A B].
    split; auto. apply must_num; auto.
  - apply guard_some in H. destruct H as [A [= <- <-]]. split; [exact I|]. cbn.
    destruct e; try discriminate A; auto. destruct w; try discriminate A; auto.
  - apply guard_some in H. destruct H as [A H]. destruct (check_string _ _) eqn:E; [|discriminate]. injection H as <- <-.
    split; [apply (check_string_ins _ _ E)|]. cbn. destruct e; try discriminate A; auto. destruct w; try discriminate A; auto.
  - apply guard_some in H. destruct H as [A [= <- <-]]. apply andb_true_iff in A. destruct A as [A B].
    unfold check_bytes in B. rewrite !andb_true_iff in B. destruct B as [[[_ B] _] _]. split; [apply ins_parts; auto|]. cbn.
    destruct e; try discriminate A; auto. destruct w; try discriminate A; auto.
  - apply guard_some in H. destruct H as [A [= <- <-]]. apply andb_true_iff in A. destruct A as [A B].
    unfold check_enum in B. rewrite !andb_true_iff in B. destruct B as [B _]. split; [apply ins_parts; auto|]. cbn.
    destruct e; try discriminate A; eauto.
  - destruct Ht as [-> | ->]; discriminate H.
  - destruct Ht as [-> | ->]; discriminate H.
  - apply guard_some in H. destruct H as [A [= <- <-]]. split; [apply ins_parts; auto|exact I].
  - apply guard_some in H. destruct H as [A [= <- <-]]. split; auto. exact I.
  - apply guard_some in H. destruct H as [A [= <- <-]]. split; auto. exact I.
Qed.

(** Rules other than repeated and map rules on a list or map. *)
Lemma other_checked t fr0 m r : (exists e, t = FRep e) \/ (exists k v, t = FMap k v) ->
  check_fr (CField t) fr0 = Some (FR m (Some r)) ->
  match r with
  | RAny _ | RDuration _ | RTimestamp _ => rule_checked r
  | RRepeated r => exists e, t = FRep e /\ (getb (r_unique r) = true -> is_embed e = false) /\
      forall fr, r_items r = Some fr -> exists fr1, check_fr (CElem e) fr1 = Some fr
  | RMap r => exists k v, t = FMap k v /\ (getb (p_no_sparse r) = true -> is_embed v = true) /\
      (forall fr, p_keys r = Some fr -> exists fr1, check_fr (CElem k) fr1 = Some fr) /\
      (forall fr, p_values r = Some fr -> exists fr1, check_fr (CElem v) fr1 = Some fr)
  | _ => False
  end.
Proof using.
  intros Ht H. destruct fr0 as [m0 [r0|]]; [|discriminate H].
  assert (M : forall u, is_embed u = false -> must_type_c (CField t) u = false).
  { intros u Hu. destruct Ht as [[e ->]|(k & v & ->)]; auto. }
  destruct r0; cbn [Checker.check_fr] in H; try (rewrite M in H by reflexivity); try discriminate H.
  - destruct Ht as [[e ->]|(k & v & ->)]; [|discriminate H].
    apply guard_some in H. destruct H as [A H]. apply andb_true_iff in A. destruct A as [_ A].
    destruct r0 as [mn mx u [it|] ie].
    + destruct (Checker.check_fr _ _ (CElem e) it) as [it'|] eqn:E; [|discriminate H]. injection H as <- <-.
      exists e. split; auto. split; [cbn in *; intros U; rewrite U in A; now destruct (is_embed e)|].
      cbn. intros fr [= <-]. eauto.
    + injection H as <- <-. exists e. split; auto. split; [cbn in *; intros U; rewrite U in A; now destruct (is_embed e)|].
      cbn. intros fr [=].
  - destruct Ht as [[e ->]|(k & v & ->)]; [discriminate H|].
    apply guard_some in H. destruct H as [A H]. apply andb_true_iff in A. destruct A as [_ A].
    destruct r0 as [mn mx ns ks vs ie].
    destruct (match ks with None => Some None | Some ks => option_map Some (check_fr (CElem k) ks) end) as [ks'|] eqn:EK; [|discriminate H].
    destruct (match vs with None => Some None | Some vs => option_map Some (check_fr (CElem v) vs) end) as [vs'|] eqn:EV; [|discriminate H].
    injection H as <- <-. exists k, v. split; auto.
    split; [cbn in *; intros U; rewrite U in A; now destruct (is_embed v)|].
    cbn. split; intros fr ->.
    + destruct ks as [ks|]; [|discriminate EK]. destruct (check_fr (CElem k) ks) eqn:E; [|discriminate EK].
      injection EK as <-. eauto.
    + destruct vs as [vs|]; [|discriminate EV]. destruct (check_fr (CElem v) vs) eqn:E; [|discriminate EV].
      injection EV as <-. eauto.
  - apply guard_some in H. destruct H as [A [= <- <-]]. apply ins_parts; auto.
  - apply guard_some in H. destruct H as [A [= <- <-]]. auto.
  - apply guard_some in H. destruct H as [A [= <- <-]]. auto.
Qed.
End Check.

(** * Single values *)

Definition leaf_typed (r : rule_type) (t : gty) : Prop :=
  match r with
  | RNum k _ => t = go_type (TNum k)
  | RBool _ => t = GBool
  | RString _ => t = GString
  | RBytes _ => t = GBytes
  | REnum _ => exists e, t = GEnum e
  | _ => True
  end.

Lemma at_typed e r : rule_at e r -> on_wrapped e r = false -> leaf_typed r (go_type e).
Proof.
  destruct r; cbn; intros H W; auto.
  - destruct H as [-> |(w & -> & _)]; [reflexivity|discriminate].
  - destruct H as [-> | ->]; [reflexivity|discriminate].
  - destruct H as [-> | ->]; [reflexivity|discriminate].
  - destruct H as [-> | ->]; [reflexivity|discriminate].
  - destruct H as [n ->]. exists n. reflexivity.
Qed.

Lemma at_wrapped e r : rule_at e r -> on_wrapped e r = true ->
  exists w, e = TWrap w /\ leaf_typed r (go_type (wrapped_type w)).
Proof.
  destruct r; cbn; intros H W; try (destruct e; discriminate W).
  - destruct H as [-> |(w & -> & E)]; [discriminate|]. exists w. now rewrite E.
  - destruct H as [-> | ->]; [discriminate|eauto].
  - destruct H as [-> | ->]; [discriminate|eauto].
  - destruct H as [-> | ->]; [discriminate|eauto].
Qed.

Lemma wrappable_on e r : rule_at e r -> is_wrappable r && is_embed e = on_wrapped e r.
Proof.
  destruct r; cbn; intros H; try (destruct e; reflexivity).
  - destruct H as [-> |(w & -> & E)]; [now rewrite andb_false_r|]. destruct w, k; try discriminate E; reflexivity.
  - destruct H as [-> | ->]; reflexivity.
  - destruct H as [-> | ->]; reflexivity.
  - destruct H as [-> | ->]; reflexivity.
Qed.

Section Leaf.
Variable fields : list (string * gty).
Variable decls : list (string * pkgvar).
Variable enums : list string.
Variable helpers : list callee.
Notation stmt_ok := (stmt_ok fields decls enums helpers).
Notation ctx_ok := (ctx_ok fields decls).
Notation tab := (tab decls).
Notation lists_ok := (lists_ok decls).

(** What the code of a rule needs, without the declarations. *)
Definition leaf_stmt (c : ctx) (t : gty) (r : rule_type) : Prop :=
  match r with
  | RNum _ r => consts_ok r /\ lists_ok c t false (negb (is_nil (n_in r))) (negb (is_nil (n_not_in r)))
  | RBool _ => True
  | RString r =>
      lens_fit (s_len r) (s_min_len r) (s_max_len r) /\
      lens_fit (s_len_bytes r) (s_min_bytes r) (s_max_bytes r) /\
      lists_ok c GString false (negb (is_nil (s_in r))) (negb (is_nil (s_not_in r))) /\
      (s_pattern r <> None -> exists p, tab c "Pattern" = Some (DRegex p))
  | RBytes r =>
      lens_fit (b_len r) (b_min_len r) (b_max_len r) /\
      lists_ok c GBytes true (negb (is_nil (b_in r))) (negb (is_nil (b_not_in r))) /\
      (b_pattern r <> None -> exists p, tab c "Pattern" = Some (DRegex p))
  | REnum r => lists_ok c t false (negb (is_nil (e_in r))) (negb (is_nil (e_not_in r)))
  | RAny r =>
      nilable t /\ (a_in r <> [] -> t = GPtr TAny /\ tab_ok GString false (tab c "InLookup")) /\
      (a_not_in r <> [] -> t = GPtr TAny /\ tab_ok GString false (tab c "NotInLookup"))
  | RDuration r =>
      (getb (d_required r) = true -> nilable t) /\
      (dur_idle r \/ t = GPtr TDur /\ dur_lits r /\
         lists_ok c GDuration false (negb (is_nil (d_in r))) (negb (is_nil (d_not_in r))))
  | RTimestamp r => (getb (t_required r) = true -> nilable t) /\ (ts_idle r \/ t = GPtr TTs /\ ts_lits r)
  | RRepeated _ | RMap _ => False
  end.

Lemma leaf_iff G c t r : ctx_ok G c t -> acc_plain c -> rule_checked r -> leaf_typed r t -> rule_typed r ->
  (forall s, r = RString s -> wk_helpers helpers s) ->
  (forall s, r = REnum s -> In (enum_name (cx_ftype c)) enums) ->
  (stmt_ok G (leaf_tpl c r) <-> leaf_stmt c t r).
Proof using.
  intros C A K T W H E. destruct r; cbn [leaf_tpl leaf_stmt rule_checked leaf_typed rule_typed] in *; try contradiction.
  - subst t. apply num_tpl_ok; auto.
  - subst t. split; [intros; exact I|]. intros _. apply bool_tpl_ok; auto.
  - subst t. apply str_tpl_ok; auto.
  - subst t. apply byt_tpl_ok; auto.
  - destruct T as [e ->]. apply enum_tpl_ok; auto. intros _. eapply E. reflexivity.
  - apply any_tpl_ok; auto.
  - apply duration_tpl_ok; auto.
  - apply timestamp_tpl_ok; auto.
Qed.
End Leaf.
