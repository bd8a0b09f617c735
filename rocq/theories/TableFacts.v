(** Rules that make no difference. *)
From Coq Require Import Floats.SpecFloat Lia.
From Verif Require Import Base Num Rules Types Iface Checker GoSem Outcome Java Cc Py HarnessMainSpec BaseFacts LangFacts PyCacheFacts TableSpec.

(** * The schema without the rules *)
Lemma without_enum x sc e : find_enum (without x sc) e = find_enum sc e.
Proof. reflexivity. Qed.
Lemma find_map {A} (p : A -> bool) (g : A -> A) l : (forall a, p (g a) = p a) -> find p (map g l) = option_map g (find p l).
Proof. intros H. induction l as [|a l IH]; cbn; auto. rewrite H. destruct (p a); auto. Qed.
Lemma without_msg x sc n : find_msg (without x sc) n = option_map (msg_without x) (find_msg sc n).
Proof. unfold find_msg. cbn [without sc_msgs]. now apply find_map. Qed.
Lemma without_name x f : f_name (field_without x f) = f_name f.
Proof. reflexivity. Qed.
Lemma without_type x f : f_type (field_without x f) = f_type f.
Proof. reflexivity. Qed.

(** * The checker *)
Lemma guard_some {A} b (o : option A) a : guard b o = Some a -> b = true /\ o = Some a.
Proof. destruct b; cbn; auto. discriminate. Qed.

(** The rows of the table for which we show it: rules that the checker does not change. *)
Definition plain_row (x : row) : bool :=
  match x with
  | Email | Uri | UriRef | BytIp | BytIpv4 | BytIpv6 | NoSparse | TsConst | TsRange | TsNow | TsWithin => true
  | _ => false
  end.

Section Checked.
Variable re_ok : bytes -> bool.
Variable x : row.
Hypothesis px : plain_row x = true.

Lemma string_without r a b : check_string re_ok r = Some a -> check_string re_ok (str_without x r) = Some b -> b = str_without x a.
Proof.
  unfold check_string. intros A B. apply guard_some in A. destruct A as [_ A]. apply guard_some in B. destruct B as [_ B].
  assert (S : (exists k, s_wk r = Some (WRegex k) /\ str_without x r = r /\ (forall q, str_without x (set_pattern r q) = set_pattern r q)) \/
    (check_wkr r = Some r /\ check_wkr (str_without x r) = Some (str_without x r))).
  { destruct x; try discriminate px; destruct r as [? ? ? ? ? ? ? ? ? ? ? ? ? ? [[[]|[]|[]|[]|[]|[]|[]|[]|[]|k]|] ? ?]; try (right; split; reflexivity).
    all: left; exists k; repeat split. }
  destruct S as [(k & E & W & Q)|[C1 C2]].
  - rewrite W in B. destruct (check_wkr r) as [y|] eqn:C; [|discriminate].
    apply guard_some in A. apply guard_some in B. destruct A as [_ [= <-]], B as [_ [= <-]].
    unfold check_wkr, get_wkr in C. rewrite E in C. destruct k; try (apply guard_some in C; destruct C as [_ [= <-]]; now rewrite Q). injection C as <-. now symmetry.
  - rewrite C1 in A. rewrite C2 in B. apply guard_some in A. apply guard_some in B. destruct A as [_ [= <-]], B as [_ [= <-]]. reflexivity.
Qed.

Variable sc : schema.
Lemma elem_commutes c e fr a b : (forall mr r, fr <> FR mr (Some (RRepeated r))) -> (forall mr r, fr <> FR mr (Some (RMap r))) ->
  check_fr re_ok sc c fr = Some a -> check_fr re_ok sc c (elem_without x e fr) = Some b -> b = elem_without x e a.
Proof.
  intros NR NM A B. assert (Ex : elem_without x e fr = FR (option_map (mr_without x) (fr_msg fr)) (option_map (rule_without x) (fr_typ fr))).
  { destruct fr. cbn. destruct x; try discriminate px; reflexivity. }
  rewrite Ex in B.
  assert (Ea : elem_without x e a = FR (option_map (mr_without x) (fr_msg a)) (option_map (rule_without x) (fr_typ a))).
  { destruct a. cbn. destruct x; try discriminate px; reflexivity. }
  rewrite Ea. clear Ex Ea. destruct fr as [mr [r|]]; [|cbn in A, B; injection A as <-; injection B as <-; reflexivity].
  cbn [fr_msg fr_typ option_map] in B.
  destruct r as [k r|r|r|r|r|r|r|r|r|r]; try (now elim (NR mr r)); try (now elim (NM mr r)); cbn [check_fr rule_without] in A, B.
  all: apply guard_some in A; apply guard_some in B; destruct A as [_ A], B as [_ B]; try (injection A as <-; injection B as <-; reflexivity).
  destruct (check_string re_ok r) as [ra|] eqn:Ca; [|discriminate]. destruct (check_string re_ok (str_without x r)) as [rb|] eqn:Cb; [|discriminate].
  injection A as <-. injection B as <-. cbn. rewrite (string_without r ra rb); auto.
Qed.
Lemma inner_commutes e fr a b : check_fr re_ok sc (CElem e) fr = Some a -> check_fr re_ok sc (CElem e) (elem_without x e fr) = Some b ->
  b = elem_without x e a.
Proof.
  intros A B. apply (elem_commutes (CElem e) e fr); auto; intros mr r ->; discriminate A.
Qed.
Lemma check_same_kind c fr a : check_fr re_ok sc c fr = Some a -> 
  (forall mr r, fr = FR mr (Some (RRepeated r)) -> exists e r', c = CField (FRep e) /\ a = FR mr (Some (RRepeated r'))) /\
  (forall mr r, fr = FR mr (Some (RMap r)) -> exists k w r', c = CField (FMap k w) /\ a = FR mr (Some (RMap r'))).
Proof.
  intros A. split; intros mr r ->; cbn [check_fr] in A; destruct c as [[e|e|k w]|e]; try discriminate; apply guard_some in A; destruct A as [_ A].
  - destruct r as [mn mx u [it|] ie]; [destruct (check_fr re_ok sc (CElem e) it); [|discriminate]|]; injection A as <-; eauto.
  - destruct r as [mn mx ns ks vs ie]. destruct (match ks with Some _ => _ | None => _ end); [|discriminate].
    destruct (match vs with Some _ => _ | None => _ end); [|discriminate]. injection A as <-. eauto 6.
Qed.

Lemma field_commutes f a b : check_field re_ok sc f = Some a -> check_field re_ok sc (field_without x f) = Some b -> b = field_without x a.
Proof.
  unfold check_field. intros A B. apply guard_some in A. apply guard_some in B. destruct A as [_ A], B as [_ B].
  destruct f as [nm ty fr]. unfold field_without in *. cbn [f_name f_type f_rules] in *.
  destruct (check_fr re_ok sc (CField ty) fr) as [fa|] eqn:Ca; [|discriminate]. injection A as <-. cbn [f_name f_type f_rules].
  match type of B with match ?q with _ => _ end = _ => destruct q as [fb|] eqn:Cb end; [|discriminate]. injection B as <-. f_equal.
  destruct (check_same_kind _ _ _ Ca) as [KR KM].
  destruct ty as [e|e|k w].
  - apply (elem_commutes (CField (FOne e)) e fr); auto.
    + intros mr r E. destruct (KR mr r E) as (? & ? & Q & _). discriminate Q.
    + intros mr r E. destruct (KM mr r E) as (? & ? & ? & Q & _). discriminate Q.
  - destruct fr as [mr [r|]]; [|rewrite Ca in Cb; injection Cb as <-; cbn in Ca; injection Ca as <-; reflexivity].
    destruct r as [| | | | |r| | | |]; try (rewrite Ca in Cb; injection Cb as <-; cbn [check_fr] in Ca; apply guard_some in Ca; destruct Ca as [_ Ca];
      try (match type of Ca with match ?q with _ => _ end = _ => destruct q; [|discriminate] end); injection Ca as <-; reflexivity).
    + cbn [check_fr] in Ca, Cb. apply guard_some in Ca. apply guard_some in Cb. destruct Ca as [_ Ca], Cb as [_ Cb].
      destruct r as [mn mx u [it|] ie].
      * destruct (check_fr re_ok sc (CElem e) it) as [ia|] eqn:Ia; [|discriminate]. injection Ca as <-.
        replace (rep_without x e (mkRepRules mn mx u (Some it) ie)) with (mkRepRules mn mx u (Some (elem_without x e it)) ie) in Cb by (destruct x; try discriminate px; reflexivity).
        destruct (check_fr re_ok sc (CElem e) (elem_without x e it)) as [ib|] eqn:Ib; [|discriminate]. injection Cb as <-.
        rewrite (inner_commutes e it ia ib); auto. destruct x; try discriminate px; reflexivity.
      * injection Ca as <-. destruct x; try discriminate px; injection Cb as <-; reflexivity.
    + discriminate Ca.
  - destruct fr as [mr [r|]]; [|rewrite Ca in Cb; injection Cb as <-; cbn in Ca; injection Ca as <-; reflexivity].
    destruct r as [| | | | | |r| | |]; try (rewrite Ca in Cb; injection Cb as <-; cbn [check_fr] in Ca; apply guard_some in Ca; destruct Ca as [_ Ca];
      try (match type of Ca with match ?q with _ => _ end = _ => destruct q; [|discriminate] end); injection Ca as <-; reflexivity).
    + discriminate Ca.
    + cbn [check_fr] in Ca, Cb. apply guard_some in Ca. apply guard_some in Cb. destruct Ca as [_ Ca], Cb as [_ Cb].
      destruct r as [mn mx ns ks vs ie].
      assert (W : exists ns', forall ks vs, map_without x k w (mkMapRules mn mx ns ks vs ie) =
        match x with NoSparse => mkMapRules mn mx None ks vs ie
        | _ => mkMapRules mn mx ns' (option_map (elem_without x k) ks) (option_map (elem_without x w) vs) ie end).
      { exists ns. intros. destruct x; try discriminate px; reflexivity. }
      destruct W as [ns' W]. rewrite W in Cb.
      assert (One : forall e o ia ib, match o with None => Some None | Some ks => option_map Some (check_fr re_ok sc (CElem e) ks) end = Some ia ->
        match option_map (elem_without x e) o with None => Some None | Some ks => option_map Some (check_fr re_ok sc (CElem e) ks) end = Some ib ->
        ib = option_map (elem_without x e) ia).
      { intros e [o|] ia ib; cbn [option_map]; [|intros [= <-] [= <-]; reflexivity].
        destruct (check_fr re_ok sc (CElem e) o) as [oa|] eqn:Oa; cbn [option_map]; [|discriminate]. intros [= <-].
        destruct (check_fr re_ok sc (CElem e) (elem_without x e o)) as [ob|] eqn:Ob; cbn [option_map]; [|discriminate]. intros [= <-].
        cbn. now rewrite (inner_commutes e o oa ob). }
      destruct (match ks with Some _ => _ | None => _ end) as [ka|] eqn:Ka; [|discriminate].
      destruct (match vs with Some _ => _ | None => _ end) as [va|] eqn:Va; [|discriminate]. injection Ca as <-.
      rewrite W. destruct x; try discriminate px.
      all: try (rewrite Ka, Va in Cb; injection Cb as <-; reflexivity).
      all: match type of Cb with match ?q with _ => _ end = _ => destruct q as [kb|] eqn:Kb; [|discriminate] end.
      all: match type of Cb with match ?q with _ => _ end = _ => destruct q as [vb|] eqn:Vb; [|discriminate] end.
      all: injection Cb as <-; rewrite (One k ks ka kb Ka Kb), (One w vs va vb Va Vb); reflexivity.
Qed.

Lemma map_opt_commutes {A} (chk : A -> option A) (g : A -> A) l : (forall o a b, chk o = Some a -> chk (g o) = Some b -> b = g a) ->
  forall la lb, map_opt chk l = Some la -> map_opt chk (map g l) = Some lb -> lb = map g la.
Proof.
  intros H. induction l as [|o l IH]; cbn; intros la lb; [intros [= <-] [= <-]; reflexivity|].
  destruct (chk o) as [a|] eqn:A1; [|discriminate]. destruct (map_opt chk l) as [ta|]; [|discriminate]. intros [= <-].
  destruct (chk (g o)) as [b|] eqn:B1; [|discriminate]. destruct (map_opt chk (map g l)) as [tb|]; [|discriminate]. intros [= <-].
  cbn. f_equal; eauto.
Qed.
Lemma oneof_commutes o a b : check_oneof re_ok sc o = Some a -> check_oneof re_ok sc (oneof_without x o) = Some b -> b = oneof_without x a.
Proof.
  unfold check_oneof, oneof_without. cbn [o_fields o_name o_required]. destruct (map_opt _ (o_fields o)) as [la|] eqn:A; [|discriminate]. intros [= <-].
  destruct (map_opt _ (map _ (o_fields o))) as [lb|] eqn:B; [|discriminate]. intros [= <-]. cbn [o_fields o_name o_required].
  now rewrite (map_opt_commutes _ _ _ field_commutes _ _ A B).
Qed.
Lemma msg_commutes d a b : check_msg re_ok sc d = Some a -> check_msg re_ok sc (msg_without x d) = Some b -> b = msg_without x a.
Proof.
  assert (D : forall d, md_disabled (msg_without x d) = md_disabled d) by (intros; destruct x; try discriminate px; reflexivity).
  unfold check_msg. rewrite D. destruct (md_disabled d) eqn:Dd; [intros [= <-] [= <-]; reflexivity|].
  destruct (map_opt _ (md_fields d)) as [fa|] eqn:FA; [|discriminate]. destruct (map_opt _ (md_oneofs d)) as [oa|] eqn:OA; [|discriminate]. intros [= <-].
  destruct (map_opt _ (md_fields (msg_without x d))) as [fb|] eqn:FB; [|discriminate].
  destruct (map_opt _ (md_oneofs (msg_without x d))) as [ob|] eqn:OB; [|discriminate]. intros [= <-].
  cbn [msg_without md_fields md_oneofs] in FB, OB.
  rewrite (map_opt_commutes _ _ _ field_commutes _ _ FA FB), (map_opt_commutes _ _ _ oneof_commutes _ _ OA OB).
  unfold msg_without. cbn. f_equal. destruct x; try discriminate px; reflexivity.
Qed.
End Checked.

Lemma check_fr_enums re_ok sc sc' : sc_enums sc = sc_enums sc' -> forall c fr, check_fr re_ok sc c fr = check_fr re_ok sc' c fr.
Proof.
  intros E. assert (V : forall c, enum_vals sc c = enum_vals sc' c).
  { intros c. unfold enum_vals, find_enum. now rewrite E. }
  assert (L : forall c mr r, match r with RRepeated _ | RMap _ => False | _ => True end -> check_fr re_ok sc c (FR mr (Some r)) = check_fr re_ok sc' c (FR mr (Some r))).
  { intros c mr []; try contradiction; intros _; try reflexivity. cbn [check_fr]. now rewrite V. }
  assert (El : forall e fr, check_fr re_ok sc (CElem e) fr = check_fr re_ok sc' (CElem e) fr).
  { intros e [mr [r|]]; [|reflexivity]. destruct r; try (apply L; exact I); reflexivity. }
  intros c [mr [r|]]; [|reflexivity]. destruct r; try (apply L; exact I); destruct c as [[e|e|k w]|e]; try reflexivity; cbn [check_fr]; f_equal.
  - destruct r as [mn mx u [it|] ie]; auto. now rewrite El.
  - destruct r as [mn mx ns [ks|] [vs|] ie]; rewrite ?El; reflexivity.
Qed.
Lemma check_msg_enums re_ok sc sc' d : sc_enums sc = sc_enums sc' -> check_msg re_ok sc d = check_msg re_ok sc' d.
Proof.
  intros E. assert (F : forall f, check_field re_ok sc f = check_field re_ok sc' f).
  { intros f. unfold check_field. now rewrite (check_fr_enums re_ok sc sc' E). }
  assert (M : forall {A} (g h : A -> option A) l, (forall a, g a = h a) -> map_opt g l = map_opt h l).
  { intros A g h l H. induction l as [|a l IH]; cbn; auto. now rewrite H, IH. }
  unfold check_msg. destruct (md_disabled d); auto. rewrite (M _ _ (check_field re_ok sc')) by auto.
  rewrite (M _ (check_oneof re_ok sc) (check_oneof re_ok sc')); auto. intros o. unfold check_oneof. now rewrite (M _ _ (check_field re_ok sc')).
Qed.

Lemma check_without re_ok x sc a b : plain_row x = true -> check_schema re_ok sc = Some a -> check_schema re_ok (without x sc) = Some b -> b = without x a.
Proof.
  intros P. unfold check_schema. destruct (map_opt _ (sc_msgs sc)) as [la|] eqn:A; [|discriminate]. intros [= <-].
  destruct (map_opt _ (sc_msgs (without x sc))) as [lb|] eqn:B; [|discriminate]. intros [= <-].
  unfold without. cbn [sc_msgs sc_enums sc_top] in *. f_equal.
  assert (M : forall l, map_opt (check_msg re_ok (mkSchema (map (msg_without x) (sc_msgs sc)) (sc_enums sc) (sc_top sc))) l = map_opt (check_msg re_ok sc) l).
  { intros l. induction l as [|d l IH]; cbn [map_opt]; [reflexivity|]. rewrite IH. set (s' := mkSchema _ _ _). now rewrite (check_msg_enums re_ok s' sc d eq_refl). }
  unfold without in B. rewrite M in B. eapply map_opt_commutes; eauto. intros. eapply msg_commutes; eauto.
Qed.

Lemma sparse_rule r : rule_without NoSparse r = r.
Proof.
  destruct r as [k r|c|r|r|r|r|r|r|r|r]; try reflexivity; cbn [rule_without]; f_equal.
  - destruct r. unfold str_without. cbn. f_equal. now destruct s_wk as [[]|].
  - destruct r. unfold byt_without. cbn. f_equal. now destruct b_wk as [[]|].
Qed.
Lemma sparse_elem e o : option_map (elem_without NoSparse e) o = o.
Proof. destruct o as [[mr t]|]; [|reflexivity]. cbn. f_equal. f_equal; [now destruct mr|]. destruct t; cbn; [now rewrite sparse_rule|reflexivity]. Qed.

(** * C++ and Java: where the rule is reached, the code throws *)
Definition thrown (a b : outcome) : Prop := a = Unimplemented \/ a = b.
Lemma thrown_refl a : thrown a a. Proof. right. auto. Qed.
Lemma thrown_then a b c d : thrown a b -> thrown c d -> thrown (andthen a c) (andthen b d).
Proof. intros [-> | ->] H; [left; auto|]. destruct b; cbn; auto using thrown_refl. Qed.
Lemma thrown_map {A} (f g : A -> outcome) l : (forall a, In a l -> thrown (f a) (g a)) -> thrown (in_order (map f l)) (in_order (map g l)).
Proof. induction l as [|a l IH]; cbn; intros H; [apply thrown_refl|]. apply thrown_then; auto. Qed.
Lemma thrown_if b a c : thrown a c -> thrown (only_if b a) (only_if b c).
Proof. destruct b; cbn; auto using thrown_refl. Qed.
Lemma thrown_list l l' : Forall2 thrown l l' -> thrown (in_order l) (in_order l').
Proof. induction 1; cbn; auto using thrown_refl, thrown_then. Qed.

Ltac same := try apply thrown_refl.

Section CcRel.
Variables (x : row) (cl : cc_libs) (sc sc' : schema).
Hypothesis px : plain_row x = true.
Hypothesis enums : sc_enums sc' = sc_enums sc.
Variables emb emb' : string -> msgval -> outcome.
Hypothesis rec : forall n m, thrown (emb n m) (emb' n m).

Lemma elem_eq e mr t : elem_without x e (FR mr t) = FR mr (option_map (rule_without x) t).
Proof. destruct x; try discriminate px; cbn; destruct mr as [[]|]; reflexivity. Qed.

Lemma cc_rule_less e r v : thrown (cc_rule cl sc e r v) (cc_rule cl sc' e (rule_without x r) v).
Proof.
  destruct r as [k r|c|r|r|r|r|r|r|r|r]; destruct v; cbn [cc_rule rule_without]; same.
  - right. destruct x; try discriminate px; reflexivity.
  - destruct r as [? ? ? ? ? ? ? ? ? ? ? ? ? ? wk ? ?]. unfold cc_string.
    assert (W : thrown (cc_well_known cl wk s) (cc_well_known cl (drop (wk_row x) wk) s)).
    { destruct x; try discriminate px; destruct wk as [[[]|[]|[]|[]|[]|[]|[]|[]|[]|]|]; same; left; reflexivity. }
    destruct x; try discriminate px.
    all: apply thrown_if, thrown_list; repeat apply Forall2_cons; same; try exact W; constructor.
  - destruct r as [? ? ? ? ? ? ? ? ? ? wk ?]. unfold cc_bytes.
    destruct x; try discriminate px.
    all: apply thrown_if, thrown_list; repeat apply Forall2_cons; same; [|constructor].
    all: cbn [b_wk byt_without drop]; destruct wk as [[[]|[]|[]]|]; cbn; same; left; reflexivity.
  - right. unfold cc_enum, cc_enum_valid, find_enum. rewrite enums. destruct x; try discriminate px; reflexivity.
  - right. destruct x; try discriminate px; reflexivity.
  - right. destruct x; try discriminate px; reflexivity.
  - destruct r as [rq co lt lte gt gte ln gn wi]. unfold cc_timestamp.
    destruct x; try discriminate px; cbn; apply thrown_then; same.
    all: destruct co, lt, lte, gt, gte, ln, gn, wi; cbn; same; left; reflexivity.
Qed.

Lemma cc_embedded_less e v : thrown (cc_embedded emb e v) (cc_embedded emb' e v).
Proof. destruct e, v; cbn; same. destruct m0; same. apply rec. Qed.
Lemma cc_message_less el e mr v : thrown (cc_message emb el e mr v) (cc_message emb' el e mr v).
Proof. unfold cc_message. apply thrown_then; same. apply thrown_if, thrown_if, cc_embedded_less. Qed.

Lemma cc_elem_less el e fr v : thrown (cc_elem cl sc emb el e fr v) (cc_elem cl sc' emb' el e (option_map (elem_without x e) fr) v).
Proof.
  destruct fr as [[mr [r|]]|]; cbn [option_map]; rewrite ?elem_eq; cbn [option_map cc_elem].
  - destruct e; try apply cc_rule_less. destruct v; try apply cc_rule_less. destruct el; same. destruct v as [y|]; cbn; same. apply cc_rule_less.
  - apply thrown_if, cc_message_less.
  - apply thrown_if, cc_message_less.
Qed.
Lemma cc_none_eq e fr : cc_none e (option_map (elem_without x e) fr) = cc_none e fr.
Proof. destruct fr as [[mr [r|]]|]; cbn [option_map]; rewrite ?elem_eq; reflexivity. Qed.

Lemma cc_items_less u e fr l : forall seen, thrown (cc_items cl sc emb u e fr seen l) (cc_items cl sc' emb' u e (option_map (elem_without x e) fr) seen l).
Proof. induction l as [|a l IH]; intros seen; cbn [cc_items]; same. apply thrown_then; same. apply thrown_then; auto. apply cc_elem_less. Qed.

Lemma rep_eq e r : rep_without x e r = mkRepRules (r_min r) (r_max r) (r_unique r) (option_map (elem_without x e) (r_items r)) (r_ignore_empty r).
Proof. destruct x; try discriminate px; reflexivity. Qed.
Lemma cc_repeated_less e r l : thrown (cc_repeated cl sc emb e r l) (cc_repeated cl sc' emb' e (rep_without x e r) l).
Proof.
  rewrite rep_eq. unfold cc_repeated. cbn [r_min r_max r_unique r_items r_ignore_empty]. rewrite cc_none_eq.
  apply thrown_if, thrown_then; same. apply thrown_if, cc_items_less.
Qed.

Lemma cc_map_less k w r l : thrown (cc_map cl sc emb k w r l) (cc_map cl sc' emb' k w (map_without x k w r) l).
Proof.
  destruct r as [mn mx ns ks vs ie].
  assert (Lp : x <> NoSparse -> thrown
    (in_order (map (fun kv => andthen (cc_elem cl sc emb true k ks (fst kv)) (cc_elem cl sc emb true w vs (snd kv))) l))
    (in_order (map (fun kv => andthen (cc_elem cl sc' emb' true k (option_map (elem_without x k) ks) (fst kv)) (cc_elem cl sc' emb' true w (option_map (elem_without x w) vs) (snd kv))) l))).
  { intros _. apply thrown_map. intros a _. apply thrown_then; apply cc_elem_less. }
  assert (D : x = NoSparse \/ x <> NoSparse) by (destruct x; auto; right; discriminate). destruct D as [EN|N].
  - assert (Id : forall e o, option_map (elem_without x e) o = o).
    { rewrite EN. apply sparse_elem. }
    assert (Lo : thrown
      (in_order (map (fun kv => andthen (cc_elem cl sc emb true k ks (fst kv)) (cc_elem cl sc emb true w vs (snd kv))) l))
      (in_order (map (fun kv => andthen (cc_elem cl sc' emb' true k ks (fst kv)) (cc_elem cl sc' emb' true w vs (snd kv))) l))).
    { apply thrown_map. intros a _. pose proof (cc_elem_less true k ks (fst a)) as H1. pose proof (cc_elem_less true w vs (snd a)) as H2.
      apply thrown_then; [clear H2|clear H1].
      - revert H1. generalize (Id k ks). intros ->. auto.
      - revert H2. generalize (Id w vs). intros ->. auto. }
    rewrite EN. unfold cc_map. cbn [map_without p_min p_max p_no_sparse p_keys p_values p_ignore_empty getb orb].
    apply thrown_if, thrown_then; same.
    destruct (getb ns) eqn:G; cbn [orb only_if].
    + destruct Lo as [->|Lo]; [left; reflexivity|]. destruct (in_order _) eqn:E; cbn; try (left; reflexivity).
      all: destruct (negb _ || negb _) eqn:Z; cbn [only_if]; [rewrite <- Lo; right; reflexivity|].
      all: exfalso; apply orb_false_iff in Z; destruct Z as [Z1 Z2]; apply negb_false_iff in Z1; apply negb_false_iff in Z2.
      all: assert (P : forall e o v, cc_none e o = true -> cc_elem cl sc emb true e o v = Passes)
        by (clear; intros e [[mr [r|]]|] v; cbn; try discriminate; destruct (is_embed e); auto; discriminate).
      all: assert (Q : in_order (map (fun kv => andthen (cc_elem cl sc emb true k ks (fst kv)) (cc_elem cl sc emb true w vs (snd kv))) l) = Passes)
        by (clear - P Z1 Z2; induction l; cbn; auto; rewrite !P by auto; auto).
      all: congruence.
    + destruct (negb _ || negb _); cbn [only_if]; same. destruct Lo as [-> | ->]; [left; reflexivity|]. same.
  - assert (M : map_without x k w (mkMapRules mn mx ns ks vs ie) = mkMapRules mn mx ns (option_map (elem_without x k) ks) (option_map (elem_without x w) vs) ie).
    { destruct x; try discriminate px; try reflexivity. now elim N. }
    rewrite M. unfold cc_map. cbn [p_min p_max p_no_sparse p_keys p_values p_ignore_empty]. rewrite !cc_none_eq.
    apply thrown_if, thrown_then; same. apply thrown_if, thrown_then; [auto|]. same.
Qed.

Lemma cc_repeated_none e l : thrown (cc_repeated cl sc emb e (mkRepRules None None None None None) l) (cc_repeated cl sc' emb' e (mkRepRules None None None None None) l).
Proof. replace (mkRepRules None None None None None) with (rep_without x e (mkRepRules None None None None None)) at 2 by (rewrite rep_eq; reflexivity). apply cc_repeated_less. Qed.
Lemma cc_map_none k w l : thrown (cc_map cl sc emb k w (mkMapRules None None None None None None) l) (cc_map cl sc' emb' k w (mkMapRules None None None None None None) l).
Proof.
  replace (mkMapRules None None None None None None) with (map_without x k w (mkMapRules None None None None None None)) at 2
    by (destruct x; try discriminate px; reflexivity). apply cc_map_less.
Qed.

Lemma cc_field_less f v : thrown (cc_field cl sc emb f v) (cc_field cl sc' emb' (field_without x f) v).
Proof.
  destruct f as [nm ty [mr t]]. unfold cc_field, field_without. cbn [f_type f_rules f_name fr_typ]. destruct ty as [e|e|k w].
  - apply (cc_elem_less false e (Some (FR mr t))).
  - destruct t as [[]|]; same; destruct v; same; [apply cc_repeated_less|apply cc_repeated_none].
  - destruct t as [[]|]; same; destruct v; same; [apply cc_map_less|apply thrown_if, cc_map_none].
Qed.
Lemma cc_oneof_less o s : thrown (cc_oneof cl sc emb o s) (cc_oneof cl sc' emb' (oneof_without x o) s).
Proof.
  assert (R : o_required (oneof_without x o) = o_required o) by (destruct x; try discriminate px; reflexivity).
  unfold cc_oneof. rewrite R. destruct s as [[fn v]|]; same. cbn [oneof_without o_fields].
  rewrite find_map by reflexivity. destruct (find _ (o_fields o)); cbn; same. apply cc_field_less.
Qed.
Lemma cc_msg_less d m : thrown (cc_msg cl sc emb d m) (cc_msg cl sc' emb' (msg_without x d) m).
Proof.
  assert (D : md_disabled (msg_without x d) = md_disabled d) by (destruct x; try discriminate px; reflexivity).
  unfold cc_msg. rewrite D. destruct (md_disabled d); same. cbn [msg_without md_fields md_oneofs]. rewrite !map_map.
  apply thrown_then; apply thrown_map.
  - intros f _. rewrite without_name. destruct (assoc _ _); same. apply cc_field_less.
  - intros o _. cbn [oneof_without o_name]. destruct (assoc _ _); same. apply cc_oneof_less.
Qed.
End CcRel.

Lemma cc_less x cl sc : plain_row x = true -> forall fuel n m, thrown (cc_validate_f cl sc fuel n m) (cc_validate_f cl (without x sc) fuel n m).
Proof.
  intros P. induction fuel as [|k IH]; intros n m; cbn [cc_validate_f]; [apply thrown_refl|]. rewrite without_msg.
  destruct (find_msg sc n) as [d|]; cbn [option_map]; [|apply thrown_refl]. cbn [msg_without md_methods]. fold (msg_without x d).
  destruct (md_methods d); solve [now apply cc_msg_less | apply thrown_refl].
Qed.
