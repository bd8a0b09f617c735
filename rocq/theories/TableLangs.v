(** [no_sparse] makes no difference in Java and Python. *)
From Coq Require Import Floats.SpecFloat Lia.
From Verif Require Import Base Num Rules Types Iface Checker GoSem Outcome Java Cc Py HarnessMainSpec BaseFacts LangFacts PyCacheFacts TableSpec TableFacts.

Lemma sparse_rep e r : rep_without NoSparse e r = r.
Proof. destruct r as [mn mx u it ie]. unfold rep_without. cbn [r_min r_max r_unique r_items r_ignore_empty]. now rewrite sparse_elem. Qed.
Lemma sparse_map k w r : map_without NoSparse k w r = mkMapRules (p_min r) (p_max r) None (p_keys r) (p_values r) (p_ignore_empty r).
Proof. reflexivity. Qed.
Lemma sparse_field f : field_without NoSparse f = f \/
  exists k w mr r, f_type f = FMap k w /\ f_rules f = FR mr (Some (RMap r)) /\
    field_without NoSparse f = mkField (f_name f) (FMap k w) (FR mr (Some (RMap (map_without NoSparse k w r)))).
Proof.
  destruct f as [nm ty fr]. unfold field_without. cbn [f_name f_type f_rules]. destruct ty as [e|e|k w].
  - left. f_equal. assert (H := sparse_elem e (Some fr)). now injection H.
  - left. f_equal. destruct fr as [mr [[]|]]; auto. now rewrite sparse_rep.
  - destruct fr as [mr [[]|]]; auto. right. eauto 8.
Qed.

(** * Java *)
Section JavaRel.
Variables (jl : java_libs) (sc sc' : schema).
Hypothesis enums : sc_enums sc' = sc_enums sc.
Variables emb emb' : string -> msgval -> outcome.
Hypothesis rec : forall n m, thrown (emb n m) (emb' n m).

Lemma j_enum_of e : jenum_of sc' e = jenum_of sc e.
Proof. unfold jenum_of, enum_has, find_enum. now rewrite enums. Qed.
Lemma j_rule_same e r v : j_rule jl sc' e r v = j_rule jl sc e r v.
Proof.
  destruct r, v; try reflexivity. cbn [j_rule]. unfold j_enum, jenum_of, for_number, enum_has, find_enum. now rewrite enums.
Qed.
Lemma j_message_less el e mr v : thrown (j_message emb el e mr v) (j_message emb' el e mr v).
Proof.
  unfold j_message. destruct (match mr with Some _ => _ | None => _ end); same. apply thrown_then; same. apply thrown_if.
  unfold j_embedded. destruct e, v; same. destruct m0; same. apply rec.
Qed.
Lemma j_elem_less el e fr v : thrown (j_elem jl sc emb el e fr v) (j_elem jl sc' emb' el e fr v).
Proof.
  destruct fr as [[mr [r|]]|]; cbn [j_elem]; try (apply thrown_if, j_message_less).
  destruct e as [| | | | | |w0| | |]; try (rewrite j_rule_same; same). destruct v as [| | | | | |[y|]| | | | |]; try (rewrite j_rule_same; same); destruct el; same.
  cbn. rewrite j_rule_same. same.
Qed.
Lemma j_equals_same e : j_value_equals sc' e = j_value_equals sc e.
Proof. unfold j_value_equals, jenum_of, enum_has, find_enum. now rewrite enums. Qed.
Lemma j_repeated_less e r l : thrown (j_repeated jl sc emb e r l) (j_repeated jl sc' emb' e r l).
Proof.
  unfold j_repeated. rewrite j_equals_same. apply thrown_if, thrown_list. repeat apply Forall2_cons; same; [|constructor].
  apply thrown_map. intros a _. apply j_elem_less.
Qed.
Lemma j_map_less k w r r' l : r' = r \/ r' = map_without NoSparse k w r -> thrown (j_map jl sc emb k w r l) (j_map jl sc' emb' k w r' l).
Proof.
  assert (P : thrown (only_if (negb (j_none w (p_values r)) || negb (j_none k (p_keys r)))
             (andthen (in_order (map (fun p => j_elem jl sc emb true k (p_keys r) (fst p)) l))
                   (in_order (map (fun p => j_elem jl sc emb true w (p_values r) (snd p)) l))))
     (only_if (negb (j_none w (p_values r)) || negb (j_none k (p_keys r)))
             (andthen (in_order (map (fun p => j_elem jl sc' emb' true k (p_keys r) (fst p)) l))
                   (in_order (map (fun p => j_elem jl sc' emb' true w (p_values r) (snd p)) l))))).
  { apply thrown_if, thrown_then; apply thrown_map; intros a _; apply j_elem_less. }
  intros [-> | ->]; [|rewrite sparse_map]; unfold j_map; cbn [p_min p_max p_no_sparse p_keys p_values p_ignore_empty];
    apply thrown_if, thrown_list; repeat apply Forall2_cons; same; try exact P; try apply Forall2_nil.
  cbn [getb]. destruct (getb (p_no_sparse r)); cbn; same. left. reflexivity.
Qed.
Lemma j_field_less f v : thrown (j_field jl sc emb f v) (j_field jl sc' emb' (field_without NoSparse f) v).
Proof.
  destruct (sparse_field f) as [->|(k & w & mr & r & T & R & ->)].
  - unfold j_field. destruct (f_type f) as [e|e|k w]; [apply j_elem_less| |].
    + destruct (fr_typ (f_rules f)) as [[]|]; same; destruct v; same; apply j_repeated_less.
    + destruct (fr_typ (f_rules f)) as [[]|]; same; destruct v; same; [|apply thrown_if]; apply j_map_less; auto.
  - unfold j_field. rewrite T, R. cbn [f_type f_rules fr_typ]. destruct v; same. apply j_map_less. auto.
Qed.
Lemma j_oneof_less o s : thrown (j_oneof jl sc emb o s) (j_oneof jl sc' emb' (oneof_without NoSparse o) s).
Proof.
  unfold j_oneof. cbn [oneof_without o_required o_fields]. destruct s as [[fn v]|]; same.
  rewrite find_map by reflexivity. destruct (find _ (o_fields o)); cbn [option_map]; same. apply j_field_less.
Qed.
Lemma j_msg_less d m : thrown (j_msg jl sc emb d m) (j_msg jl sc' emb' (msg_without NoSparse d) m).
Proof.
  unfold j_msg. cbn [msg_without md_disabled md_fields md_oneofs]. destruct (md_disabled d); same. rewrite !map_map.
  apply thrown_then; apply thrown_map.
  - intros f _. rewrite without_name. destruct (assoc _ _); same. apply j_field_less.
  - intros o _. cbn [oneof_without o_name]. destruct (assoc _ _); same. apply j_oneof_less.
Qed.
End JavaRel.

Lemma java_less jl ignored sc : forall fuel n m,
  thrown (assert_valid_f jl sc ignored fuel n m) (assert_valid_f jl (without NoSparse sc) ignored fuel n m).
Proof.
  induction fuel as [|k IH]; intros n m; cbn [assert_valid_f]; [apply thrown_refl|]. rewrite without_msg.
  destruct (find_msg sc n) as [d|]; cbn [option_map]; [|apply thrown_refl].
  assert (M : thrown (j_msg jl sc (assert_valid_f jl sc ignored k) d m)
    (j_msg jl (without NoSparse sc) (assert_valid_f jl (without NoSparse sc) ignored k) (msg_without NoSparse d) m)) by now apply j_msg_less.
  change (md_methods (msg_without NoSparse d)) with (md_methods d). destruct (md_methods d); [exact M|exact M|apply thrown_refl].
Qed.

(** * Python: the code is the same, unless the map rules are left empty and there is no code *)
Definition lost (a b : outcome) : Prop := b = Crashes \/ a = b.
Lemma lost_refl a : lost a a. Proof. right. auto. Qed.
Lemma lost_then a b c d : lost a b -> lost c d -> lost (andthen a c) (andthen b d).
Proof. intros [-> | ->] H; [left; auto|]. destruct b; cbn; auto using lost_refl. Qed.
Lemma lost_if b a c : lost a c -> lost (only_if b a) (only_if b c).
Proof. destruct b; cbn; auto using lost_refl. Qed.
Definition losts {A} : list (A -> outcome) -> list (A -> outcome) -> Prop := Forall2 (fun s s' => forall a, lost (s a) (s' a)).
Definition loses {A} (c c' : code A) : Prop :=
  match c, c' with _, None => True | Some l, Some l' => losts l l' | None, Some _ => False end.

Lemma losts_refl {A} (l : list (A -> outcome)) : losts l l.
Proof. induction l; constructor; auto using lost_refl. Qed.
Lemma losts_run {A} (l l' : list (A -> outcome)) a : losts l l' -> lost (run l a) (run l' a).
Proof. unfold run. induction 1 as [|s s' l l' H _ IH]; cbn; auto using lost_refl, lost_then. Qed.
Lemma loses_refl {A} (c : code A) : loses c c.
Proof. destruct c; cbn; auto using losts_refl. Qed.
Lemma loses_none {A} (c : code A) : loses c None.
Proof. destruct c; exact I. Qed.
Lemma loses_seq {A} (l l' : list (code A)) : Forall2 loses l l' -> loses (seq l) (seq l').
Proof.
  induction 1 as [|c c' l l' H _ IH]; cbn [seq]; [apply loses_refl|]. destruct c' as [x'|]; [|apply loses_none].
  destruct c as [x|]; [|contradiction]. destruct (seq l') as [y'|]; [|apply loses_none]. destruct (seq l) as [y|]; [|contradiction].
  cbn in *. now apply Forall2_app.
Qed.
Lemma loses_block {A} (cond : A -> bool) b b' : loses b b' -> loses (block cond b) (block cond b').
Proof.
  destruct b' as [l'|]; [|intros _; apply loses_none]. destruct b as [l|]; [|contradiction]. intros S. cbn in S.
  destruct S as [|s s' l l' H S]; [exact I|]. cbn. constructor; [|constructor]. intros a. apply lost_if. apply (losts_run (s :: l) (s' :: l')). now constructor.
Qed.
Lemma loses_guarded {A} g (cond : A -> bool) b b' : loses b b' -> loses (guarded g cond b) (guarded g cond b').
Proof. destruct g; cbn [guarded]; auto using loses_block. Qed.
Lemma loses_stmt {A} (s s' : A -> outcome) : (forall a, lost (s a) (s' a)) -> loses (stmt s) (stmt s').
Proof. intros H. constructor; auto. Qed.
Lemma loses_when {A} b (s s' : A -> outcome) : (forall a, lost (s a) (s' a)) -> loses (when b s) (when b s').
Proof. intros H. destruct b; [now apply loses_stmt|apply loses_refl]. Qed.
Lemma loses_about {A B} (part : B -> option A) c c' : loses c c' -> loses (about part c) (about part c').
Proof.
  destruct c' as [l'|]; [|intros _; apply loses_none]. destruct c as [l|]; [|contradiction]. cbn.
  intros S. induction S as [|s s' l l' H _ IH]; cbn; constructor; auto. intros b. destruct (part b); auto using lost_refl.
Qed.
Lemma lost_map {A} (f g : A -> outcome) l : (forall a, lost (f a) (g a)) -> lost (in_order (map f l)) (in_order (map g l)).
Proof. intros H. induction l; cbn; auto using lost_refl, lost_then. Qed.
Lemma lost_each {A} (l l' : list (A -> outcome)) xs : losts l l' -> lost (for_each l xs) (for_each l' xs).
Proof. intros S. unfold for_each. apply lost_map. intros a. now apply losts_run. Qed.

Section PyRel.
Variables (pl : py_libs) (pn : py_names) (sc sc' : schema) (v v' : string -> msgval -> outcome).
Hypothesis enums : sc_enums sc' = sc_enums sc.
Hypothesis types : forall n, option_map (fun d => map f_type (md_fields d)) (find_msg sc' n) = option_map (fun d => map f_type (md_fields d)) (find_msg sc n).
Hypothesis rec : forall n m, lost (v n m) (v' n m).

Lemma p_embedded_less e x : lost (py_embedded v e x) (py_embedded v' e x).
Proof. destruct e; cbn; try apply lost_refl. destruct x; try apply lost_refl. destruct m0; [apply rec|apply lost_refl]. Qed.
Lemma p_message_less el e mr : loses (py_message v el e mr) (py_message v' el e mr).
Proof.
  unfold py_message. apply loses_seq. repeat apply Forall2_cons; [apply loses_refl| |constructor].
  destruct (match mr with Some _ => _ | None => _ end); [apply loses_refl|].
  apply loses_block, loses_stmt. intros a. destruct el; [apply lost_refl|apply p_embedded_less].
Qed.
Lemma p_scalar_same e r : py_scalar pl sc' e r = py_scalar pl sc e r.
Proof. destruct r; auto. cbn [py_scalar]. unfold py_enum, py_enum_values, find_enum. now rewrite enums. Qed.
Lemma p_inline_same e r : py_inline pl sc' e r = py_inline pl sc e r.
Proof. unfold py_inline. now rewrite p_scalar_same. Qed.
Lemma p_wrapper_same e mr r : py_wrapper pl sc' e mr r = py_wrapper pl sc e mr r.
Proof. unfold py_wrapper. now rewrite p_scalar_same. Qed.
Lemma p_switcher_less e fr : loses (py_switcher pl sc v e fr) (py_switcher pl sc' v' e fr).
Proof.
  destruct fr as [[mr typ]|]; [|apply loses_refl]. unfold py_switcher.
  assert (O : forall c : code value, loses (if told_message mr then py_message v true e mr else c) (if told_message mr then py_message v' true e mr else c)).
  { intros c. destruct (told_message mr); [apply p_message_less|apply loses_refl]. }
  destruct typ as [[]|]; try apply O; destruct (told _); try apply O; try apply loses_refl; rewrite p_inline_same; apply loses_refl.
Qed.
Lemma p_keys_same k fr : py_keys pl sc' k fr = py_keys pl sc k fr.
Proof. unfold py_keys. destruct fr as [[mr [[]|]]|]; auto; try destruct k0; auto; now rewrite p_inline_same. Qed.
Lemma p_repeated_less e r : loses (py_repeated pl sc v e r) (py_repeated pl sc' v' e r).
Proof.
  unfold py_repeated. apply loses_about, loses_guarded, loses_seq. repeat apply Forall2_cons; try apply loses_refl; [| |constructor].
  - apply loses_when. intros l. apply lost_each. constructor; [|constructor]. intros x. destruct (items_skip _); [apply lost_refl|apply p_embedded_less].
  - destruct (told_rules _); [|apply loses_refl]. assert (S := p_switcher_less e (r_items r)).
    destruct (py_switcher pl sc' v' e (r_items r)) as [c'|]; [|apply loses_none]. destruct (py_switcher pl sc v e (r_items r)) as [c|]; [|contradiction].
    apply loses_stmt. intros l. now apply lost_each.
Qed.
Lemma p_map_less k w r r' : r' = r \/ r' = map_without NoSparse k w r -> loses (py_map pl sc v k w r) (py_map pl sc' v' k w r').
Proof.
  intros H. assert (E : py_map pl sc' v' k w r' = py_map pl sc' v' k w r) by (destruct H as [-> | ->]; reflexivity). rewrite E. clear E H.
  unfold py_map. apply loses_about, loses_guarded, loses_seq. repeat apply Forall2_cons; try apply loses_refl; [|constructor].
  destruct (told_rules _ || told_rules _).
  - rewrite p_keys_same. assert (S := p_switcher_less w (p_values r)). destruct (py_keys pl sc k (p_keys r)) as [ks|]; [|apply loses_none].
    destruct (py_switcher pl sc' v' w (p_values r)) as [c'|]; [|apply loses_none]. destruct (py_switcher pl sc v w (p_values r)) as [c|]; [|contradiction].
    apply loses_stmt. intros l. apply lost_each. apply Forall2_cons; [intros a; apply lost_refl|]. apply Forall2_cons; [intros a; now apply losts_run|constructor].
  - apply loses_when. intros l. apply lost_each. constructor; [|constructor]. intros a. apply p_embedded_less.
Qed.
Lemma p_entries_same n : py_entries sc' n = py_entries sc n.
Proof.
  assert (H := types n). unfold py_entries. destruct (find_msg sc' n) as [d'|], (find_msg sc n) as [d|]; cbn in H; try discriminate; auto.
  injection H as H. destruct (md_fields d') as [|a [|b [|c l]]], (md_fields d) as [|a2 [|b2 [|c2 l2]]]; cbn in H; try discriminate; auto.
  injection H as _ H. now rewrite H.
Qed.

Lemma p_field_same n f : loses (py_field pl sc v pn n f) (py_field pl sc' v' pn n f).
Proof.
  unfold py_field. destruct (f_rules f) as [mr typ].
  set (elem := match f_type f with FOne e | FRep e => e | FMap _ w => w end).
  destruct (negb _).
  { destruct (f_type f) as [e|e|k w].
    - destruct e; try apply loses_refl. destruct (google _ _); [apply loses_refl|apply p_message_less].
    - destruct e as [| | | | |n0| | | |]; try apply loses_refl. destruct (google _ _); [apply loses_refl|]. destruct (pn_entry _ _).
      + rewrite p_entries_same. apply loses_refl.
      + apply p_repeated_less.
    - destruct (google _ _); [apply loses_refl|]. apply p_map_less; auto. }
  destruct (fields_embed (f_type f)).
  - assert (M : forall c c' : code value, loses c c' -> loses (if told_message mr then py_message v false elem mr else c) (if told_message mr then py_message v' false elem mr else c')).
    { intros c c' H. destruct (told_message mr); [apply p_message_less|exact H]. }
    destruct typ as [r|]; [|apply M; apply loses_refl].
    destruct r; try (destruct (told _); [apply loses_refl|apply M; apply loses_refl]);
      try (destruct (wrapper_rule _ && told _); [rewrite p_wrapper_same; apply loses_refl|]; apply M; try apply loses_refl).
    + destruct (told _); [apply p_repeated_less|apply loses_refl].
    + destruct (told _); [|apply loses_refl]. destruct (f_type f) as [e|e|k w]; try apply loses_refl. apply p_map_less; auto.
  - destruct typ as [r|]; [|destruct (told_message mr); [apply p_message_less|apply loses_refl]].
    destruct r; try (destruct (told_message mr); [apply p_message_less|]; try apply loses_refl; destruct (told _); try (rewrite p_scalar_same); try apply loses_refl).
    + destruct (told _); [rewrite p_scalar_same; apply loses_refl|]. destruct (told_message mr); [apply p_message_less|apply loses_refl].
    + apply p_repeated_less.
Qed.
Lemma told_sparse k w r : told (RMap (map_without NoSparse k w r)) = true -> told (RMap r) = true.
Proof. cbn. destruct (is_some (p_no_sparse r)); [rewrite !orb_true_r; reflexivity|auto]. Qed.
Lemma p_field_less n f : loses (py_field pl sc v pn n f) (py_field pl sc' v' pn n (field_without NoSparse f)).
Proof.
  destruct (sparse_field f) as [->|(k & w & mr & r & T & R & ->)]; [apply p_field_same|].
  unfold py_field. rewrite T, R. cbn [f_type f_rules fields_embed is_some orb negb]. rewrite !orb_true_r. cbn [negb wrapper_rule andb].
  destruct (told_message mr); [apply p_message_less|]. destruct (told (RMap (map_without NoSparse k w r))) eqn:E; [|apply loses_none].
  rewrite (told_sparse _ _ _ E). apply p_map_less. auto.
Qed.
Lemma headless_less f : headless_member (field_without NoSparse f) = headless_member f.
Proof. destruct (sparse_field f) as [->|(k & w & mr & r & T & R & ->)]; [reflexivity|]. unfold headless_member. cbn [f_type f_rules]. now rewrite T, R. Qed.
Lemma p_oneof_less n o : loses (py_oneof pl sc v pn n o) (py_oneof pl sc' v' pn n (oneof_without NoSparse o)).
Proof.
  unfold py_oneof. cbn [oneof_without o_fields o_required]. rewrite map_map. apply loses_seq. apply Forall2_app; [|apply Forall2_cons; [apply loses_refl|constructor]].
  induction (o_fields o) as [|f l IH]; cbn [map]; constructor; auto.
  unfold py_member. rewrite headless_less. destruct (headless_member f); [apply loses_none|].
  assert (S := p_field_less n f). rewrite without_name. destruct (py_field pl sc' v' pn n _) as [c'|]; [|apply loses_none].
  destruct (py_field pl sc v pn n f) as [c|]; [|contradiction]. apply loses_stmt. intros [[fn x]|]; [|apply lost_refl].
  apply lost_if. now apply losts_run.
Qed.
Lemma p_body_less d : loses (py_body pl sc v pn d) (py_body pl sc' v' pn (msg_without NoSparse d)).
Proof.
  unfold py_body. cbn [msg_without md_fields md_oneofs md_name]. rewrite !map_map. apply loses_seq. apply Forall2_app.
  - induction (md_oneofs d) as [|o l IH]; cbn [map]; constructor; auto. assert (S := p_oneof_less (md_name d) o). cbn [oneof_without o_name].
    destruct (py_oneof pl sc' v' pn (md_name d) _) as [c'|]; [|apply loses_none]. destruct (py_oneof pl sc v pn (md_name d) o) as [c|]; [|contradiction].
    cbn. constructor; [|constructor]. intros m. destruct (assoc _ _); [now apply losts_run|apply lost_refl].
  - induction (md_fields d) as [|f l IH]; cbn [map]; constructor; auto. assert (S := p_field_less (md_name d) f). rewrite without_name.
    destruct (py_field pl sc' v' pn (md_name d) _) as [c'|]; [|apply loses_none]. destruct (py_field pl sc v pn (md_name d) f) as [c|]; [|contradiction].
    cbn. constructor; [|constructor]. intros m. destruct (assoc _ _); [now apply losts_run|apply lost_refl].
Qed.
Lemma p_msg_less d m : lost (py_msg pl sc v pn d m) (py_msg pl sc' v' pn (msg_without NoSparse d) m).
Proof.
  assert (S := p_body_less d). unfold py_msg. destruct (py_body pl sc' v' pn _) as [c'|]; [|left; reflexivity].
  destruct (py_body pl sc v pn d) as [c|]; [|contradiction]. cbn [msg_without md_disabled md_name]. destruct (_ || _); [apply lost_refl|now apply losts_run].
Qed.
End PyRel.

Lemma py_less pl pn sc : forall fuel n m, lost (py_validate_f pl pn sc fuel n m) (py_validate_f pl pn (without NoSparse sc) fuel n m).
Proof.
  induction fuel as [|k IH]; intros n m; cbn [py_validate_f]; [apply lost_refl|]. rewrite without_msg.
  destruct (find_msg sc n) as [d|]; cbn [option_map]; [|apply lost_refl]. apply p_msg_less; auto.
  intros n0. rewrite without_msg. destruct (find_msg sc n0) as [d0|]; cbn [option_map]; auto. cbn [msg_without md_fields]. rewrite map_map. reflexivity.
Qed.

(** * All languages *)
Lemma not_checked w l x sc n m a b : ticked l x = false -> overlooked l x = false ->
  says w l sc n m = Some a -> says w l (without x sc) n m = Some b ->
  a = b \/ (l <> LPython /\ a = Unimplemented) \/ (l = LPython /\ b = Crashes).
Proof.
  intros T O. unfold says. destruct l; try discriminate T.
  - assert (P : plain_row x = true) by (destruct x; try discriminate T; try discriminate O; reflexivity).
    destruct (check_schema (w_re w) sc) as [c|] eqn:C; [|discriminate].
    destruct (check_schema (w_re w) (without x sc)) as [d|] eqn:D; [|discriminate].
    rewrite (check_without _ _ _ _ _ P C D). intros Ha Hb. injection Ha as <-. injection Hb as <-.
    destruct (cc_less x (w_cl w) c P (S (mheight m)) n m) as [E|E]; [right; left; split; [discriminate|exact E]|left; exact E].
  - assert (x = NoSparse) as -> by (destruct x; try discriminate T; reflexivity).
    destruct (check_schema (w_re w) sc) as [c|] eqn:C; [|discriminate].
    destruct (check_schema (w_re w) (without NoSparse sc)) as [d|] eqn:D; [|discriminate].
    rewrite (check_without _ NoSparse _ _ _ eq_refl C D). intros Ha Hb. injection Ha as <-. injection Hb as <-.
    destruct (java_less (w_jl w) (w_ignored w) c (S (mheight m)) n m) as [E|E]; [right; left; split; [discriminate|exact E]|left; exact E].
  - assert (x = NoSparse) as -> by (destruct x; try discriminate T; reflexivity). intros [= <-] [= <-].
    destruct (py_less (w_pl w) (w_pn w) sc (S (mheight m)) n m) as [E|E]; [right; right; split; [reflexivity|exact E]|left; exact E].
Qed.
Lemma no_difference w l x sc n m : ticked l x = false -> overlooked l x = false -> ~ decides w l x sc n m.
Proof.
  intros T O [[A B]|[A B]]; destruct (not_checked _ _ _ _ _ _ _ _ T O A B) as [E|[[_ E]|[_ E]]]; discriminate.
Qed.
