(** What a generated Python function depends on; the cache. *)
From Coq Require Import Floats.SpecFloat Lia.
From Verif Require Import Base Utf8 Num Rules Types Regex Known Outcome GoSem Py PyCache PyCacheSpec BaseFacts ExecMsg Main LangFacts.

(** * The same statements, on values in [ok] *)
Definition sim {A} (ok : A -> Prop) (c c' : code A) : Prop :=
  match c, c' with
  | None, None => True
  | Some l, Some l' => Forall2 (fun s s' => forall a, ok a -> s a = s' a) l l'
  | _, _ => False
  end.

Section Sim.
Context {A : Type}.
Variable ok : A -> Prop.
Notation sims := (Forall2 (fun s s' : A -> outcome => forall a, ok a -> s a = s' a)).
Lemma sim_refl c : sim ok c c.
Proof. destruct c as [l|]; cbn; auto. induction l; constructor; auto. Qed.
Lemma sims_run l l' a : sims l l' -> ok a -> run l a = run l' a.
Proof. unfold run. intros S H. f_equal. induction S; cbn; f_equal; auto. Qed.
Lemma sim_seq l l' : Forall2 (sim ok) l l' -> sim ok (seq l) (seq l').
Proof.
  induction 1 as [|c c' l l' H _ IH]; cbn; [constructor|]. destruct c, c'; cbn in H; try contradiction; auto.
  destruct (seq l), (seq l'); cbn in *; try contradiction; auto. now apply Forall2_app.
Qed.
Lemma sim_block cond b b' : sim ok b b' -> sim ok (block cond b) (block cond b').
Proof.
  destruct b as [l|], b' as [l'|]; cbn; try tauto. intros S. destruct S as [|s s' l l' H S]; cbn; auto.
  constructor; auto. intros a Ha. f_equal. apply (sims_run (s :: l) (s' :: l')); auto.
Qed.
Lemma sim_guarded g cond b b' : sim ok b b' -> sim ok (guarded g cond b) (guarded g cond b').
Proof. destruct g; cbn; auto. apply sim_block. Qed.
Lemma sim_stmt s s' : (forall a, ok a -> s a = s' a) -> sim ok (stmt s) (stmt s').
Proof. intros H. cbn. constructor; auto. Qed.
Lemma sim_when b s s' : (forall a, ok a -> s a = s' a) -> sim ok (when b s) (when b s').
Proof. intros H. destruct b; cbn; constructor; auto. Qed.
End Sim.

Lemma sim_about {A B} (okb : B -> Prop) (oka : A -> Prop) part c c' : (forall b a, okb b -> part b = Some a -> oka a) -> sim oka c c' ->
  sim okb (about part c) (about part c').
Proof.
  intros P. destruct c as [l|], c' as [l'|]; cbn; auto. intros S. induction S as [|s s' l l' H _ IH]; cbn; constructor; auto.
  intros b Hb. destruct (part b) eqn:E; eauto.
Qed.
Lemma sim_some {A} (ok : A -> Prop) l c' : sim ok (Some l) c' -> exists l', c' = Some l' /\ Forall2 (fun s s' => forall a, ok a -> s a = s' a) l l'.
Proof. destruct c' as [l'|]; cbn; [eauto|tauto]. Qed.
Lemma for_each_same {A} (ok : A -> Prop) l l' : Forall2 (fun s s' => forall a, ok a -> s a = s' a) l l' ->
  forall xs, Forall ok xs -> for_each l xs = for_each l' xs.
Proof. intros S xs. unfold for_each. induction 1; cbn; f_equal; auto. now apply (sims_run ok). Qed.

Lemma assoc_in {A} x (l : list (string * A)) y : assoc x l = Some y -> In (x, y) l.
Proof.
  induction l as [|[k z] l IH]; cbn; [discriminate|]. destruct (String.eqb x k) eqn:E; auto.
  intros [= ->]. apply String.eqb_eq in E. subst. auto.
Qed.

Section Ext.
Variables (pl : py_libs) (pn : py_names) (sc sc' : schema) (v v' : string -> msgval -> outcome) (h : nat).
Hypothesis same : forall n m, mheight m < h -> v n m = v' n m.
Let ok (x : value) : Prop := vheight x <= h.
Notation agree := (agree sc sc').

Lemma embedded_same e x : ok x -> py_embedded v e x = py_embedded v' e x.
Proof. unfold ok. destruct e; cbn; auto. destruct x as [| | | | |[y|]| | | | | |]; cbn; auto. Qed.

Lemma message_sim el e mr : sim ok (py_message v el e mr) (py_message v' el e mr).
Proof.
  unfold py_message. apply sim_seq. repeat constructor; [apply sim_refl|]. destruct (match mr with Some _ => _ | None => _ end); [apply sim_refl|].
  apply sim_block, sim_stmt. intros a Ha. destruct el; auto. now apply embedded_same.
Qed.

Lemma enum_same e : agree e -> forall r, py_enum sc (enum_name e) r = py_enum sc' (enum_name e) r.
Proof. intros [E _] r. unfold py_enum, py_enum_values. now rewrite E. Qed.
Lemma scalar_same e r : agree e -> py_scalar pl sc e r = py_scalar pl sc' e r.
Proof. intros A. destruct r; auto. cbn [py_scalar]. fold (enum_name e). now rewrite (enum_same e A). Qed.
Lemma scalar_wrapped w r : find_enum sc "" = find_enum sc' "" -> py_scalar pl sc (wrapped_type w) r = py_scalar pl sc' (wrapped_type w) r.
Proof. intros E. destruct r; auto. cbn [py_scalar]. unfold py_enum, py_enum_values. destruct w; cbn; now rewrite E. Qed.
Lemma wrapper_same e mr r : agree e -> py_wrapper pl sc e mr r = py_wrapper pl sc' e mr r.
Proof.
  intros A. unfold py_wrapper. destruct e; try (now rewrite (scalar_same _ r A)). rewrite scalar_wrapped; auto. apply A.
Qed.

Lemma inline_same e r : agree e -> py_inline pl sc e r = py_inline pl sc' e r.
Proof. intros A. unfold py_inline. now rewrite (scalar_same _ _ A). Qed.
Lemma switcher_sim e fr : agree e -> sim ok (py_switcher pl sc v e fr) (py_switcher pl sc' v' e fr).
Proof.
  intros A. destruct fr as [[mr typ]|]; [|apply sim_refl]. unfold py_switcher.
  assert (O : forall c : code value, sim ok (if told_message mr then py_message v true e mr else c) (if told_message mr then py_message v' true e mr else c)).
  { intros c. destruct (told_message mr); [apply message_sim|apply sim_refl]. }
  destruct typ as [[]|]; try apply O; destruct (told _); try apply O; try apply sim_refl; rewrite (inline_same _ _ A); apply sim_refl.
Qed.
Lemma keys_same k fr : agree k -> py_keys pl sc k fr = py_keys pl sc' k fr.
Proof. intros A. unfold py_keys. destruct fr as [[mr [[]|]]|]; auto; try destruct k0; auto; now rewrite (inline_same _ _ A). Qed.

Lemma vheight_list l : ok (VList l) -> Forall ok l.
Proof. unfold ok. cbn. intros H. apply Forall_forall. intros x I. assert (Q := list_max_in vheight l x I). lia. Qed.
Lemma vheight_map l : ok (VMap l) -> Forall (fun p => ok (snd p)) l.
Proof. unfold ok. cbn. intros H. apply Forall_forall. intros x I. assert (Q := list_max_in (fun p => vheight (snd p)) l x I). cbn in Q. lia. Qed.

Lemma repeated_sim e r : agree e -> sim ok (py_repeated pl sc v e r) (py_repeated pl sc' v' e r).
Proof.
  intros A. unfold py_repeated. apply (sim_about ok (Forall ok)).
  { intros b a Hb E. destruct b; try discriminate E. injection E as <-. now apply vheight_list. }
  apply sim_guarded, sim_seq. repeat apply Forall2_cons; try apply sim_refl; [| |constructor].
  - apply sim_when. intros l Hl. apply (for_each_same ok); auto. constructor; [|constructor]. intros x Hx.
    destruct (items_skip _); auto. now apply embedded_same.
  - destruct (told_rules _); [|apply sim_refl]. assert (S := switcher_sim e (r_items r) A).
    destruct (py_switcher pl sc v e (r_items r)) as [c|], (py_switcher pl sc' v' e (r_items r)) as [c'|]; cbn in S; try contradiction; auto.
    apply sim_stmt. intros l Hl. now apply (for_each_same ok).
Qed.

Lemma map_sim k w r : agree k -> agree w -> sim ok (py_map pl sc v k w r) (py_map pl sc' v' k w r).
Proof.
  intros K W. unfold py_map. apply (sim_about ok (Forall (fun p : value * value => ok (snd p)))).
  { intros b a Hb E. destruct b; try discriminate E. injection E as <-. now apply vheight_map. }
  apply sim_guarded, sim_seq. repeat apply Forall2_cons; try apply sim_refl; [|constructor].
  destruct (told_rules _ || told_rules _).
  - rewrite (keys_same _ _ K). assert (S := switcher_sim w (p_values r) W). destruct (py_keys pl sc' k (p_keys r)) as [ks|]; [|cbn; auto].
    destruct (py_switcher pl sc v w (p_values r)) as [c|], (py_switcher pl sc' v' w (p_values r)) as [c'|]; cbn in S; try contradiction; auto.
    apply sim_stmt. intros l Hl. apply (for_each_same (fun p : value * value => ok (snd p))); auto. repeat constructor; auto.
    intros x Hx. now apply (sims_run ok).
  - apply sim_when. intros l Hl. apply (for_each_same (fun p : value * value => ok (snd p))); auto. constructor; [|constructor].
    intros x Hx. now apply embedded_same.
Qed.

Lemma entries_same n : find_msg sc n = find_msg sc' n -> py_entries sc n = py_entries sc' n.
Proof. intros E. unfold py_entries. now rewrite E. Qed.

Lemma field_sim n f : (forall e, In e (elems (f_type f)) -> agree e) -> sim ok (py_field pl sc v pn n f) (py_field pl sc' v' pn n f).
Proof.
  intros A. unfold py_field. destruct (f_rules f) as [mr typ].
  set (elem := match f_type f with FOne e | FRep e => e | FMap _ w => w end).
  assert (E : agree elem) by (apply A; unfold elem; destruct (f_type f); cbn; auto).
  destruct (negb _).
  { destruct (f_type f) as [e|e|k w]; cbn in A.
    - destruct e; try apply sim_refl. destruct (google _ _); [apply sim_refl|apply message_sim].
    - destruct e as [| | | | |n0| | | |]; try apply sim_refl. destruct (google _ _); [apply sim_refl|]. destruct (pn_entry _ _).
      + rewrite entries_same; [apply sim_refl|]. apply (A (TMsg n0)); auto.
      + apply repeated_sim. auto.
    - destruct (google _ _); [apply sim_refl|]. apply map_sim; auto. }
  destruct (fields_embed (f_type f)).
  - assert (M : forall c : code value, sim ok (if told_message mr then py_message v false elem mr else c) (if told_message mr then py_message v' false elem mr else c)).
    { intros c. destruct (told_message mr); [apply message_sim|apply sim_refl]. }
    assert (M2 : forall c c' : code value, sim ok c c' -> sim ok (if told_message mr then py_message v false elem mr else c) (if told_message mr then py_message v' false elem mr else c')).
    { intros c c' H. destruct (told_message mr); [apply message_sim|exact H]. }
    destruct typ as [r|]; [|apply M].
    destruct r; try (destruct (told _); [apply sim_refl|apply M]);
      try (destruct (wrapper_rule _ && told _); [rewrite (wrapper_same _ _ _ E); apply sim_refl|]; apply M2; try apply sim_refl).
    + destruct (told _); [now apply repeated_sim|cbn; auto].
    + destruct (told _); [|cbn; auto]. destruct (f_type f) as [e|e|k w] eqn:T; try apply sim_refl. apply map_sim; apply A; cbn; auto.
  - destruct typ as [r|]; [|destruct (told_message mr); [apply message_sim|apply sim_refl]].
    destruct r; try (destruct (told_message mr); [apply message_sim|]; try apply sim_refl; destruct (told _); try (rewrite (scalar_same _ _ E)); try apply sim_refl).
    + destruct (told _); [rewrite (scalar_same _ _ E); apply sim_refl|]. destruct (told_message mr); [apply message_sim|apply sim_refl].
    + now apply repeated_sim.
Qed.

Let ok_one (s : option (string * value)) : Prop := match s with Some (_, x) => ok x | None => True end.
Lemma oneof_sim n o : (forall f e, In f (o_fields o) -> In e (elems (f_type f)) -> agree e) ->
  sim ok_one (py_oneof pl sc v pn n o) (py_oneof pl sc' v' pn n o).
Proof.
  intros A. unfold py_oneof. apply sim_seq. apply Forall2_app; [|repeat constructor; apply sim_refl].
  induction (o_fields o) as [|f l IH]; cbn [map]; constructor; [|apply IH; intros; eapply A; cbn; eauto].
  assert (S := field_sim n f (fun e => A f e (or_introl eq_refl))).
  unfold py_member. destruct (headless_member f); [exact I|].
  destruct (py_field pl sc v pn n f) as [c|], (py_field pl sc' v' pn n f) as [c'|]; cbn in S; try contradiction; [|cbn; auto].
  apply sim_stmt. intros [[fn x]|] Hx; auto. f_equal. now apply (sims_run ok).
Qed.

Let ok_msg (m : msgval) : Prop := mheight m <= h.
Lemma body_sim d : (forall f e, In f (all_fields d) -> In e (elems (f_type f)) -> agree e) ->
  sim ok_msg (py_body pl sc v pn d) (py_body pl sc' v' pn d).
Proof.
  intros A. unfold all_fields in A. unfold py_body. apply sim_seq. apply Forall2_app.
  - assert (B : forall o f e, In o (md_oneofs d) -> In f (o_fields o) -> In e (elems (f_type f)) -> agree e).
    { intros o f e Ho Hf He. apply (A f e); auto. apply in_app_iff. right. apply in_flat_map. eauto. }
    clear A. induction (md_oneofs d) as [|o l IH]; cbn [map]; constructor; [|apply IH; intros; eapply B; cbn; eauto].
    assert (S := oneof_sim (md_name d) o (fun f e => B o f e (or_introl eq_refl))).
    destruct (py_oneof pl sc v pn (md_name d) o) as [c|], (py_oneof pl sc' v' pn (md_name d) o) as [c'|]; cbn in S; try contradiction; [|cbn; auto].
    cbn. constructor; [|constructor]. intros m Hm. destruct (assoc (o_name o) (mv_oneofs m)) as [s|] eqn:E; auto.
    apply (sims_run ok_one); auto. destruct s as [[g x]|]; cbn; auto. apply assoc_in in E. apply oneof_height in E. unfold ok, ok_msg in *. lia.
  - assert (B : forall f e, In f (md_fields d) -> In e (elems (f_type f)) -> agree e).
    { intros f e Hf. apply A. apply in_app_iff. auto. }
    clear A. induction (md_fields d) as [|f l IH]; cbn [map]; constructor; [|apply IH; intros; eapply B; cbn; eauto].
    assert (S := field_sim (md_name d) f (fun e => B f e (or_introl eq_refl))).
    destruct (py_field pl sc v pn (md_name d) f) as [c|], (py_field pl sc' v' pn (md_name d) f) as [c'|]; cbn in S; try contradiction; [|cbn; auto].
    cbn. constructor; [|constructor]. intros m Hm. destruct (assoc (f_name f) (mv_fields m)) as [x|] eqn:E; auto.
    apply (sims_run ok); auto. apply assoc_in in E. apply field_height in E. unfold ok, ok_msg in *. lia.
Qed.

Lemma msg_same d m : (forall f e, In f (all_fields d) -> In e (elems (f_type f)) -> agree e) -> mheight m <= h ->
  py_msg pl sc v pn d m = py_msg pl sc' v' pn d m.
Proof.
  intros A H. assert (S := body_sim d A). unfold py_msg.
  destruct (py_body pl sc v pn d) as [c|], (py_body pl sc' v' pn d) as [c'|]; cbn in S; try contradiction; auto.
  destruct (_ || _); auto. now apply (sims_run ok_msg).
Qed.
End Ext.

(** * The cache *)
Section Cache.
Variables (pl : py_libs) (pn : py_names) (pool : nat -> schema).

Lemma in_firstn {A} k (x : A) l : In x (firstn k l) -> In x l.
Proof using. clear. revert l. induction k; intros [|y l]; cbn; try tauto. intros [->|H]; auto. Qed.
Lemma NoDup_firstn {A} k (l : list A) : NoDup l -> NoDup (firstn k l).
Proof using.
  clear. intros N. revert k. induction N as [|x l H N IH]; intros [|k]; cbn; constructor; auto. intros I. apply in_firstn in I. auto.
Qed.
Lemma filter_few {A} (p : A -> bool) l : List.length (filter p l) <= List.length l.
Proof using. clear. induction l as [|x l IH]; cbn; auto. destruct (p x); cbn; lia. Qed.
Lemma cached_in key c s : cached key c = Some s -> In (key, s) c.
Proof using.
  induction c as [|[k t] c IH]; cbn; [discriminate|]. destruct (String.eqb key k) eqn:E; auto.
  intros [= ->]. apply String.eqb_eq in E. subst. auto.
Qed.

(** Every entry was generated from a descriptor that has the name it is stored under. *)
Lemma entries_named c : history pl pn pool c -> forall key j d, In (key, (j, d)) c ->
  exists n, find_msg (pool j) n = Some d /\ pn_full pn n = key.
Proof using.
  induction 1 as [|c k s _ IH C|c i n d _ IH F _ _]; intros key j d'; [contradiction| |].
  - intros [[= -> ->]|H]; [apply IH; now apply cached_in|]. apply filter_In in H. apply IH, H.
  - intros H. unfold store in H. apply in_firstn in H. destruct H as [[= <- <- <-]|H]; [eauto|auto].
Qed.

Lemma entries_few c : history pl pn pool c -> List.length c <= max_size.
Proof using.
  induction 1 as [|c k s _ IH C|c i n d _ IH F _ _]; [cbn; lia| |].
  - apply cached_in in C. cbn. assert (List.length (filter (fun e : string * source => negb (String.eqb k (fst e))) c) < List.length c); [|lia].
    clear IH. induction c as [|e c IH]; [contradiction|]. cbn. destruct C as [->|C].
    + cbn. rewrite String.eqb_refl. cbn. assert (X := filter_few (fun e : string * source => negb (String.eqb k (fst e))) c). lia.
    + specialize (IH C). destruct (negb _); cbn; lia.
  - unfold store. rewrite firstn_length. lia.
Qed.

(** No key occurs twice. *)
Lemma keys_once c : history pl pn pool c -> NoDup (map fst c).
Proof using.
  assert (FN : forall (p : string * source -> bool) l, NoDup (map fst l) -> NoDup (map fst (filter p l))).
  { intros p l. induction l as [|x l IH]; cbn; auto. intros N. apply NoDup_cons_iff in N. destruct N as [N1 N2].
    destruct (p x); auto. cbn. constructor; auto. intros H. apply N1. apply in_map_iff in H. destruct H as (y & <- & Hy). apply filter_In in Hy. apply in_map, Hy. }
  induction 1 as [|c k s _ IH C|c i n d _ IH F _ M]; [constructor| |].
  - cbn. constructor; auto. intros H. apply in_map_iff in H. destruct H as (y & <- & Hy). apply filter_In in Hy. destruct Hy as [_ Hy].
    rewrite String.eqb_refl in Hy. discriminate.
  - change (map fst (store (pn_full pn n) (i, d) c)) with (map fst (firstn max_size ((pn_full pn n, (i, d)) :: c))). rewrite <- firstn_map. cbn [map fst].
    assert (N : NoDup (pn_full pn n :: map fst c)).
    { constructor; auto. intros H. clear - M H. induction c as [|[k s] c IH]; cbn in *; [contradiction|].
      destruct (String.eqb (pn_full pn n) k) eqn:E; [discriminate|]. destruct H as [H|H]; [rewrite H, String.eqb_refl in E; discriminate|auto]. }
    now apply NoDup_firstn.
Qed.

Hypothesis one : one_meaning pn pool.

Lemma served c i n d j d' : history pl pn pool c -> find_msg (pool i) n = Some d -> inner_of pn c i n d = (j, d') ->
  d' = d /\ forall f e, In f (all_fields d) -> In e (elems (f_type f)) -> agree (pool j) (pool i) e.
Proof using one.
  intros H F I. unfold inner_of in I. destruct (cached (pn_full pn n) c) as [s|] eqn:C.
  - subst s. apply cached_in in C. destruct (entries_named c H _ _ _ C) as (n' & F' & E).
    destruct (one j i n' n d' d F' F E) as [-> A]. auto.
  - injection I as <- <-. split; auto. intros f e _ _. repeat split; auto.
Qed.

(** The fuel does not matter. *)
Lemma fuel_same sc k : forall k' n m, mheight m < k -> mheight m < k' -> py_validate_f pl pn sc k n m = py_validate_f pl pn sc k' n m.
Proof using.
  clear. induction k as [|k IH]; intros [|k'] n m H H'; try lia. cbn [py_validate_f]. destruct (find_msg sc n) as [d|]; auto.
  apply msg_same with (h := mheight m); auto.
  - intros n' m' L. apply IH; lia.
  - intros f e _ _. repeat split; auto.
Qed.

Lemma verdict_uncached i n m o : verdict pl pn pool i n m o -> forall fuel, mheight m < fuel -> o = py_validate_f pl pn (pool i) fuel n m.
Proof using one.
  induction 1 as [n m F|n m d c j d' inner F H I _ IH]; intros [|k] L; try lia; cbn [py_validate_f]; rewrite F; auto.
  destruct (served _ _ _ _ _ _ H F I) as [-> A].
  apply msg_same with (h := mheight m); auto. intros n' m' L'. apply IH; lia.
Qed.

Lemma verdict_exists i c : history pl pn pool c -> forall fuel n m, mheight m < fuel -> verdict pl pn pool i n m (py_validate_f pl pn (pool i) fuel n m).
Proof using one.
  intros H. induction fuel as [|k IH]; intros n m L; [lia|]. cbn [py_validate_f].
  destruct (find_msg (pool i) n) as [d|] eqn:F; [|now apply other].
  destruct (inner_of pn c i n d) as [j d'] eqn:I. destruct (served _ _ _ _ _ _ H F I) as [-> A].
  replace (py_msg pl (pool i) (py_validate_f pl pn (pool i) k) pn d m) with (py_msg pl (pool j) (py_validate_f pl pn (pool i) k) pn d m).
  - apply (called pl pn pool i n m d c j d); auto. intros n' m' L'. apply IH. lia.
  - apply msg_same with (h := mheight m); auto.
Qed.
End Cache.
