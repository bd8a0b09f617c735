(** Checking the assumptions of Wt.v by computation, for concrete schemas and messages. *)
From Verif Require Import Base Num Rules Types Time Iface GoGen GoSem Spec Wt.

Definition olist {A} (o : option A) : list A := match o with Some a => [a] | None => [] end.

Lemma in_olist {A} (o : option A) a : o = Some a -> In a (olist o).
Proof. intros ->. left. reflexivity. Qed.

Fixpoint nodup_str (l : list string) : bool :=
  match l with [] => true | x :: t => negb (existsb (String.eqb x) t) && nodup_str t end.

Lemma nodup_str_sound l : nodup_str l = true -> NoDup l.
Proof.
  induction l as [|x t IH]; [constructor|]. cbn. rewrite andb_true_iff, negb_true_iff. intros [A B]. constructor; auto.
  intros H. rewrite <- not_true_iff_false in A. apply A. apply existsb_exists. exists x. split; auto. apply String.eqb_refl.
Qed.

Definition lens_okb (l : list (option N)) : bool :=
  forallb (fun o => match o with Some n => N.ltb n (2^63) | None => true end) l.
Lemma lens_okb_sound l : lens_okb l = true -> lens_ok l.
Proof. unfold lens_okb, lens_ok. rewrite forallb_forall. intros H n Hn. apply H in Hn. now apply N.ltb_lt. Qed.

Definition pos_eqb (a b : pos) : bool :=
  match a, b with PTop, PTop | PItem, PItem | PKey, PKey | PVal, PVal => true | _, _ => false end.
Lemma pos_eqb_spec a b : pos_eqb a b = true <-> a = b.
Proof. destruct a, b; cbn; split; congruence. Qed.

Definition no_listsb {A} (a b : list A) : bool := is_nil a && is_nil b.
Lemma no_listsb_sound {A} (a b : list A) : no_listsb a b = true -> no_lists a b.
Proof. unfold no_listsb, no_lists. destruct a, b; cbn; intuition discriminate. Qed.

Definition top_or (p : pos) (b : bool) : bool := pos_eqb p PTop || b.
Lemma top_or_sound p b : top_or p b = true -> p <> PTop -> b = true.
Proof. unfold top_or. destruct p; cbn; auto; congruence. Qed.
Definition kv_or (p : pos) (b : bool) : bool := negb (pos_eqb p PKey || pos_eqb p PVal) || b.
Lemma kv_or_sound p b : kv_or p b = true -> p = PKey \/ p = PVal -> b = true.
Proof. unfold kv_or. destruct p; cbn; auto; intros _ [H|H]; discriminate. Qed.

Definition num_okb (p : pos) (k : numkind) (r : num_rules) : bool :=
  let bounds := olist (n_const r) ++ olist (n_lt r) ++ olist (n_lte r) ++ olist (n_gt r) ++ olist (n_gte r) in
  forallb (num_of_kind k) (bounds ++ n_in r ++ n_not_in r) && forallb num_lit_ok bounds &&
  top_or p (no_listsb (n_in r) (n_not_in r)) && forallb num_lit_ok (n_in r ++ n_not_in r) &&
  nodupb num_eqb (map lit_num (n_in r)) && nodupb num_eqb (map lit_num (n_not_in r)).

Lemma num_okb_sound p k r : num_okb p k r = true -> num_ok p k r.
Proof.
  unfold num_okb. rewrite !andb_true_iff, !forallb_forall. intros [[[[[A B] C] D] E] F].
  assert (BN : forall n, (n_const r = Some n \/ n_lt r = Some n \/ n_lte r = Some n \/ n_gt r = Some n \/ n_gte r = Some n) ->
     In n (olist (n_const r) ++ olist (n_lt r) ++ olist (n_lte r) ++ olist (n_gt r) ++ olist (n_gte r))).
  { intros n H. rewrite !in_app_iff. intuition auto using in_olist. }
  split; [|split; [|split; [|split; [|split]]]]; auto.
  - intros n H. apply A. apply in_or_app.
    destruct H as [H|[H|[H|[H|[H|[H|H]]]]]];
      [left; apply BN; tauto ..|right; apply in_or_app; auto|right; apply in_or_app; auto].
  - intros Hp. apply no_listsb_sound. eapply top_or_sound; eauto.
  - apply forallb_forall. exact D.
Qed.

Definition str_okb (p : pos) (u : bool) (r : string_rules) : bool :=
  lens_okb [s_len r; s_min_len r; s_max_len r; s_len_bytes r; s_min_bytes r; s_max_bytes r] &&
  kv_or p (no_listsb (s_in r) (s_not_in r)) &&
  nodupb bytes_eqb (s_in r) && nodupb bytes_eqb (s_not_in r) &&
  (match s_wk r with Some (WUuid true) => u | _ => true end).
Lemma str_okb_sound p u r : str_okb p u r = true -> str_ok p u r.
Proof.
  unfold str_okb. rewrite !andb_true_iff. intros [[[[A B] C] D] E].
  split; [|split; [|split; [|split]]]; auto using lens_okb_sound.
  - intros H. apply no_listsb_sound. eapply kv_or_sound; eauto.
  - intros H. rewrite H in E. exact E.
Qed.

Definition byt_okb (p : pos) (w : bool) (r : bytes_rules) : bool :=
  lens_okb [b_len r; b_min_len r; b_max_len r] &&
  ((pos_eqb p PTop && negb w) || no_listsb (b_in r) (b_not_in r)) &&
  top_or p (is_none (b_pattern r)) && forallb byte_str_ok (b_in r ++ b_not_in r) &&
  nodupb bytes_eqb (b_in r) && nodupb bytes_eqb (b_not_in r).
Lemma byt_okb_sound p w r : byt_okb p w r = true -> byt_ok p w r.
Proof.
  unfold byt_okb. rewrite !andb_true_iff. intros [[[[[A B] C] D] E] F].
  split; [|split; [|split; [|split; [|split]]]]; auto using lens_okb_sound.
  - intros H. apply no_listsb_sound. apply orb_true_iff in B. destruct B as [B|B]; auto.
    apply andb_true_iff in B. destruct B as [B1 B2]. apply pos_eqb_spec in B1. destruct w; cbn in B2; try discriminate.
    destruct H; congruence.
  - intros H. assert (K := top_or_sound _ _ C H). destruct (b_pattern r); [discriminate|auto].
Qed.

Definition enum_okb (sc : schema) (p : pos) (e : string) (r : enum_rules) : bool :=
  kv_or p (no_listsb (e_in r) (e_not_in r)) && nodupb Z.eqb (e_in r) && nodupb Z.eqb (e_not_in r) &&
  is_some (find_enum sc e).
Lemma enum_okb_sound sc p e r : enum_okb sc p e r = true -> enum_ok sc p e r.
Proof.
  unfold enum_okb. rewrite !andb_true_iff. intros [[[A B] C] D]. split; [|split; [|split]]; auto.
  - intros H. apply no_listsb_sound. eapply kv_or_sound; eauto.
  - destruct (find_enum sc e); [discriminate|]. discriminate D.
Qed.

Definition any_okb (p : pos) (r : any_rules) : bool :=
  top_or p (no_listsb (a_in r) (a_not_in r)) && nodupb bytes_eqb (a_in r) && nodupb bytes_eqb (a_not_in r).
Lemma any_okb_sound p r : any_okb p r = true -> any_ok p r.
Proof.
  unfold any_okb. rewrite !andb_true_iff. intros [[A B] C]. split; [|split]; auto.
  intros H. apply no_listsb_sound. eapply top_or_sound; eauto.
Qed.

Definition dur_okb (p : pos) (r : duration_rules) : bool :=
  forallb (fun d => is_some (dur_lit d))
    (olist (d_const r) ++ olist (d_lt r) ++ olist (d_lte r) ++ olist (d_gt r) ++ olist (d_gte r)) &&
  top_or p (no_listsb (d_in r) (d_not_in r)) &&
  nodupb Z.eqb (map as_duration (d_in r)) && nodupb Z.eqb (map as_duration (d_not_in r)).
Lemma dur_okb_sound p r : dur_okb p r = true -> dur_ok p r.
Proof.
  unfold dur_okb. rewrite !andb_true_iff, forallb_forall. intros [[[A B] C] D]. split; [|split; [|split]]; auto.
  - intros d H. assert (K : is_some (dur_lit d) = true).
    { apply A. rewrite !in_app_iff. intuition auto using in_olist. }
    destruct (dur_lit d); [discriminate|]. discriminate K.
  - intros H. apply no_listsb_sound. eapply top_or_sound; eauto.
Qed.

Definition rule_okb (sc : schema) (p : pos) (wrapped : bool) (e : etype) (r : rule_type) : bool :=
  match r, e with
  | RNum k r, TNum k' => numkind_eqb k k' && num_okb p k r
  | RBool _, TBool => true
  | RString r, TString => str_okb p (file_uuid sc) r
  | RBytes r, TBytes => byt_okb p wrapped r
  | REnum r, TEnum n => enum_okb sc p n r
  | RAny r, TAny => any_okb p r
  | RDuration r, TDur => dur_okb p r
  | RTimestamp r, TTs => match t_within r with Some d => is_some (dur_lit d) | None => true end
  | _, _ => false
  end.
Lemma rule_okb_sound sc p w e r : rule_okb sc p w e r = true -> rule_ok sc p w e r.
Proof.
  destruct r, e; cbn [rule_okb rule_ok]; try discriminate; auto using str_okb_sound, byt_okb_sound, enum_okb_sound, any_okb_sound, dur_okb_sound.
  - rewrite andb_true_iff. intros [A B]. split; [|now apply num_okb_sound]. destruct k, k0; try discriminate; reflexivity.
  - intros H d E. rewrite E in H. destruct (dur_lit d); [discriminate|]. discriminate H.
Qed.

Definition elem_okb (sc : schema) (p : pos) (e : etype) (fr : field_rules) : bool :=
  match fr with
  | FR _ None => true
  | FR _ (Some r) =>
      match e with
      | TWrap w => pos_eqb p PTop && rule_okb sc p true (wrapped_type w) r
      | _ => rule_okb sc p false e r
      end
  end.
Lemma elem_okb_sound sc p e fr : elem_okb sc p e fr = true -> elem_ok sc p e fr.
Proof.
  destruct fr as [mr [r|]]; cbn [elem_okb elem_ok]; auto. destruct e; try apply rule_okb_sound.
  rewrite andb_true_iff, pos_eqb_spec. intros [A B]. split; auto. now apply rule_okb_sound.
Qed.

Definition field_okb (sc : schema) (f : field) : bool :=
  match f_type f, fr_typ (f_rules f) with
  | FOne e, _ => elem_okb sc PTop e (f_rules f)
  | FRep e, None => true
  | FRep e, Some (RRepeated r) =>
      lens_okb [r_min r; r_max r] && (negb (getb (r_unique r)) || negb (is_embed e)) &&
      elem_okb sc PItem e (rules_or_none (r_items r))
  | FMap k v, None => true
  | FMap k v, Some (RMap r) =>
      lens_okb [p_min r; p_max r] && (negb (getb (p_no_sparse r)) || is_embed v) &&
      elem_okb sc PKey k (rules_or_none (p_keys r)) && elem_okb sc PVal v (rules_or_none (p_values r)) &&
      negb (has_pattern (p_keys r) && has_pattern (p_values r))
  | _, _ => false
  end.
Lemma field_okb_sound sc f : field_okb sc f = true -> field_ok sc f.
Proof.
  unfold field_okb, field_ok. destruct (f_type f) as [e|e|k v].
  - apply elem_okb_sound.
  - destruct (fr_typ (f_rules f)) as [[]|]; try discriminate; auto. rewrite !andb_true_iff. intros [[A B] C].
    split; [|split]; auto using lens_okb_sound, elem_okb_sound. intros H. rewrite H in B. cbn in B. now apply negb_true_iff.
  - destruct (fr_typ (f_rules f)) as [[]|]; try discriminate; auto. rewrite !andb_true_iff. intros [[[[A B] C] D] E].
    split; [|split; [|split; [|split]]]; auto using lens_okb_sound, elem_okb_sound.
    + intros H. rewrite H in B. exact B.
    + now apply negb_true_iff.
Qed.

Definition supportedb (sc : schema) : bool :=
  nodup_str (map fst (pkg_decls sc)) &&
  forallb (fun d => md_disabled d || negb (has_methods d) || forallb (field_okb sc) (all_fields d)) (sc_msgs sc).
Lemma supportedb_sound sc : supportedb sc = true -> supported sc.
Proof.
  unfold supportedb. rewrite andb_true_iff, forallb_forall. intros [A B]. split; [now apply nodup_str_sound|].
  intros d Hd E1 E2. specialize (B d Hd). rewrite E1, E2 in B. cbn in B. rewrite forallb_forall in B.
  apply Forall_forall. intros f Hf. apply field_okb_sound. auto.
Qed.

Definition type_okb (sc : schema) (e : etype) : bool :=
  match e with TMsg n => is_some (find_msg sc n) | _ => true end.
Definition ftype_okb (sc : schema) (t : ftype) : bool :=
  match t with FOne e | FRep e => type_okb sc e | FMap k v => map_key k && type_okb sc v end.
Definition wf_schemab (sc : schema) : bool :=
  forallb (fun d => nodup_str (map f_name (all_fields d)) && nodup_str (map o_name (md_oneofs d)) &&
                    forallb (fun f => ftype_okb sc (f_type f)) (all_fields d)) (sc_msgs sc).
Lemma wf_schemab_sound sc : wf_schemab sc = true -> wf_schema sc.
Proof.
  assert (T : forall e, type_okb sc e = true -> type_ok sc e).
  { intros []; cbn; auto. destruct (find_msg sc m); discriminate. }
  unfold wf_schemab. rewrite forallb_forall. intros H d Hd. specialize (H d Hd). rewrite !andb_true_iff, forallb_forall in H.
  destruct H as [[A B] C]. split; [split; now apply nodup_str_sound|]. intros f Hf. specialize (C f Hf).
  destruct (f_type f); cbn in *; auto. apply andb_true_iff in C. destruct C. auto.
Qed.
