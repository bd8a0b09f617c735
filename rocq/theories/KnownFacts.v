(** Hostnames, e-mail addresses and IP addresses. *)
From Coq Require Import Lia ZifyBool ZifyN ZifyNat.
From Verif Require Import Base Utf8 Regex Known Spec BaseFacts Utf8Facts RegexFacts.
Local Open Scope N_scope.

(** ** Splitting at dots *)
Lemma split_on_ne sep s : split_on sep s <> [].
Proof.
  destruct s as [|c s]; simpl; [discriminate|]. destruct (c =? sep); [discriminate|].
  destruct (split_on sep s); discriminate.
Qed.

Lemma split_on_map (f : N -> N) sep s :
  (forall c, f c = sep <-> c = sep) -> split_on sep (map f s) = map (map f) (split_on sep s).
Proof.
  intros Hf. induction s as [|c s IH]; [reflexivity|]. cbn [map split_on].
  replace (f c =? sep) with (c =? sep) by (specialize (Hf c); lia).
  destruct (c =? sep); [cbn [map]; now rewrite IH|].
  rewrite IH. destruct (split_on sep s); reflexivity.
Qed.

Lemma split_on_no sep s : Forall (fun p => ~ In sep p) (split_on sep s).
Proof.
  induction s as [|c s IH]; cbn [split_on].
  - constructor; auto.
  - destruct (c =? sep) eqn:E; [constructor; auto|].
    destruct (split_on sep s) as [|p ps] eqn:Es.
    + constructor; auto. intros [H|[]]. lia.
    + inversion IH; subst. constructor; auto. intros [H|H]; [lia|auto].
Qed.

Lemma join_dots_cons l ls : ls <> [] -> join_dots (l :: ls) = l ++ [46] ++ join_dots ls.
Proof. destruct ls; [congruence|reflexivity]. Qed.

Lemma split_join s : join_dots (split_on 46 s) = s.
Proof.
  induction s as [|c s IH]; [reflexivity|]. cbn [split_on].
  destruct (c =? 46) eqn:E.
  - rewrite join_dots_cons by apply split_on_ne. rewrite IH. cbn. f_equal. lia.
  - destruct (split_on 46 s) as [|p ps] eqn:Es; [now apply split_on_ne in Es|].
    destruct ps as [|q ps].
    + cbn in *. now subst.
    + rewrite join_dots_cons in * by discriminate. cbn [app]. rewrite <- IH. reflexivity.
Qed.

Lemma split_app_dot p s : ~ In 46 p -> split_on 46 (p ++ [46] ++ s) = p :: split_on 46 s.
Proof.
  induction p as [|c p IH]; intros H.
  - reflexivity.
  - cbn [app split_on]. cbn [In] in H. replace (c =? 46) with false by lia.
    change (p ++ 46 :: s) with (p ++ [46] ++ s). rewrite IH by tauto. reflexivity.
Qed.

Lemma split_no_dot p : ~ In 46 p -> split_on 46 p = [p].
Proof.
  induction p as [|c p IH]; intros H; [reflexivity|]. cbn [split_on]. cbn [In] in H.
  replace (c =? 46) with false by lia. rewrite IH by tauto. reflexivity.
Qed.

Lemma join_split ls : ls <> [] -> Forall (fun p => ~ In 46 p) ls -> split_on 46 (join_dots ls) = ls.
Proof.
  induction ls as [|l ls IH]; [congruence|]. intros _ H. inversion H; subst.
  destruct ls as [|l2 ls].
  - cbn. now apply split_no_dot.
  - rewrite join_dots_cons by discriminate. rewrite split_app_dot by auto. f_equal.
    apply IH; auto. discriminate.
Qed.

Lemma flat_map_join ls :
  flat_map utf8_bytes (join_dots ls) = join_dots (map (flat_map utf8_bytes) ls).
Proof.
  induction ls as [|l ls IH]; [reflexivity|]. destruct ls as [|l2 ls]; [reflexivity|].
  cbn [map]. rewrite !join_dots_cons by discriminate. rewrite !flat_map_app, IH. reflexivity.
Qed.

(** ** Strings without decoding errors *)
Lemma runes_scalar s : Forall scalar_value (runes s).
Proof.
  remember (List.length s) as n eqn:E. assert (H : (List.length s <= n)%nat) by lia. clear E.
  revert s H. induction n as [|n IH]; intros [|b t] H; try (simpl in H; lia); try constructor.
  destruct (runes_step b t) as [(c & u & S & E & R)|(S & R)]; rewrite R; constructor; auto.
  - apply IH. assert (List.length (b :: t) = List.length (utf8_bytes c ++ u)) by now rewrite E.
    rewrite app_length in *. assert (X := utf8_bytes_ne c).
    destruct (utf8_bytes c); [congruence|]. simpl in *. lia.
  - unfold scalar_value, rune_error. lia.
  - apply IH. simpl in H. lia.
Qed.

Lemma runes_exact s : ~ In rune_error (runes s) -> flat_map utf8_bytes (runes s) = s.
Proof.
  remember (List.length s) as n eqn:E. assert (H : (List.length s <= n)%nat) by lia. clear E.
  revert s H. induction n as [|n IH]; intros [|b t] H; try (simpl in H; lia); try reflexivity.
  destruct (runes_step b t) as [(c & u & S & E & R)|(S & R)]; rewrite R; intros Hn; cbn [In] in Hn.
  - rewrite E. cbn [flat_map]. f_equal. apply IH; [|tauto].
    assert (List.length (b :: t) = List.length (utf8_bytes c ++ u)) by now rewrite E.
    rewrite app_length in *. assert (X := utf8_bytes_ne c).
    destruct (utf8_bytes c); [congruence|]. simpl in *. lia.
  - tauto.
Qed.

(** ** Lower-casing *)
Definition host_lower (c : N) : bool := host_char c || (c =? 46).

Ltac split_lower :=
  repeat match goal with |- context [if ?b then _ else _] => destruct b eqn:? end; lia.

Lemma lower_dot c : lower c = 46 <-> c = 46.
Proof. unfold lower, rng. split_lower. Qed.

Lemma lower_hyphen c : lower c = 45 <-> c = 45.
Proof. unfold lower, rng. split_lower. Qed.

Lemma lower_host c : host_char (lower c) = true <-> host_letter c.
Proof.
  unfold host_char, lower, rng, host_letter, alnum.
  split_lower.
Qed.

Lemma lower_scalar c : scalar_value c -> scalar_value (lower c).
Proof. unfold scalar_value, lower, rng. split_lower. Qed.

Lemma utf8_encode_bytes l : Forall scalar_value l -> utf8_encode l = flat_map utf8_bytes l.
Proof.
  induction 1; [reflexivity|]. unfold utf8_encode in *. cbn [flat_map].
  now rewrite IHForall, utf8_enc_bytes.
Qed.

Lemma utf8_bytes_ascii c : c < 128 -> utf8_bytes c = [c].
Proof. intros H. unfold utf8_bytes. now replace (c <? 0x80) with true by lia. Qed.

Lemma flat_utf8_ascii l : Forall (fun c => c < 128) l -> flat_map utf8_bytes l = l.
Proof. induction 1; [reflexivity|]. cbn [flat_map]. now rewrite utf8_bytes_ascii, IHForall. Qed.

Lemma utf8_bytes_nonascii c : 128 <= c -> exists b t, utf8_bytes c = b :: t /\ 128 <= b.
Proof.
  intros H. unfold utf8_bytes. replace (c <? 0x80) with false by lia.
  repeat (destruct (_ <? _)); eexists; eexists; (split; [reflexivity|lia]).
Qed.

Lemma flat_utf8_ascii_inv l : Forall (fun c => c < 128) (flat_map utf8_bytes l) -> Forall (fun c => c < 128) l.
Proof.
  induction l as [|c l IH]; [auto|]. cbn [flat_map]. rewrite Forall_app. intros [H1 H2].
  constructor; auto. destruct (N.lt_ge_cases c 128) as [H|H]; auto.
  destruct (utf8_bytes_nonascii c H) as (b & t & E & Hb). rewrite E in H1. inversion H1; subst. lia.
Qed.

(** ** One label *)
Lemma find_none_forall {A} (f : A -> bool) l : find f l = None <-> Forall (fun x => f x = false) l.
Proof.
  induction l as [|x l IH]; simpl; [split; auto|]. destruct (f x) eqn:E.
  - split; [discriminate|]. intros H. inversion H; congruence.
  - rewrite IH. split; intros H; [constructor; auto | now inversion H].
Qed.

Lemma host_part_spec p :
  host_part p = None <->
  (1 <= List.length p <= 63)%nat /\ Forall (fun c => host_char c = true) p /\
  hd 0 p <> 45 /\ List.last p 0 <> 45.
Proof.
  unfold host_part, blen.
  destruct ((_ =? 0) || _) eqn:E1; [split; [discriminate|lia]|].
  destruct (hd 0 p =? 45) eqn:E2; [split; [discriminate|lia]|].
  destruct (List.last p 0 =? 45) eqn:E3; [split; [discriminate|lia]|].
  assert (Hr : find (fun r => negb (host_char r)) (runes p) = None <-> Forall (fun c => host_char c = true) p).
  { rewrite find_none_forall. split; intros H.
    - assert (Ha : is_ascii (runes p) = true).
      { unfold is_ascii. apply forallb_forall. rewrite Forall_forall in H.
        intros x Hx. apply H in Hx. unfold host_char, rng in Hx. lia. }
      apply runes_ascii_inv in Ha. rewrite Ha in H. revert H. apply Forall_impl.
      intros c. now rewrite negb_false_iff.
    - rewrite runes_ascii.
      + revert H. apply Forall_impl. intros c ->. reflexivity.
      + unfold is_ascii. apply forallb_forall. rewrite Forall_forall in H.
        intros x Hx. apply H in Hx. unfold host_char, rng in Hx. lia. }
  destruct (find _ _) eqn:Ef.
  - split; [discriminate|]. intros (_ & H & _). apply Hr in H. discriminate.
  - split; auto. intros _. split; [lia|]. split; [now apply Hr|lia].
Qed.

Lemma hd_map (f : N -> N) l : l <> [] -> hd 0 (map f l) = f (hd 0 l).
Proof. destruct l; [congruence|reflexivity]. Qed.

Lemma last_map (f : N -> N) l : l <> [] -> List.last (map f l) 0 = f (List.last l 0).
Proof.
  induction l as [|x l IH]; [congruence|]. intros _. destruct l as [|y l]; [reflexivity|].
  cbn [map] in *. cbn [List.last] in *. rewrite IH by discriminate. reflexivity.
Qed.

Lemma host_part_label l : host_part (map lower l) = None <-> host_label l.
Proof.
  rewrite host_part_spec. unfold host_label. rewrite map_length.
  assert (Hf : Forall (fun c => host_char c = true) (map lower l) <-> Forall host_letter l).
  { rewrite Forall_map. split; apply Forall_impl; intros c; apply lower_host. }
  destruct l as [|x l].
  - simpl. split; intros H; lia.
  - rewrite hd_map, last_map by discriminate. rewrite lower_hyphen, lower_hyphen. tauto.
Qed.

Lemma first_err_none {A E} (f : A -> option E) l : first_err f l = None <-> Forall (fun x => f x = None) l.
Proof.
  induction l as [|x l IH]; simpl; [split; auto|]. destruct (f x) eqn:Ex.
  - split; [discriminate|]. intros H. inversion H; congruence.
  - rewrite IH. split; intros H; [constructor; auto | now inversion H].
Qed.

Lemma trim_dot_yes d : trim_suffix (d ++ [46]) [46] = d.
Proof.
  unfold trim_suffix. replace (has_suffix (d ++ [46]) [46]) with true.
  - rewrite app_length. cbn [List.length]. replace (_ + 1 - 1)%nat with (List.length d) by lia.
    rewrite firstn_app, firstn_all, Nat.sub_diag. simpl. now rewrite app_nil_r.
  - symmetry. apply has_suffix_spec. now exists d.
Qed.

Lemma trim_dot_cases s :
  (exists d, s = d ++ [46] /\ trim_suffix s [46] = d) \/
  ((forall d, s <> d ++ [46]) /\ trim_suffix s [46] = s).
Proof.
  destruct (has_suffix s [46]) eqn:E.
  - apply has_suffix_spec in E. destruct E as [d ->]. left. exists d. split; auto. apply trim_dot_yes.
  - right. split.
    + intros d Hd. assert (has_suffix s [46] = true) by (apply has_suffix_spec; now exists d). congruence.
    + unfold trim_suffix. now rewrite E.
Qed.

(** The labels of a lower-cased name are all fine iff it is a join of host labels. *)
Lemma host_parts_spec d :
  first_err host_part (split_on 46 (to_lower d)) = None <->
  exists labels, labels <> [] /\ Forall host_label labels /\
    d = join_dots (map (flat_map utf8_bytes) labels).
Proof.
  rewrite first_err_none. unfold to_lower.
  assert (Hs : Forall scalar_value (map lower (runes d))).
  { rewrite Forall_map. eapply Forall_impl; [|apply runes_scalar]. intros c. apply lower_scalar. }
  rewrite (utf8_encode_bytes _ Hs). split.
  - intros H.
    assert (Ha : Forall (fun c => c < 128) (flat_map utf8_bytes (map lower (runes d)))).
    { rewrite <- (split_join (flat_map _ _)).
      remember (split_on 46 (flat_map utf8_bytes (map lower (runes d)))) as ps eqn:Eps. clear Eps.
      induction ps as [|p ps IH]; [constructor|]. inversion H as [|? ? Hp Hps]; subst.
      assert (Hp' : Forall (fun c => c < 128) p).
      { apply host_part_spec in Hp. destruct Hp as (_ & Hp & _). revert Hp. apply Forall_impl.
        intros c. unfold host_char, rng. lia. }
      destruct ps as [|q ps]; [exact Hp'|]. rewrite join_dots_cons by discriminate.
      apply Forall_app. split; auto. constructor; [lia|auto]. }
    apply flat_utf8_ascii_inv in Ha. rewrite (flat_utf8_ascii _ Ha) in H.
    rewrite split_on_map in H by apply lower_dot. rewrite Forall_map in H.
    exists (split_on 46 (runes d)). split; [apply split_on_ne|]. split.
    + revert H. apply Forall_impl. intros l. apply host_part_label.
    + rewrite <- flat_map_join, split_join. symmetry. apply runes_exact.
      intros Hin. apply (in_map lower) in Hin. rewrite Forall_forall in Ha. apply Ha in Hin.
      vm_compute in Hin. discriminate.
  - intros (labels & Hne & Hl & ->).
    assert (Hsc : Forall (Forall scalar_value) labels).
    { revert Hl. apply Forall_impl. intros l (_ & Hc & _). revert Hc. apply Forall_impl.
      intros c. unfold host_letter, alnum, scalar_value. lia. }
    assert (Hr : runes (join_dots (map (flat_map utf8_bytes) labels)) = join_dots labels).
    { rewrite <- flat_map_join. rewrite <- (app_nil_r (flat_map _ _)).
      rewrite runes_app_char_list; [cbn [runes]; apply app_nil_r|].
      clear -Hsc. induction labels as [|l ls IH]; [constructor|]. inversion Hsc; subst.
      destruct ls; [assumption|]. rewrite join_dots_cons by discriminate.
      apply Forall_app. split; auto. constructor; auto. unfold scalar_value. lia. }
    rewrite Hr.
    assert (Hlow : Forall (fun c => c < 128) (map lower (join_dots labels))).
    { rewrite Forall_map. clear -Hl. induction labels as [|l ls IH]; [constructor|]. inversion Hl; subst.
      assert (Hx : Forall (fun c => lower c < 128) l).
      { destruct H1 as (_ & Hc & _). revert Hc. apply Forall_impl. intros c Hc.
        apply lower_host in Hc. unfold host_char, rng in Hc. lia. }
      destruct ls; [exact Hx|]. rewrite join_dots_cons by discriminate.
      apply Forall_app. split; auto. constructor; auto. vm_compute. reflexivity. }
    rewrite (flat_utf8_ascii _ Hlow), split_on_map by apply lower_dot.
    rewrite join_split; auto.
    + rewrite Forall_map. revert Hl. apply Forall_impl. intros l. apply host_part_label.
    + revert Hl. apply Forall_impl. intros l (_ & Hc & _) Hin. rewrite Forall_forall in Hc.
      apply Hc in Hin. unfold host_letter, alnum in Hin. lia.
Qed.

(** A join of labels does not end with a dot. *)
Lemma app_last_inj {A} (a b : list A) x y : a ++ [x] = b ++ [y] -> a = b /\ x = y.
Proof. apply app_inj_tail. Qed.

Lemma label_last_byte l : host_label l -> exists t b, flat_map utf8_bytes l = t ++ [b] /\ b <> 46.
Proof.
  intros (Hl & Hc & _). destruct l as [|x l] using rev_ind; [simpl in Hl; lia|].
  clear IHl. rewrite flat_map_app. cbn [flat_map]. rewrite app_nil_r.
  apply Forall_app in Hc. destruct Hc as [_ Hc]. inversion Hc; subst.
  assert (exists t b, utf8_bytes x = t ++ [b] /\ b <> 46) as (t & b & E & Hb).
  { unfold host_letter in H1. destruct H1 as [H1|[->|[->| ->]]].
    - exists [], x. unfold alnum in H1. rewrite utf8_bytes_ascii by lia. split; [reflexivity|lia].
    - exists [], 45. split; [reflexivity|lia].
    - exists [226; 132], 170. split; [reflexivity|lia].
    - exists [196], 176. split; [reflexivity|lia]. }
  exists (flat_map utf8_bytes l ++ t), b. rewrite E, app_assoc. auto.
Qed.

Lemma join_last labels : labels <> [] -> Forall host_label labels ->
  exists t b, join_dots (map (flat_map utf8_bytes) labels) = t ++ [b] /\ b <> 46.
Proof.
  induction labels as [|l ls IH]; [congruence|]. intros _ H. inversion H; subst.
  destruct ls as [|l2 ls].
  - apply label_last_byte in H2. exact H2.
  - destruct IH as (t & b & E & Hb); auto; [discriminate|].
    cbn [map] in *. rewrite join_dots_cons by discriminate. rewrite E.
    exists (flat_map utf8_bytes l ++ [46] ++ t), b. rewrite <- !app_assoc. auto.
Qed.

Theorem validate_hostname_spec s : validate_hostname s = None <-> hostname s.
Proof.
  unfold validate_hostname, hostname, blen.
  destruct (253 <? _) eqn:E; [split; [discriminate|lia]|].
  rewrite host_parts_spec. split.
  - intros (labels & Hne & Hl & Hd). split; [lia|]. exists labels. repeat split; auto.
    destruct (trim_dot_cases s) as [(d & -> & Ht)|(_ & Ht)]; rewrite Ht in Hd; subst; auto.
  - intros (_ & labels & Hne & Hl & Hd). exists labels. repeat split; auto. cbn zeta in Hd.
    destruct Hd as [->| ->]; [|apply trim_dot_yes].
    destruct (trim_dot_cases (join_dots (map (flat_map utf8_bytes) labels))) as [(d & E1 & _)|(_ & Ht)]; auto.
    destruct (join_last labels Hne Hl) as (t & b & E2 & Hb). rewrite E2 in E1.
    apply app_last_inj in E1. destruct E1. congruence.
Qed.

(** ** E-mail *)
Lemma split_at_spec s l d : split_at s = Some (l, d) <-> s = l ++ [64] ++ d /\ ~ In 64 l.
Proof.
  revert l d. induction s as [|c s IH]; intros l d; cbn [split_at].
  - split; [discriminate|]. intros [H _]. destruct l; discriminate.
  - destruct (c =? 64) eqn:E.
    + apply N.eqb_eq in E. subst. split.
      * intros H. inversion H; subst. split; auto.
      * intros [H1 H2]. destruct l as [|x l]; [inversion H1; reflexivity|].
        inversion H1; subst. elim H2. now left.
    + destruct (split_at s) as [[a b]|] eqn:Es.
      * split.
        -- intros H. inversion H; subst. destruct (proj1 (IH a d) eq_refl) as [-> Hn].
           split; [reflexivity|]. cbn [In]. intros [H1|H1]; [lia|auto].
        -- intros [H1 H2]. destruct l as [|x l]; [inversion H1; lia|]. inversion H1; subst.
           assert (Hx : Some (a, b) = Some (l, d)); [|inversion Hx; reflexivity].
           apply IH. split; auto. intros H. apply H2. now right.
      * split; [discriminate|]. intros [H1 H2]. destruct l as [|x l]; [inversion H1; lia|].
        inversion H1; subst. assert (Hx : None = Some (l, d)); [|discriminate].
        apply IH. split; auto. intros H. apply H2. now right.
Qed.

Lemma validate_email_spec p : validate_email p = None <-> email_ok p.
Proof.
  unfold validate_email, email_ok. destruct p as [addr|].
  2:{ split; [discriminate|]. intros (l & d & H & _). discriminate. }
  unfold blen. destruct (254 <? _) eqn:E.
  { split; [discriminate|]. intros (l & d & H & _ & H2 & _). inversion H; subst. cbn [app] in *. lia. }
  destruct (split_at addr) as [[l d]|] eqn:Es.
  - apply split_at_spec in Es. destruct Es as [-> Hn].
    destruct (64 <? _) eqn:E2.
    + split; [discriminate|]. intros (l' & d' & H & Hn' & _ & H2 & _). inversion H as [H3].
      assert (Hx : split_at (l ++ [64] ++ d) = Some (l, d)) by now apply split_at_spec.
      assert (Hy : split_at (l ++ [64] ++ d) = Some (l', d')) by (apply split_at_spec; auto).
      rewrite Hx in Hy. inversion Hy; subst. lia.
    + destruct (validate_hostname d) eqn:Eh.
      * split; [discriminate|]. intros (l' & d' & H & Hn' & _ & _ & H2). inversion H as [H3].
        assert (Hx : split_at (l ++ [64] ++ d) = Some (l, d)) by now apply split_at_spec.
        assert (Hy : split_at (l ++ [64] ++ d) = Some (l', d')) by (apply split_at_spec; auto).
        rewrite Hx in Hy. inversion Hy; subst. apply validate_hostname_spec in H2. congruence.
      * split; auto. intros _. exists l, d. apply validate_hostname_spec in Eh.
        split; [reflexivity|]. split; [exact Hn|]. split; [lia|]. split; [lia|exact Eh].
  - split; [discriminate|]. intros (l' & d' & H & Hn' & _). inversion H; subst.
    assert (Hy : split_at (l' ++ [64] ++ d') = Some (l', d')) by (apply split_at_spec; auto). congruence.
Qed.

(** ** IP addresses *)
Lemma forallb_zero l : forallb (N.eqb 0) l = true <-> l = repeat 0 (List.length l).
Proof.
  induction l as [|x l IH]; [split; reflexivity|]. cbn [forallb List.length repeat].
  rewrite andb_true_iff, IH, N.eqb_eq. split.
  - intros [<- H]. now rewrite <- H.
  - intros H. apply cons_inv in H. destruct H as [-> H]. auto.
Qed.

Lemma is_mapped16_spec ip : is_mapped16 ip = true <-> mapped4 ip.
Proof.
  unfold is_mapped16, mapped4. rewrite !andb_true_iff, Nat.eqb_eq, bytes_eqb_eq. split.
  - intros [[H1 H2] H3]. exists (skipn 12 ip). split; [rewrite skipn_length; lia|].
    rewrite <- (firstn_skipn 10 ip) at 1. apply forallb_zero in H2.
    rewrite firstn_length in H2. replace (Nat.min 10 (List.length ip)) with 10%nat in H2 by lia.
    rewrite H2. f_equal. rewrite <- (firstn_skipn 2 (skipn 10 ip)) at 1. rewrite H3. f_equal.
    do 12 (destruct ip as [|? ip]; [discriminate H1|]). reflexivity.
  - intros (a & Ha & ->). repeat split; try reflexivity.
    rewrite app_length, repeat_length. cbn [List.length app]. lia.
Qed.

Lemma to4_ok_spec ip : to4_ok ip = true <-> ip4_bytes ip.
Proof. unfold to4_ok, ip4_bytes. rewrite orb_true_iff, Nat.eqb_eq, is_mapped16_spec. reflexivity. Qed.

Lemma to16_ok_spec ip : to16_ok ip = true <-> ip_bytes ip.
Proof. unfold to16_ok, ip_bytes. rewrite orb_true_iff, !Nat.eqb_eq. reflexivity. Qed.
