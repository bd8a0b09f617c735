(** Facts about names and tables in C++. *)
From Coq Require Import Lia.
From Verif Require Import Base BaseFacts Num Rules Types JavaName JavaNameSpec JavaNameFacts JavaNameLookup JavaConst JavaConstSpec JavaConstFacts CcName CcNameSpec.
Local Open Scope N_scope.

(** ** Accessors *)
Lemma longer {A} (a : A) s : s <> s ++ [a].
Proof. intros H. apply (f_equal (@List.length A)) in H. rewrite app_length in H. cbn in H. lia. Qed.
Lemma keyword_in n : existsb (bytes_eqb n) keywords = true <-> In n keywords.
Proof. rewrite existsb_exists. split; [intros (x & H & E); apply bytes_eqb_eq in E; now subst|intros H; exists n; split; auto; now apply bytes_eqb_eq]. Qed.
Lemma method_iff n : method_name n = cpp_name n <-> small n = n /\ (In n keywords -> n = bs "const" \/ n = bs "inline").
Proof.
  unfold method_name, cpp_name. destruct (bytes_eqb n (bs "const")) eqn:C.
  { apply bytes_eqb_eq in C. subst n. split; [split; [reflexivity|auto]|intros _; vm_compute; reflexivity]. }
  destruct (bytes_eqb n (bs "inline")) eqn:I.
  { apply bytes_eqb_eq in I. subst n. split; [split; [reflexivity|auto]|intros _; vm_compute; reflexivity]. }
  assert (X : n = bs "const" \/ n = bs "inline" -> False).
  { intros [H|H]; apply bytes_eqb_eq in H; congruence. }
  destruct (existsb (bytes_eqb (small n)) keywords) eqn:K.
  - split.
    + intros H. apply (f_equal (@List.length N)) in H. unfold small in H. rewrite app_length, map_length in H. cbn in H. lia.
    + intros [S H]. rewrite S in K. apply keyword_in in K. now elim X; auto.
  - split.
    + intros H. split; auto. intros W. rewrite <- H in K. apply keyword_in in W. congruence.
    + intros [S _]. now rewrite S.
Qed.
Lemma accessor_iff n : cc_accessor n = cpp_getter n <-> small n = n /\ (In n keywords -> n = bs "const" \/ n = bs "inline").
Proof.
  rewrite <- method_iff. unfold cc_accessor, cpp_getter. split; [|now intros ->]. intros H. apply app_inv_head in H. now apply app_inv_tail in H.
Qed.
Lemma has_iff n : cc_has n = cpp_has n <-> small n = n /\ (In n keywords -> n = bs "const" \/ n = bs "inline").
Proof. rewrite <- method_iff. unfold cc_has, cpp_has. split; [|now intros ->]. intros H. apply app_inv_head in H. now apply app_inv_tail in H. Qed.

(** ** Cases of oneofs *)
Lemma lower_95 cap c : lowerb c = true -> ((if cap : bool then c - 32 else c) =? 95) = false.
Proof. unfold lowerb. intros H. apply andb_true_iff in H. destruct H as [A B]. apply N.leb_le in A, B. apply N.eqb_neq. destruct cap; lia. Qed.
Definition no95 (s : bytes) : bytes := filter (fun c => negb (c =? 95)) s.
Lemma pgg_java s : forall cap, ident s = true -> no95 (pgg_from cap s) = java_camel cap s.
Proof.
  induction s as [|c s IH]; intros cap I; [reflexivity|]. apply ident_cons in I. destruct I as [Ic I]. cbn [pgg_from java_camel].
  destruct (lowerb c) eqn:L.
  - unfold no95. cbn [filter]. rewrite (lower_95 cap c L). cbn [negb]. f_equal. now apply IH.
  - destruct (c =? 95) eqn:U.
    + apply N.eqb_eq in U. subst c. change (upperb 95) with false. change (digitb 95) with false. cbn iota.
      destruct (head_is lowerb s); [now apply IH|]. unfold no95. cbn [filter]. change (negb (95 =? 95)) with false. cbn iota. now apply IH.
    + unfold no95. cbn [filter]. rewrite U. cbn [negb]. destruct (upperb c) eqn:P.
      * rewrite (up_di c P). f_equal. now apply IH.
      * destruct (digitb c) eqn:D; [f_equal; now apply IH|]. unfold ident_char, letterb in Ic. rewrite P, L, D, U in Ic. discriminate.
Qed.
Lemma no95_id s : no95 s = s <-> ~ In 95 s.
Proof.
  unfold no95. split.
  - intros H J. rewrite <- H in J. apply filter_In in J. destruct J as [_ J]. discriminate.
  - induction s as [|c s IH]; intros H; [reflexivity|]. cbn [filter]. destruct (c =? 95) eqn:U.
    + apply N.eqb_eq in U. subst c. elim H. now left.
    + cbn. f_equal. apply IH. intros J. apply H. now right.
Qed.
Lemma pgg_tidy s : forall cap, ident s = true -> (~ In 95 (pgg_from cap s) <-> tidy s = true).
Proof.
  induction s as [|c s IH]; intros cap I; [cbn; tauto|]. apply ident_cons in I. destruct I as [Ic I]. cbn [pgg_from tidy].
  destruct (lowerb c) eqn:L.
  - rewrite (lo_95 c L). cbn [andb negb]. rewrite <- (IH false I). cbn [In]. split; [tauto|]. intros H [J|J]; [|tauto].
    apply N.eqb_eq in J. rewrite (lower_95 cap c L) in J. discriminate.
  - destruct (c =? 95) eqn:U; [destruct (head_is lowerb s) eqn:H|]; cbn [andb negb].
    + now apply IH.
    + split; [|discriminate]. intros J. elim J. now left.
    + rewrite <- (IH (digitb c) I). cbn [In]. split; [tauto|]. intros H [J|J]; [|tauto]. subst c. discriminate.
Qed.
Lemma head_95 s : head_is (N.eqb 95) s = true -> exists t, s = 95 :: t.
Proof. destruct s as [|c t]; [discriminate|]. cbn [head_is]. intros H. apply N.eqb_eq in H. subst c. eauto. Qed.
Lemma filter_len {A} (p : A -> bool) l : (List.length (filter p l) <= List.length l)%nat.
Proof. induction l as [|a l IH]; cbn; [lia|]. destruct (p a); cbn; lia. Qed.
Lemma case_constant_iff n : ident n = true -> (case_constant n = cpp_case_constant n <-> head_is (N.eqb 95) n = false).
Proof.
  intros I. unfold case_constant, cpp_case_constant, pgg. fold (no95). destruct (head_is (N.eqb 95) n) eqn:H.
  - split; [|discriminate]. intros E. apply app_inv_head in E. destruct (head_95 n H) as (t & ->). cbn [tl] in E. apply ident_cons in I. destruct I as [_ I].
    cbn [filter] in E. change (negb (88 =? 95)) with true in E. cbn iota in E. change (filter (fun c : N => negb (c =? 95)) (pgg_from true t)) with (no95 (pgg_from true t)) in E.
    rewrite (pgg_java t true I) in E. cbn [java_camel] in E. change (lowerb 95) with false in E. change (upperb 95) with false in E. change (digitb 95) with false in E. cbn iota in E.
    apply (f_equal (@List.length N)) in E. cbn in E. lia.
  - split; [reflexivity|]. intros _. f_equal. exact (pgg_java n true I).
Qed.
Lemma case_type_iff n : ident n = true -> (case_type n = cpp_case_type n <-> tidy_name n = true).
Proof.
  intros I. unfold case_type, cpp_case_type, tidy_name, pgg. destruct (head_is (N.eqb 95) n) eqn:H; cbn [negb andb].
  - split; [|discriminate]. intros E. apply app_inv_tail in E. destruct (head_95 n H) as (t & ->). cbn [tl] in E. apply ident_cons in I. destruct I as [_ I].
    cbn [java_camel] in E. change (lowerb 95) with false in E. change (upperb 95) with false in E. change (digitb 95) with false in E. cbn iota in E.
    rewrite <- (pgg_java t true I) in E. apply (f_equal (@List.length N)) in E. pose proof (filter_len (fun c : N => negb (c =? 95)) (pgg_from true t)).
    unfold no95 in E. cbn in E. lia.
  - rewrite <- (pgg_tidy n true I), <- no95_id, (pgg_java n true I). split; [|now intros ->]. intros E. now apply app_inv_tail in E.
Qed.

(** ** Classes *)
Lemma joined_base p : class_base p = names_joined p.
Proof. induction p as [|a [|b l] IH]; [reflexivity|reflexivity|]. unfold class_base in *. cbn [join names_joined] in *. now rewrite IH. Qed.
Lemma split_dots l : l <> [] -> (forall n, In n l -> ~ In 46 n) -> split_on 46 (dotted_package l) = l.
Proof.
  assert (S : forall n, ~ In 46 n -> split_on 46 n = [n]).
  { induction n as [|c n IH]; intros N; [reflexivity|]. cbn [split_on]. destruct (c =? 46) eqn:E; [apply N.eqb_eq in E; subst c; elim N; now left|].
    rewrite IH; [reflexivity|]. intros J. apply N. now right. }
  assert (T : forall n x, ~ In 46 n -> split_on 46 (n ++ 46 :: x) = n :: split_on 46 x).
  { induction n as [|c n IH]; intros x N; [reflexivity|]. cbn [app split_on]. destruct (c =? 46) eqn:E; [apply N.eqb_eq in E; subst c; elim N; now left|].
    rewrite IH; [reflexivity|]. intros J. apply N. now right. }
  induction l as [|a [|b l] IH]; intros NE H; [now elim NE|apply S; apply H; now left|]. cbn [dotted_package] in *. change (bs ".") with [46]. cbn [app].
  rewrite T by (apply H; now left). f_equal. apply IH; [discriminate|]. intros n N. apply H. now right.
Qed.
Lemma join_colons l p : l <> [] -> bs "::" ++ join (bs "::") l ++ bs "::" ++ p = flat_map (fun n => bs "::" ++ n) l ++ bs "::" ++ p.
Proof.
  induction l as [|a [|b l] IH]; intros NE; [now elim NE| |].
  - cbn [join flat_map]. rewrite app_nil_r. now rewrite <- app_assoc.
  - cbn [flat_map]. rewrite <- !app_assoc. rewrite flat_map_cons in IH || idtac. cbn [join]. rewrite <- !app_assoc. f_equal. f_equal.
    specialize (IH ltac:(discriminate)). cbn [flat_map] in IH. rewrite <- !app_assoc in IH. exact IH.
Qed.
Lemma class_agrees words l p : (2 <= List.length l)%nat -> (forall n, In n l -> identifier n = true) -> class_name words (dotted_package l) p = cpp_class l p.
Proof.
  intros L I. assert (D : forall n, In n l -> ~ In 46 n).
  { intros n N J. specialize (I n N). apply identifier_ident in I. unfold ident in I. rewrite forallb_forall in I. specialize (I 46 J). discriminate. }
  assert (NE : l <> []) by (intros ->; cbn in L; lia). unfold class_name, package_name, cpp_class. rewrite joined_base, <- (join_colons l _ NE), <- app_assoc.
  replace (name_split words (dotted_package l)) with l; [reflexivity|]. symmetry. unfold name_split.
  assert (X : existsb (N.eqb 46) (dotted_package l) = true).
  { destruct l as [|a [|b l]]; cbn in L; try lia. cbn [dotted_package]. apply existsb_exists. exists 46. split; [|reflexivity]. apply in_or_app. right. now left. }
  destruct (dotted_package l) eqn:E; [discriminate X|]. rewrite X, <- E. now apply split_dots.
Qed.
Lemma class_single words n p : identifier n = true -> (forall i, last_index 95 n = Some i -> i = O) -> words n = [n] -> class_name words n p = cpp_class [n] p.
Proof.
  intros I U W. unfold class_name, package_name, cpp_class. rewrite joined_base. cbn [flat_map]. rewrite app_nil_r, <- app_assoc.
  replace (name_split words n) with [n]; [reflexivity|]. symmetry. unfold name_split. destruct n as [|c n]; [discriminate|].
  destruct (existsb (N.eqb 46) (c :: n)) eqn:E.
  { apply existsb_exists in E. destruct E as (x & X & E). apply N.eqb_eq in E. subst x. apply identifier_ident in I. unfold ident in I. rewrite forallb_forall in I.
    specialize (I 46 X). discriminate. }
  destruct (last_index 95 (c :: n)) as [[|i]|] eqn:L; auto. specialize (U _ eq_refl). discriminate.
Qed.
Lemma static_distinct words pkg p q : (forall n, In n p \/ In n q -> identifier n = true) -> static_var words pkg p = static_var words pkg q ->
  names_joined p = names_joined q.
Proof.
  intros I E. unfold static_var, class_name in E. rewrite !map_app in E. apply app_inv_head in E. apply app_inv_head in E. apply app_inv_head in E. rewrite !joined_base in E.
  assert (X : forall l, (forall n, In n l -> identifier n = true) -> map (fun c => if c =? 58 then 95 else c) (names_joined l) = names_joined l).
  { assert (Y : forall n, identifier n = true -> map (fun c => if c =? 58 then 95 else c) n = n).
    { intros n H. apply identifier_ident in H. induction n as [|c n IH]; [reflexivity|]. apply ident_cons in H. destruct H as [C H]. cbn [map]. rewrite (IH H).
      destruct (c =? 58) eqn:Q; [apply N.eqb_eq in Q; subst c; discriminate|reflexivity]. }
    induction l as [|a [|b l] IH]; intros H; [reflexivity|apply Y; apply H; now left|].
    change (names_joined (a :: b :: l)) with (a ++ bs "_" ++ names_joined (b :: l)). rewrite !map_app, Y by (apply H; now left).
    rewrite IH; [reflexivity|]. intros n N. apply H. now right. }
  rewrite !X in E; auto.
Qed.

(** ** Names of tables *)
Lemma squash_cons c s : squash (c :: s) = (if c =? 95 then [] else [loc c]) ++ squash s.
Proof. unfold squash. cbn [filter]. destruct (c =? 95); reflexivity. Qed.
Lemma squash_pgg s : forall cap, squash (pgg_from cap s) = squash s.
Proof.
  induction s as [|c s IH]; intros cap; [reflexivity|]. cbn [pgg_from]. destruct (lowerb c) eqn:L.
  - rewrite !squash_cons, IH, (lower_95 cap c L), (lo_95 c L). do 2 f_equal. destruct cap; [|reflexivity]. unfold loc. rewrite (lo_upc_up c L), (lo_up c L).
    unfold lowerb in L. apply andb_true_iff in L. destruct L as [A _]. apply N.leb_le in A. lia.
  - destruct (c =? 95) eqn:U; [destruct (head_is lowerb s)|]; rewrite ?squash_cons, ?U, IH; auto. 
Qed.
Lemma pgg_inj f g : head_is (N.eqb 95) f = false -> head_is (N.eqb 95) g = false -> pgg f = pgg g -> squash f = squash g.
Proof. intros F G E. unfold pgg in E. rewrite F, G in E. apply (f_equal squash) in E. now rewrite !squash_pgg in E. Qed.
Lemma split_us a b : ~ In 95 a -> ~ In 95 b -> forall x y, a ++ 95 :: x = b ++ 95 :: y -> a = b /\ x = y.
Proof.
  revert b. induction a as [|c a IH]; intros [|d b] A B x y E; cbn in E.
  - now injection E as <-.
  - injection E as <- _. elim B. now left.
  - injection E as -> _. elim A. now left.
  - injection E as -> E. destruct (IH b) with x y as [-> ->]; auto; intros J; [apply A|apply B]; now right.
Qed.
Lemma split_last a b x y : ~ In 95 x -> ~ In 95 y -> a ++ 95 :: x = b ++ 95 :: y -> a = b /\ x = y.
Proof.
  intros X Y E. apply (f_equal (@rev N)) in E. rewrite !rev_app_distr in E. cbn [rev] in E. rewrite <- !app_assoc in E. cbn [app] in E.
  destruct (split_us (rev x) (rev y)) with (rev a) (rev b) as [P Q]; auto; try (intros J; apply in_rev in J; tauto).
  split; [rewrite <- (rev_involutive a), <- (rev_involutive b)|rewrite <- (rev_involutive x), <- (rev_involutive y)]; congruence.
Qed.
Lemma lookup_inj m f t m' f' t' : ~ In 95 (pgg m) -> ~ In 95 (pgg m') -> lookup m f t = lookup m' f' t' -> pgg m = pgg m' /\ pgg f = pgg f' /\ t = t'.
Proof.
  intros M M' E. unfold lookup in E. apply app_inv_head in E. change (bs "_") with [95] in E. cbn [app] in E. apply split_us in E; auto. destruct E as [-> E].
  apply split_last in E; try (destruct t; cbn; intuition discriminate); try (destruct t'; cbn; intuition discriminate). destruct E as [-> E]. refine (conj eq_refl (conj eq_refl _)).
  destruct t, t'; auto; discriminate E.
Qed.
