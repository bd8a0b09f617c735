(** The names of the classes for messages, what reflection finds, and the accessors. *)
From Coq Require Import Lia.
From Verif Require Import Base BaseFacts Lit LitFacts JavaName JavaNameSpec JavaNameFacts.
Local Open Scope N_scope.

(** * [keeps] *)
Lemma keeps_false d s : keeps d s = true -> keeps false s = true.
Proof. destruct s as [|c s]; [reflexivity|]. cbn [keeps andb negb]. intros H. now apply andb_true_iff in H. Qed.
Lemma java_keeps s : forall c, keeps c (java_camel c s) = true.
Proof.
  induction s as [|a s IH]; intros c; [reflexivity|]. cbn [java_camel]. destruct (lowerb a) eqn:L.
  - cbn [keeps]. destruct c; cbn [andb negb].
    + rewrite (lo_upc a L). cbn [negb andb]. rewrite (up_di _ (lo_upc_up a L)). apply IH.
    + rewrite (lo_di a L). apply IH.
  - destruct (upperb a) eqn:U; [cbn [keeps]; rewrite L, andb_false_r, (up_di a U); apply IH|].
    destruct (digitb a) eqn:D; [cbn [keeps]; rewrite L, andb_false_r, D; apply IH|]. destruct c; auto. apply (keeps_false true), IH.
Qed.
Lemma replace_keeps s : (forall d, keeps d s = true -> keeps d (replace_at escape [95] 0 s) = true) /\
  (forall d k, keeps d s = true -> keeps false (replace_at escape [95] k s) = true).
Proof.
  induction s as [|a s [I1 I2]]; [split; reflexivity|]. assert (J : forall d, keeps d (a :: s) = true -> keeps d (replace_at escape [95] 0 (a :: s)) = true).
  { intros d H. cbn [keeps] in H. apply andb_true_iff in H. destruct H as [H1 H2]. cbn [replace_at]. destruct (has_prefix (a :: s) escape).
    - cbn [app keeps]. change (lowerb 95) with false. change (digitb 95) with false. rewrite andb_false_r. cbn [negb andb]. now apply (I2 (digitb a)).
    - cbn [keeps]. rewrite H1. now apply I1. }
  split; auto. intros d k H. destruct k as [|k]; [now apply J, (keeps_false d)|]. cbn [replace_at]. cbn [keeps] in H. apply andb_true_iff in H. now apply (I2 (digitb a)).
Qed.
Lemma class_keeps n : keeps true (class_msg n) = true.
Proof.
  unfold class_msg, replace_all. change escape with (85 :: tl escape) at 1. cbn iota. apply replace_keeps. unfold sanitize.
  rewrite to_camel_java by apply snake_is_ident. apply java_keeps.
Qed.

(** * classNameMessage *)
Definition esc (n : bytes) : bytes := flat_map (fun c => if c =? 95 then escape else [c]) n.
Lemma esc_replace n : replace_all n [95] escape = esc n.
Proof.
  unfold replace_all. induction n as [|c n IH]; [reflexivity|]. cbn [replace_at esc flat_map].
  assert (E : has_prefix (c :: n) [95] = (c =? 95)) by (unfold has_prefix; cbn; now rewrite andb_true_r). rewrite E.
  destruct (c =? 95); [|cbn [app]; now rewrite IH]. cbn [List.length Nat.sub]. now rewrite IH.
Qed.
Definition alnum (s : bytes) : bool := forallb (fun c => letterb c || digitb c) s.
Lemma esc_alnum n : ident n = true -> alnum (esc n) = true.
Proof.
  induction n as [|c n IH]; intros I; [reflexivity|]. apply ident_cons in I. destruct I as [Ic I]. cbn [esc flat_map]. unfold alnum.
  rewrite forallb_app. pose proof (IH I) as J. unfold alnum, esc in J. rewrite J, andb_true_r. destruct (c =? 95) eqn:E; [reflexivity|].
  cbn [forallb]. unfold ident_char in Ic. rewrite E, orb_false_r in Ic. now rewrite Ic.
Qed.
Lemma keeps_app_escape d s : keeps d (escape ++ s) = keeps false s.
Proof. cbn [escape bs app]. destruct d; reflexivity. Qed.
Lemma esc_keeps n : forall d, keeps d (esc n) = keeps d n.
Proof.
  induction n as [|c n IH]; intros d; [reflexivity|]. cbn [esc flat_map]. fold (esc n). destruct (N.eqb_spec c 95) as [->|N].
  - rewrite keeps_app_escape. cbn [keeps]. change (lowerb 95) with false. change (digitb 95) with false. rewrite andb_false_r. apply IH.
  - cbn [app keeps]. now rewrite IH.
Qed.
Lemma keeps_odd s : alnum s = true -> forall w, keeps w s = true -> odd w s = false.
Proof.
  induction s as [|a s IH]; intros A w K; [reflexivity|]. cbn [alnum forallb] in A. apply andb_true_iff in A. destruct A as [Aa A].
  cbn [keeps] in K. apply andb_true_iff in K. destruct K as [K1 K2]. apply negb_true_iff in K1. cbn [odd]. rewrite K1. cbn [andb orb].
  apply IH; auto. destruct (letterb a) eqn:L; cbn [negb].
  - now apply (keeps_false (digitb a)).
  - cbn [orb] in Aa. now rewrite Aa in K2.
Qed.
Lemma keeps_java s : alnum s = true -> forall c, keeps c s = true -> java_camel c s = s.
Proof.
  induction s as [|a s IH]; intros A c K; [reflexivity|]. cbn [alnum forallb] in A. apply andb_true_iff in A. destruct A as [Aa A].
  cbn [keeps] in K. apply andb_true_iff in K. destruct K as [K1 K2]. apply negb_true_iff in K1. cbn [java_camel]. unfold letterb in Aa.
  destruct (lowerb a) eqn:L.
  - rewrite andb_true_r in K1. subst c. rewrite (lo_di a L) in K2. now rewrite IH.
  - destruct (upperb a) eqn:U; [rewrite (up_di a U) in K2; now rewrite IH|]. cbn [orb] in Aa. rewrite Aa in *. now rewrite IH.
Qed.

(** ** Back from the escapes *)
Definition und : bytes := bs "Underscore".
Lemma prefix_step s p : has_prefix s p = true <-> exists u, s = p ++ u. Proof. apply prefix_app_iff. Qed.
Lemma esc_small w : forallb lowerb w = true -> forall n u, esc n = w ++ u -> exists v, n = w ++ v /\ esc v = u.
Proof.
  induction w as [|c w IH]; intros L n u E; [exists n; auto|]. cbn [forallb] in L. apply andb_true_iff in L. destruct L as [Lc L].
  destruct n as [|b n]; [discriminate|]. cbn [esc flat_map] in E. fold (esc n) in E. destruct (N.eqb_spec b 95).
  - cbn in E. injection E as <- _. discriminate Lc.
  - cbn [app] in E. injection E as -> E. destruct (IH L n u E) as (v & -> & V). exists v. auto.
Qed.
Lemma esc_und n u : esc n = und ++ u -> (exists v, n = und ++ v /\ esc v = u) \/ (exists v, n = 95 :: v).
Proof.
  destruct n as [|b n]; [discriminate|]. cbn [esc flat_map]. fold (esc n). destruct (N.eqb_spec b 95) as [->|]; [intros _; right; now exists n|].
  intros E. left. cbn [app] in E. change und with (85 :: tl und) in E. cbn [app] in E. injection E as -> E.
  destruct (esc_small (tl und) eq_refl n u E) as (v & -> & V). exists v. auto.
Qed.
Lemma skip_app p q w : forall s, replace_at p q (List.length w) (w ++ s) = replace_at p q 0 s.
Proof. induction w as [|c w IH]; intros s; [reflexivity|]. cbn [List.length app replace_at]. apply IH. Qed.
Lemma replace_hit p q s : p <> [] -> replace_at p q 0 (p ++ s) = q ++ replace_at p q 0 s.
Proof.
  intros N. destruct p as [|c p]; [congruence|]. cbn [app replace_at]. replace (has_prefix (c :: p ++ s) (c :: p)) with true by (symmetry; apply prefix_step; now exists s).
  cbn [List.length Nat.sub]. rewrite Nat.sub_0_r. now rewrite skip_app.
Qed.
Lemma replace_miss p q c s : has_prefix (c :: s) p = false -> replace_at p q 0 (c :: s) = c :: replace_at p q 0 s.
Proof. intros N. cbn [replace_at]. now rewrite N. Qed.
Lemma escape_und : escape = und ++ und ++ und. Proof. reflexivity. Qed.
Lemma und_under : bs "Underscore_" = und ++ [95]. Proof. reflexivity. Qed.
Lemma und_three : bs "UnderscoreUnderscoreUnderscore" = und ++ und ++ und. Proof. reflexivity. Qed.
Lemma escape_some : escape <> []. Proof. discriminate. Qed.
Lemma unesc n : unambiguous n -> replace_at escape [95] 0 (esc n) = n.
Proof.
  unfold unambiguous. rewrite und_under, und_three. intros [A B]. induction n as [|c n IH]; [reflexivity|].
  assert (R : replace_at escape [95] 0 (esc n) = n).
  { apply IH; [intros (a & b & ->); apply A; now exists (c :: a), b|intros (a & b & ->); apply B; now exists (c :: a), b]. }
  destruct (N.eqb_spec c 95) as [->|N].
  - change (esc (95 :: n)) with (escape ++ esc n). rewrite replace_hit by apply escape_some. now rewrite R.
  - assert (E : esc (c :: n) = c :: esc n) by (cbn [esc flat_map]; apply N.eqb_neq in N; now rewrite N). rewrite E.
    destruct (has_prefix (c :: esc n) escape) eqn:P; [|rewrite replace_miss by exact P; now rewrite R]. exfalso. apply prefix_step in P. destruct P as [u P].
    rewrite P, escape_und, <- !app_assoc in E. clear P.
    apply esc_und in E. destruct E as [(v & E & E')|(v & E)]; [|congruence].
    apply esc_und in E'. destruct E' as [(v' & -> & E')|(v' & ->)].
    + apply esc_und in E'. destruct E' as [(v'' & -> & _)|(v'' & ->)].
      * apply B. exists [], v''. rewrite <- !app_assoc. exact E.
      * apply A. exists und, v''. rewrite <- !app_assoc. exact E.
    + apply A. exists [], v'. rewrite <- !app_assoc. exact E.
Qed.
Lemma class_msg_same n : ident n = true -> unambiguous n -> keeps true n = true -> class_msg n = n.
Proof.
  intros I U K. unfold class_msg. rewrite esc_replace. rewrite sanitize_java by (apply keeps_odd; [now apply esc_alnum|now rewrite esc_keeps]).
  rewrite keeps_java by (try (now apply esc_alnum); now rewrite esc_keeps). now apply unesc.
Qed.

(** * Names with dots *)
Definition no_dot (s : bytes) : Prop := ~ In 46 s.
Lemma ident_no_dot s : ident s = true -> no_dot s.
Proof. intros I H. unfold ident in I. rewrite forallb_forall in I. specialize (I 46 H). discriminate I. Qed.
Lemma identifier_ident s : identifier s = true -> ident s = true.
Proof.
  destruct s as [|c s]; [discriminate|]. cbn. intros H. apply andb_true_iff in H. destruct H as [H1 ->]. unfold ident_char.
  rewrite andb_true_r. destruct (letterb c); auto. cbn in *. now rewrite H1, orb_true_r.
Qed.
Lemma split_dot a b : no_dot a -> no_dot b -> forall x y, a ++ 46 :: x = b ++ 46 :: y -> a = b /\ x = y.
Proof.
  revert b. induction a as [|c a IH]; intros [|d b] A B x y E; cbn in E.
  - injection E as ->. auto.
  - injection E as <- _. elim B. now left.
  - injection E as -> _. elim A. now left.
  - injection E as -> E. destruct (IH b) with (x := x) (y := y) as [-> ->]; auto; intros H; [apply A|apply B]; now right.
Qed.
Lemma no_dot_cons n m : no_dot n -> no_dot m -> forall x y, n ++ dotted x = m ++ dotted y -> n = m /\ dotted x = dotted y.
Proof.
  intros N M [|a x] [|b y] E; cbn [dotted flat_map] in *; rewrite ?app_nil_r in E; auto.
  - subst n. elim N. apply in_or_app. right. now left.
  - subst m. elim M. apply in_or_app. right. now left.
  - cbn [app] in E. apply split_dot in E; auto. destruct E as [-> E]. split; auto. cbn [app]. now rewrite E.
Qed.
Lemma dotted_inj p : forall q, (forall n, In n p -> no_dot n) -> (forall n, In n q -> no_dot n) -> dotted p = dotted q -> p = q.
Proof.
  induction p as [|a p IH]; intros [|b q] P Q E; auto; try discriminate. cbn [dotted flat_map app] in E. injection E as E. fold (dotted p) in E. fold (dotted q) in E.
  destruct (no_dot_cons a b (P a (or_introl eq_refl)) (Q b (or_introl eq_refl)) p q E) as [-> E'].
  f_equal. apply IH; auto; intros n H; [apply P|apply Q]; now right.
Qed.

(** * Reflection *)
Lemma pkg_of f : java_pkg f = package_of f.
Proof. reflexivity. Qed.
Lemma multi_of f : multi f = multiple_files f.
Proof. reflexivity. Qed.
Lemma validator_full p n : validator (full_name p n) = full_name p (validator n).
Proof. unfold validator, full_name. destruct p; [reflexivity|]. now rewrite <- app_assoc. Qed.
Lemma validator_inj a b : validator a = validator b -> a = b.
Proof. unfold validator. apply app_inv_tail. Qed.
Lemma full_inj p a b : full_name p a = full_name p b -> a = b.
Proof. unfold full_name. destruct p; auto. intros H. apply app_inv_head in H. now injection H. Qed.

Section Found.
Variable simple : path -> bytes.
Variable f : jfile.
Hypothesis P : proper f.
Hypothesis I : imports f = true.
Hypothesis C : compiles f (classes simple f).

Lemma in_all p i : In (p, i) (all_messages f) -> exists m, In m (jf_msgs f) /\ hd [] p = jm_name m /\ p <> [] /\
  ((p = [jm_name m] /\ i = jm_ignored m) \/ In (p, i) (below [jm_name m] m)).
Proof.
  assert (B : forall m q p i, In (p, i) (below q m) -> exists r, p = q ++ r /\ r <> []).
  { fix B 1. intros [n ig es l] q p0 i0. cbn [below]. intros H. apply in_app_or in H. destruct H as [H|H].
    - apply in_map_iff in H. destruct H as (m & E & _). injection E as <- _. now exists [jm_name m].
    - induction l as [|m l IH]; [destruct H|]. cbn [flat_map] in H. apply in_app_or in H. destruct H as [H|H]; [|auto].
      apply B in H. destruct H as (r & -> & R). exists (jm_name m :: r). rewrite <- app_assoc. split; [reflexivity|discriminate]. }
  unfold all_messages. intros H. apply in_app_or in H. destruct H as [H|H].
  - apply in_map_iff in H. destruct H as (m & E & Hm). injection E as <- <-. exists m. cbn. split; auto. split; auto. split; [discriminate|auto].
  - apply in_flat_map in H. destruct H as (m & Hm & H). exists m. destruct (B _ _ _ _ H) as (r & -> & R). cbn. split; auto. split; auto. split; [discriminate|auto].
Qed.
Lemma one_flag p i j : In (p, i) (all_messages f) -> In (p, j) (all_messages f) -> i = j.
Proof.
  pose proof (pf_distinct f P) as N. revert N. generalize (all_messages f). intros l. induction l as [|[q k] l IH]; intros N [].
  - intros [E|E]; [congruence|]. injection H as -> ->. inversion N. elim H1. apply in_map_iff. now exists (p, j).
  - intros [E|E]; [|inversion N; auto]. injection E as -> ->. inversion N. elim H2. apply in_map_iff. now exists (p, i).
Qed.
Lemma names_no_dot p : has_message f p -> forall n, In n p -> no_dot n.
Proof. intros H n N. eapply ident_no_dot, identifier_ident, (pf_names f P p); eauto. Qed.

Definition in_path : forall (p : path) l, {In p l} + {~ In p l} := in_dec (list_eq_dec (list_eq_dec N.eq_dec)).
Lemma find_case (q : path -> bytes) (s : path -> bytes) l p : (forall p', In p' l -> q p' = q p -> p' = p) ->
  find (fun x => bytes_eqb (fst x) (q p)) (map (fun p => (q p, s p)) l) = if in_path p l then Some (q p, s p) else None.
Proof.
  induction l as [|a l IH]; intros H; [reflexivity|]. cbn [map find fst]. destruct (bytes_eqb (q a) (q p)) eqn:E.
  - apply bytes_eqb_eq in E. apply H in E; [|now left]. subst a. destruct (in_path p (p :: l)) as [_|N]; [reflexivity|]. elim N. now left.
  - rewrite IH by (intros; apply H; auto; now right). destruct (in_path p l) as [Y|N]; destruct (in_path p (a :: l)) as [Y'|N']; auto.
    + elim N'. now right.
    + destruct Y' as [->|]; [|contradiction]. assert (bytes_eqb (q p) (q p) = true) by now apply bytes_eqb_eq. congruence.
Qed.
Lemma named_in l p : In p (named l) <-> In (p, false) l.
Proof.
  unfold named. rewrite in_map_iff. split.
  - intros ([q i] & E & H). apply filter_In in H. destruct H as [H N]. cbn in *. subst q. destruct i; [discriminate|auto].
  - intros H. exists (p, false). split; auto. apply filter_In. auto.
Qed.
Lemma find_inner (l : list path) p : NoDup (map fst (map (fun p => (validator (simple p), p)) l)) -> In p l ->
  find (fun i => bytes_eqb (fst i) (validator (simple p))) (map (fun p => (validator (simple p), p)) l) = Some (validator (simple p), p).
Proof.
  induction l as [|a l IH]; intros N H; [destruct H|]. cbn [map find fst] in *. destruct (bytes_eqb (validator (simple a)) (validator (simple p))) eqn:E.
  - apply bytes_eqb_eq in E. destruct H as [->|H]; [reflexivity|]. inversion N as [|x y X Y]. elim X. rewrite E. apply in_map_iff. exists (validator (simple p), p). split; auto.
    apply in_map_iff. now exists p.
  - destruct H as [->|H]; [rewrite (proj2 (bytes_eqb_eq _ _) eq_refl) in E; discriminate|].
    inversion N. auto.
Qed.

(** ** One class for the file *)
Lemma sanitize_no_dot s : no_dot (sanitize s).
Proof.
  unfold sanitize. rewrite to_camel_java by apply snake_is_ident. intros H.
  assert (Q : forall s c, In 46 (java_camel c s) -> False).
  { clear. induction s as [|a s IH]; intros c; [intros []|]. cbn [java_camel]. destruct (lowerb a) eqn:L.
    - intros [E|H]; [|eauto]. destruct c; [|subst a; discriminate L]. pose proof (lo_upc_up a L) as U. rewrite E in U. discriminate U.
    - destruct (upperb a) eqn:U; [intros [->|H]; [discriminate U|eauto]|]. destruct (digitb a) eqn:D; [intros [->|H]; [discriminate D|eauto]|eauto]. }
  eauto.
Qed.
Lemma class_no_dot : multi f = false -> no_dot (class_file f).
Proof.
  intros M. pose proof (pf_outer f P) as O. unfold class_file, outer_class, multi in *.
  assert (A : no_dot (append_outer (sanitize (cut_ext (base (jf_name f)))) f)).
  { unfold append_outer. destruct (_ || _); [|apply sanitize_no_dot]. intros H. apply in_app_or in H. destruct H as [H|H]; [elim (sanitize_no_dot _ H)|].
    cbn in H. repeat (destruct H as [H|H]; [discriminate H|]). exact H. }
  destruct (jf_options f) as [[[] [o|] pk]|]; auto. now apply ident_no_dot, identifier_ident.
Qed.
Lemma qualified_single p : multi f = false -> java_pkg f <> [] -> qualified f p = full_name (java_pkg f) (class_file f) ++ dotted p.
Proof. intros M K. unfold qualified, full_name. rewrite M. destruct (java_pkg f); [congruence|]. now rewrite <- app_assoc. Qed.
Lemma compiles_outer p : multi f = false -> In (p, false) (all_messages f) -> class_file f = outer_class f.
Proof.
  intros M H. assert (In (file_class simple f) (classes simple f)) as F by (unfold classes; rewrite I, M; now left).
  pose proof (co_package _ _ C _ F) as K. cbn in K.
  destruct (co_mentions _ _ C _ (qualified f p) (validator (simple p)) F) as (q & Hq & E).
  { cbn. apply in_map_iff. exists p. split; auto. now apply named_in. }
  rewrite qualified_single in E by auto. unfold message_class in E. change (multiple_files f) with (multi f) in E; change (package_of f) with (java_pkg f) in E; rewrite M in E.
  assert (Np : p <> []) by (destruct (in_all _ _ H) as (? & _ & _ & ? & _); auto).
  assert (Nq : q <> []) by (destruct Hq as [i Hi]; destruct (in_all _ _ Hi) as (? & _ & _ & ? & _); auto).
  unfold full_name in E. destruct (java_pkg f) as [|k0 k]; [congruence|]. rewrite <- !app_assoc in E. cbn [app] in E. injection E as E.
  apply app_inv_head in E. injection E as E.
  destruct p as [|a p]; [congruence|]. destruct q as [|b q]; [congruence|]. cbn [dotted flat_map app] in E. apply split_dot in E; [apply E|now apply class_no_dot|].
  apply ident_no_dot, identifier_ident, (pf_outer f P).
Qed.
Lemma single_finds p i : multi f = false -> In (p, i) (all_messages f) -> class_file f = outer_class f ->
  reflective (classes simple f) (top_class f p) (message_class f p) = if i then Null else Finds p.
Proof.
  intros M H O. assert (In (file_class simple f) (classes simple f)) as F by (unfold classes; rewrite I, M; now left).
  pose proof (co_package _ _ C _ F) as K. cbn in K. pose proof (co_inner _ _ C _ F) as N. cbn [file_class vc_inner vc_name] in N. inversion N as [|x y _ N'].
  unfold reflective. assert (E : classes simple f = [file_class simple f]) by (unfold classes; now rewrite I, M). rewrite E. cbn [find file_class vc_package vc_name].
  unfold top_class. change (multiple_files f) with (multi f); change (package_of f) with (java_pkg f); rewrite M, <- O, validator_full.
  replace (bytes_eqb (full_name (java_pkg f) (validator (class_file f))) (full_name (java_pkg f) (validator (class_file f)))) with true by (symmetry; now apply bytes_eqb_eq).
  cbn [file_class vc_cases]. unfold cases, message_class. change (multiple_files f) with (multi f); change (package_of f) with (java_pkg f); rewrite M, <- O, <- qualified_single by auto.
  rewrite (find_case (qualified f) (fun p => validator (simple p))).
  - destruct (in_path p (named (all_messages f))) as [Y|Y].
    + apply named_in in Y. rewrite (one_flag p i false) by auto. unfold instance. cbn [file_class vc_inner]. rewrite find_inner; auto. now apply named_in.
    + destruct i; [reflexivity|]. elim Y. now apply named_in.
  - intros p' H' E'. rewrite !qualified_single in E' by auto. apply app_inv_head in E'. apply named_in in H'.
    apply dotted_inj; auto; intros n Hn; eapply names_no_dot; eauto; [exists false|exists i]; auto.
Qed.

(** ** A class for each message *)
Lemma find_class (m : jmsg) : multi f = true -> In m (jf_msgs f) ->
  find (fun c => bytes_eqb (full_name (vc_package c) (vc_name c)) (full_name (java_pkg f) (validator (class_msg (jm_name m))))) (classes simple f) = Some (msg_class simple f m).
Proof.
  intros M H. assert (E : classes simple f = map (msg_class simple f) (jf_msgs f)) by (unfold classes; now rewrite I, M).
  pose proof (co_distinct _ _ C) as N. rewrite E in *. clear E. revert H N. generalize (jf_msgs f). intros l. induction l as [|a l IH]; [intros []|]. intros H N.
  cbn [map find]. cbn [msg_class vc_package vc_name] in *. destruct (bytes_eqb (full_name _ (validator (class_msg (jm_name a)))) _) eqn:Q.
  - apply bytes_eqb_eq, full_inj in Q. destruct H as [->|H]; [reflexivity|]. cbn [map] in N. inversion N as [|x y X _]. elim X. cbn [msg_class vc_name]. rewrite Q.
    apply in_map_iff. exists (msg_class simple f m). split; [reflexivity|]. now apply in_map.
  - destruct H as [->|H]; [exfalso|]. { assert (T : forall x, bytes_eqb x x = true) by (intros; now apply bytes_eqb_eq). rewrite T in Q. discriminate. }
    cbn [map] in N. inversion N. auto.
Qed.
Lemma qualified_multi p : multi f = true -> qualified f p = java_pkg f ++ dotted p.
Proof. intros M. unfold qualified. now rewrite M. Qed.
Lemma message_multi p : multi f = true -> java_pkg f <> [] -> p <> [] -> message_class f p = qualified f p.
Proof.
  intros M K N. unfold message_class. change (multiple_files f) with (multi f); change (package_of f) with (java_pkg f); rewrite M, qualified_multi by auto. unfold full_name.
  destruct (java_pkg f); [congruence|]. destruct p; [congruence|]. cbn [hd tl dotted flat_map app]. now rewrite <- app_assoc.
Qed.

Hypothesis distinct : forall p q, has_message f p -> has_message f q -> simple p = simple q -> p = q.
Lemma in_below m p i : In m (jf_msgs f) -> In (p, i) (below [jm_name m] m) -> In (p, i) (all_messages f).
Proof. intros M H. unfold all_messages. apply in_or_app. right. apply in_flat_map. now exists m. Qed.
Lemma in_top m : In m (jf_msgs f) -> In ([jm_name m], jm_ignored m) (all_messages f).
Proof. intros M. unfold all_messages. apply in_or_app. left. apply in_map_iff. now exists m. Qed.
Lemma below_long : forall m q p i, In (p, i) (below q m) -> (List.length q < List.length p)%nat.
Proof.
  fix B 1. intros [n ig es l] q p0 i0. cbn [below]. intros H. apply in_app_or in H. destruct H as [H|H].
  - apply in_map_iff in H. destruct H as (m & E & _). injection E as <- _. rewrite app_length. clear B. cbn. lia.
  - induction l as [|m l IH]; [destruct H|]. cbn [flat_map] in H. apply in_app_or in H. destruct H as [H|H]; [|auto].
    apply B in H. clear B IH. rewrite app_length in H. cbn in H. lia.
Qed.
Lemma multi_finds p i : multi f = true -> In (p, i) (all_messages f) -> class_msg (hd [] p) = hd [] p ->
  reflective (classes simple f) (top_class f p) (message_class f p) = if i && (1 <? List.length p)%nat then Null else Finds p.
Proof.
  intros M H Q. destruct (in_all _ _ H) as (m & Hm & Ht & Np & D).
  assert (In (msg_class simple f m) (classes simple f)) as F by (unfold classes; rewrite I, M; now apply in_map).
  pose proof (co_package _ _ C _ F) as K. cbn in K. pose proof (co_inner _ _ C _ F) as N. cbn [msg_class vc_inner vc_name] in N. inversion N as [|x y X N']. subst x y.
  unfold reflective, top_class. change (multiple_files f) with (multi f); change (package_of f) with (java_pkg f); rewrite M, validator_full. rewrite <- Q, Ht. rewrite find_class by auto.
  rewrite message_multi by auto. cbn [msg_class vc_cases]. unfold cases. rewrite (find_case (qualified f) (fun p => validator (simple p))).
  - destruct (in_path p ([jm_name m] :: named (below [jm_name m] m))) as [Y|Y].
    + assert (R : i && (1 <? List.length p)%nat = false).
      { destruct Y as [<-|Y]; [cbn; now rewrite andb_false_r|]. apply named_in in Y. rewrite (one_flag p i false); auto. now apply (in_below m). }
      rewrite R. unfold instance. cbn [msg_class vc_inner vc_self vc_name]. destruct Y as [<-|Y].
      * destruct (co_instances _ _ C _ (qualified f [jm_name m]) (validator (simple [jm_name m])) F) as [J|[_ J]].
        { cbn. now left. }
        { exfalso. cbn [msg_class vc_inner] in J. apply in_map_iff in J. destruct J as ([s p'] & J1 & J2). cbn in J1. subst s. apply in_map_iff in J2.
          destruct J2 as (p'' & J2 & J3). injection J2 as J2 ->. apply validator_inj in J2. apply named_in in J3. pose proof (below_long _ _ _ _ J3) as L.
          apply distinct in J2; [subst p'; cbn in L; lia|exists false; now apply (in_below m)|exists (jm_ignored m); now apply in_top]. }
        cbn [msg_class vc_name] in J. rewrite J.
        destruct (find _ _) as [[s p']|] eqn:E.
        { exfalso. apply find_some in E. destruct E as [E1 E2]. cbn in E2. apply bytes_eqb_eq in E2. subst s. apply X. apply in_map_iff. now exists (validator (class_msg (jm_name m)), p'). }
        now replace (bytes_eqb (validator (class_msg (jm_name m))) (validator (class_msg (jm_name m)))) with true by (symmetry; now apply bytes_eqb_eq).
      * rewrite find_inner; auto.
    + destruct D as [[-> _]|D]; [elim Y; now left|]. destruct i; [|elim Y; right; now apply named_in].
      pose proof (below_long _ _ _ _ D) as L. cbn [List.length andb] in *. apply Nat.ltb_lt in L. now rewrite L.
  - intros p' H' E'. rewrite !qualified_multi in E' by auto. apply app_inv_head in E'.
    apply dotted_inj; auto; intros n Hn; eapply names_no_dot; eauto; [|exists i; auto].
    destruct H' as [<-|H']; [exists (jm_ignored m); now apply in_top|exists false; apply (in_below m); auto; now apply named_in].
Qed.
Lemma multi_throws p i : multi f = true -> In (p, i) (all_messages f) -> keeps true (hd [] p) = false ->
  reflective (classes simple f) (top_class f p) (message_class f p) = Throws.
Proof.
  intros M H K. unfold reflective. destruct (find _ _) as [c|] eqn:E; [exfalso|reflexivity]. apply find_some in E. destruct E as [E1 E2].
  unfold classes in E1. rewrite I, M in E1. apply in_map_iff in E1. destruct E1 as (m & <- & _). apply bytes_eqb_eq in E2.
  unfold top_class in E2. change (multiple_files f) with (multi f) in E2; change (package_of f) with (java_pkg f) in E2; rewrite M, validator_full in E2. cbn [msg_class vc_package vc_name] in E2. apply full_inj, validator_inj in E2.
  rewrite <- E2, class_keeps in K. discriminate.
Qed.
End Found.
Lemma no_import simple f p : imports f = false -> reflective (classes simple f) (top_class f p) (message_class f p) = Throws.
Proof. intros I. unfold classes. now rewrite I. Qed.

(** * The class of the file *)
Lemma cut_ext_proto x : cut_ext (x ++ bs ".proto") = x.
Proof.
  induction x as [|c x IH]; [reflexivity|]. cbn [app cut_ext]. rewrite existsb_app. change (existsb (N.eqb 46) (bs ".proto")) with true. rewrite orb_true_r. now rewrite IH.
Qed.
Lemma trim_suffix_app x s : trim_suffix (x ++ s) s = x.
Proof.
  unfold trim_suffix. replace (has_suffix (x ++ s) s) with true.
  - rewrite app_length, Nat.add_sub, firstn_app, Nat.sub_diag, firstn_all. cbn. apply app_nil_r.
  - unfold has_suffix. rewrite app_length, Nat.add_sub, skipn_app, skipn_all, Nat.sub_diag. cbn [app skipn]. symmetry. apply andb_true_iff. split; [apply Nat.leb_le; lia|now apply bytes_eqb_eq].
Qed.
Lemma class_file_outer f x : multi f = false -> base (jf_name f) = x ++ bs ".proto" -> odd true x = false ->
  (match jf_options f with Some o => jo_outer o | None => None end <> None \/ file_has (java_camel true x) f = top_has (java_camel true x) f) ->
  class_file f = outer_class f.
Proof.
  intros M B O H. unfold class_file, outer_class, proto_base, append_outer. rewrite B, cut_ext_proto, trim_suffix_app, sanitize_java by auto. unfold multi in M.
  fold (top_has (java_camel true x) f). destruct (jf_options f) as [[[] [o|] k]|]; try discriminate M; try reflexivity.
  - destruct H as [H|H]; [now elim H|]. now rewrite H.
  - destruct H as [H|H]; [now elim H|]. now rewrite H.
Qed.

(** * Accessors *)
Lemma upper_tail y : (forall d, upper_after d y = y) -> forall x d, upper_after d (x ++ y) = upper_after d x ++ y.
Proof. intros Y. induction x as [|c x IH]; intros d; [apply Y|]. cbn [app upper_after]. now rewrite IH. Qed.
Lemma field_accessor_java n l : ident n = true -> field_accessor n l = bs "proto." ++ getter n l ++ bs "()".
Proof.
  intros I. unfold field_accessor, getter. rewrite upper_tail by (intros d; destruct l, d; reflexivity). rewrite to_camel_java by auto.
  change (bs "proto.get") with (bs "proto." ++ bs "get"). now rewrite <- !app_assoc.
Qed.
Lemma has_accessor_java n : ident n = true -> has_accessor n = bs "proto." ++ has_method n ++ bs "()".
Proof.
  intros I. unfold has_accessor, has_method. rewrite to_camel_java by auto. change (bs "proto.has") with (bs "proto." ++ bs "has"). now rewrite <- !app_assoc.
Qed.
Lemma keeps_upper s : forall d, keeps d s = true -> upper_after d s = s.
Proof.
  induction s as [|c s IH]; intros d K; [reflexivity|]. cbn [keeps] in K. apply andb_true_iff in K. destruct K as [K1 K2]. cbn [upper_after]. rewrite IH by auto.
  destruct d; auto. unfold upc. apply negb_true_iff in K1. cbn in K1. now rewrite K1.
Qed.
Lemma camel_keeps s : ident s = true -> (forall cap p, keeps (p && negb cap) s = true -> keeps p (camel cap (boundaries false s)) = true) /\
  (forall cap p, keeps false s = true -> (p = true \/ head_is digitb s = true) -> keeps p (camel cap (boundaries true s)) = true).
Proof.
  induction s as [|c s IH]; intros I; [split; intros; reflexivity|]. apply ident_cons in I. destruct I as [Ic I]. destruct (IH I) as [I1 I2]. clear IH.
  assert (J : forall cap p, keeps (p && negb cap) (c :: s) = true -> keeps p (camel cap (c :: boundaries false s)) = true).
  { intros cap p K. cbn [keeps] in K. apply andb_true_iff in K. destruct K as [K1 K2]. apply negb_true_iff in K1. rewrite camel_step by auto.
    destruct (upperb c) eqn:U.
    { cbn [orb app keeps]. rewrite (up_lo c U), (up_di c U), (up_95 c U), andb_false_r. cbn [negb andb]. apply I1. now apply (keeps_false (digitb c)). }
    destruct (lowerb c) eqn:L.
    { rewrite (lo_di c L), (lo_95 c L). cbn [orb app keeps]. rewrite andb_true_r in K1. destruct cap.
      - unfold upc. rewrite L, (lo_upc c L), (up_di _ (lo_upc_up c L)), andb_false_r. cbn [negb andb]. apply I1. now apply (keeps_false (digitb c)).
      - cbn [negb] in K1. rewrite andb_true_r in K1. subst p. rewrite (lo_di c L). cbn [andb negb]. apply I1. now apply (keeps_false (digitb c)). }
    destruct (digitb c) eqn:D.
    { cbn [orb app keeps]. rewrite L, D, (di_95 c D), andb_false_r. cbn [negb andb]. apply I1. exact K2. }
    assert ((c =? 95) = true) as -> by (unfold ident_char, letterb in Ic; rewrite U, L, D in Ic; exact Ic). cbn [orb app]. apply I1. now rewrite andb_false_r. }
  split.
  - intros cap p K. cbn [boundaries]. destruct (letterb c && head_is digitb s) eqn:E; [|now apply J].
    apply andb_true_iff in E. destruct E as [E1 E2]. cbn [keeps] in K. apply andb_true_iff in K. destruct K as [K1 K2]. apply negb_true_iff in K1.
    rewrite camel_step by auto.
    assert (R : keeps false (camel (c =? 95) (32 :: boundaries true s)) = true).
    { change (camel (c =? 95) (32 :: boundaries true s)) with (camel true (boundaries true s)). apply I2; auto. now apply (keeps_false (digitb c)). }
    destruct (upperb c) eqn:U.
    { cbn [orb app keeps]. rewrite (up_lo c U), (up_di c U), andb_false_r. exact R. }
    unfold letterb in E1. rewrite U in E1. cbn [orb] in E1. rewrite (lo_di c E1), E1. cbn [orb app keeps]. rewrite E1, andb_true_r in K1. destruct cap.
    + unfold upc. rewrite E1, (lo_upc c E1), (up_di _ (lo_upc_up c E1)), andb_false_r. exact R.
    + cbn [negb] in K1. rewrite andb_true_r in K1. subst p. rewrite (lo_di c E1). exact R.
  - intros cap p K H. cbn [boundaries]. destruct (digitb c) eqn:D.
    + rewrite camel_step by auto. rewrite D, orb_true_r. cbn [app keeps]. rewrite (di_lo c D), D, andb_false_r. cbn [negb andb]. apply I2; auto.
      cbn [keeps] in K. apply andb_true_iff in K. apply (keeps_false (digitb c)), K.
    + change (camel cap (32 :: c :: boundaries false s)) with (camel true (c :: boundaries false s)). apply J. now rewrite andb_false_r.
Qed.
Lemma case_accessor_java n : ident n = true -> keeps false n = true -> case_accessor n = bs "proto." ++ case_method n ++ bs "()".
Proof.
  intros I K. unfold case_accessor, case_method. rewrite <- to_camel_java by auto. rewrite keeps_upper.
  - change (bs "proto.get") with (bs "proto." ++ bs "get"). change (bs "Case()") with (bs "Case" ++ bs "()"). now rewrite <- !app_assoc.
  - unfold to_camel. rewrite camel_trim by now apply boundaries_head. now apply camel_keeps.
Qed.
