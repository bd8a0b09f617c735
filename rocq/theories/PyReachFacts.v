(** What [reach] lists contains every position that rendering can lead to. *)
From Verif Require Import Base Jinja PyLines PyReach.
Local Open Scope N_scope.

Lemma text_eqb_eq a : forall b, text_eqb a b = true -> a = b.
Proof.
  unfold text_eqb. induction a as [|x a IH]; intros [|y b]; cbn; intros E; try discriminate; [reflexivity|].
  destruct (x =? y) eqn:X; [|discriminate]. apply N.eqb_eq in X. subst y. f_equal. now apply IH.
Qed.
Lemma text_eqb_refl a : text_eqb a a = true.
Proof. unfold text_eqb. induction a as [|x a IH]; cbn; [reflexivity|]. now rewrite N.eqb_refl. Qed.

Lemma known_agrees a v c b : agrees a v -> known a c = Some b -> v c = b.
Proof.
  induction a as [|[s x] a IH]; cbn; intros A E; [discriminate|]. destruct (text_eqb s c) eqn:S.
  - apply text_eqb_eq in S. subst s. injection E as <-. apply A. now left.
  - apply IH; [|exact E]. intros s' b' I. apply A. now right.
Qed.
Lemma agrees_app a b v : agrees a v -> agrees b v -> agrees (a ++ b) v.
Proof. intros A B s x I. apply in_app_or in I. destruct I; [now apply A | now apply B]. Qed.

Lemma last_is_nl_app b s t : last_is_nl b (s ++ t) = last_is_nl (last_is_nl b s) t.
Proof. apply fold_left_app. Qed.
Lemma reads_app st s t : reads st (s ++ t) = reads (reads st s) t.
Proof. apply fold_left_app. Qed.
Lemma shift_app w : forall s b t, shift w b (s ++ t) = shift w b s ++ shift w (last_is_nl b s) t.
Proof.
  induction s as [|c s IH]; intros b t; [reflexivity|]. cbn [shift app]. rewrite IH, <- !app_assoc. reflexivity.
Qed.
Lemma put_app : forall fs st s t, put st fs (s ++ t) = let (st', fs') := put st fs s in put st' fs' t.
Proof.
  induction fs as [|[w b] fs IH]; intros st s t; cbn [put]; [now rewrite reads_app|].
  rewrite shift_app, IH, last_is_nl_app. destruct (put st fs (shift w b s)) as [st' fs']. reflexivity.
Qed.
Lemma put_indent st fs w s :
  let (st1, fs1) := put st fs (spaces w) in
  let (st2, fs2) := put st1 ((w, false) :: fs1) s in
  (st2, tl fs2) = put st fs (indent w s).
Proof.
  unfold indent. rewrite put_app. destruct (put st fs (spaces w)) as [st1 fs1]. cbn [put].
  destruct (put st1 fs1 (shift w false s)) as [st2 fs2]. reflexivity.
Qed.
Definition after (st : state) (fs : filters) (s : text) (is : list nat) : pos := let (st, fs) := put st fs s in Pos st fs is.
Lemma after_app st fs s t is : after st fs (s ++ t) is = let (st', fs') := put st fs s in after st' fs' t is.
Proof. unfold after. rewrite put_app. now destruct (put st fs s). Qed.

Section Sound.
Variable calls : text -> option (bool * option nat).
Variable template_at : text -> option tpl.
Variable alts : text -> list assume.
Variable may : text -> tpl -> env -> Prop.
Hypothesis covers : forall e t v, may e t v -> template_at e = Some t /\ exists a, In a (alts e) /\ agrees a v.
Notation reach := (reach calls template_at alts).

Lemma both_left x y r : both x y = Some r -> exists l, x = Some l /\ incl l r.
Proof.
  destruct x as [x|], y as [y|]; try discriminate. cbn. intros E. injection E as <-. exists x. split; [reflexivity|].
  intros p I. apply nodup_In, in_or_app. now left.
Qed.
Lemma both_right x y r : both x y = Some r -> exists l, y = Some l /\ incl l r.
Proof.
  destruct x as [x|], y as [y|]; try discriminate. cbn. intros E. injection E as <-. exists y. split; [reflexivity|].
  intros p I. apply nodup_In, in_or_app. now right.
Qed.
Lemma one_of_both (f : assume -> option (list pos)) l a r :
  In a l -> fold_right (fun a r => both (f a) r) (Some []) l = Some r -> exists x, f a = Some x /\ incl x r.
Proof.
  revert r. induction l as [|b l IH]; cbn; intros r I E; [easy|]. destruct I as [-> | I].
  - now apply both_left in E.
  - apply both_right in E. destruct E as (x & E & S). destruct (IH x I E) as (y & F & T). exists y. split; [exact F|].
    intros p P. auto.
Qed.

Lemma rounds_closed f : forall n tried l r,
  rounds n f tried l = Some r ->
  incl tried r /\ incl l r /\
  forall p, In p r -> In p tried \/ exists l0 l1, In p l0 /\ f l0 = Some l1 /\ incl l1 r.
Proof.
  induction n as [|n IH]; intros tried l r; destruct l as [|q l]; cbn [rounds].
  - intros E. injection E as <-. split; [easy|split; [easy|]]. now left.
  - discriminate.
  - intros E. injection E as <-. split; [easy|split; [easy|]]. now left.
  - destruct (f (q :: l)) as [l'|] eqn:F; [|discriminate]. intros E. apply IH in E. destruct E as (A & B & C).
    split; [|split].
    + intros p P. apply A, in_or_app. now left.
    + intros p P. apply A, in_or_app. now right.
    + intros p P. destruct (C p P) as [D | D]; [|now right]. apply in_app_or in D. destruct D as [D | D]; [now left|].
      right. exists (q :: l), l'. split; [exact D|split; [exact F|]]. intros p' P'.
      destruct (in_dec pos_dec p' (tried ++ q :: l)) as [X | X]; [now apply A|]. apply B. unfold missing.
      apply filter_In. split; [now apply nodup_In|]. now destruct (in_dec pos_dec p' (tried ++ q :: l)).
Qed.

Scheme renders_ind2 := Induction for renders Sort Prop with repeats_ind2 := Induction for repeats Sort Prop.

Definition round (n : nat) (b : tpl) (l : list pos) : option (list pos) :=
  option_map (map pop_i) (reach n [] b (map (fun p => push_i (current p) p) l)).

Lemma reach_end n a l : reach (S n) a End l = Some l.
Proof. reflexivity. Qed.
Lemma reach_data n a s k l : reach (S n) a (Data s k) l = reach (S n) a k (map (write s) l).
Proof. reflexivity. Qed.
Lemma reach_set n a i k l : reach (S n) a (Set_i i k) l = reach (S n) a k (map (set_i i) l).
Proof. reflexivity. Qed.
Lemma reach_cond n a c x y k l :
  reach (S n) a (Cond c x y k) l =
  on (reach (S n) a k) (match known a c with
                        | Some b => reach (S n) a (if b then x else y) l
                        | None => both (reach (S n) a x l) (reach (S n) a y l)
                        end).
Proof. reflexivity. Qed.
Lemma reach_filter n a b k l :
  reach (S n) a (Filter b k) l =
  on (fun l => reach (S n) a k (map leave_filter l)) (reach (S n) a b (map (fun p => enter (current p) p) l)).
Proof. reflexivity. Qed.
Lemma reach_loop n a e b k l : reach (S n) a (Loop e b k) l = on (reach (S n) a k) (rounds 20 (round (S n) b) [] l).
Proof. reflexivity. Qed.
Lemma reach_out n a e k l :
  reach (S n) a (Out e k) l =
  match calls e with
  | None => reach (S n) a k (map (write value_text) l)
  | Some (same, w) =>
      match template_at e with
      | None => None
      | Some t' =>
          on (fun l => reach (S n) a k (map (leave_call w) l))
             (fold_right (fun a' r => both (reach n (if same then a' ++ a else a') t' (map (enter_call w) l)) r) (Some []) (alts e))
      end
  end.
Proof. reflexivity. Qed.

Lemma write_after s st fs is : write s (Pos st fs is) = after st fs s is.
Proof. reflexivity. Qed.

Lemma enter_eq w st fs is : enter w (Pos st fs is) = let (st1, fs1) := put st fs (spaces w) in Pos st1 ((w, false) :: fs1) is.
Proof. unfold enter, write. cbn. now destruct (put st fs (spaces w)). Qed.

Theorem reach_sound v t i s j :
  renders calls may v t i s j ->
  forall n a l l' st fs r, agrees a v -> reach n a t l = Some l' -> In (Pos st fs (i :: r)) l -> In (after st fs s (j :: r)) l'.
Proof.
  intros R.
  apply (renders_ind2 calls may
    (fun v t i s j _ => forall n a l l' st fs r,
       agrees a v -> reach n a t l = Some l' -> In (Pos st fs (i :: r)) l -> In (after st fs s (j :: r)) l')
    (fun b i s _ => forall n r,
       (forall p, In p r -> exists l0 l1, In p l0 /\ round n b l0 = Some l1 /\ incl l1 r) ->
       forall st fs is, In (Pos st fs (i :: is)) r -> In (after st fs s (i :: is)) r));
    [ .. | exact R]; clear R v t i s j.
  - intros v i n a l l' st fs r A E P. destruct n; [discriminate|]. rewrite reach_end in E. injection E as <-.
    unfold after. replace (put st fs []) with (st, fs); [exact P|]. clear. revert st. induction fs as [|[w b] fs IH]; intros st; [reflexivity|].
    cbn. now rewrite <- IH.
  - intros v s k i t j _ IH n a l l' st fs r A E P. destruct n; [discriminate|]. rewrite reach_data in E.
    rewrite after_app. destruct (put st fs s) as [st' fs'] eqn:W. apply (IH (S n) a _ l' st' fs' r A E).
    apply (in_map (write s)) in P. rewrite write_after in P. unfold after in P. now rewrite W in P.
  - intros v e k i t j C _ IH n a l l' st fs r A E P. destruct n; [discriminate|]. rewrite reach_out, C in E.
    rewrite after_app. destruct (put st fs value_text) as [st' fs'] eqn:W. apply (IH (S n) a _ l' st' fs' r A E).
    apply (in_map (write value_text)) in P. rewrite write_after in P. unfold after in P. now rewrite W in P.
  - intros v e same w callee v' s j' k i t j C M V _ IH1 _ IH2 n a l l' st fs r A E P. destruct n; [discriminate|].
    rewrite reach_out, C in E. destruct (covers _ _ _ M) as (T & x & X & AX). rewrite T in E.
    destruct (fold_right _ _ _) as [l2|] eqn:F; [|discriminate]. cbn [on] in E.
    apply (one_of_both (fun a' => reach n (if same then a' ++ a else a') callee (map (enter_call w) l)) _ x) in F; [|exact X].
    destruct F as (l3 & F & S3).
    assert (AG : agrees (if same then x ++ a else x) v').
    { destruct same; [|exact AX]. apply agrees_app; [exact AX|]. now rewrite (V eq_refl). }
    pose proof (in_map (enter_call w) _ _ P) as P1.
    rewrite after_app.
    destruct w as [w|]; cbn [filtered].
    + pose proof (put_indent st fs w s) as PI. unfold enter_call at 1 in P1. rewrite enter_eq in P1.
      destruct (put st fs (spaces w)) as [st1 fs1]. unfold push_i in P1. cbn [p_state p_filters p_is] in P1.
      specialize (IH1 n _ _ _ _ _ _ AG F P1). unfold after in IH1.
      destruct (put st1 ((w, false) :: fs1) s) as [st2 fs2]. rewrite <- PI.
      apply S3, (in_map (leave_call (Some w))) in IH1. exact (IH2 (S n) a _ l' _ _ _ A E IH1).
    + unfold enter_call, push_i in P1. cbn in P1. specialize (IH1 n _ _ _ _ _ _ AG F P1). unfold after in IH1.
      destruct (put st fs s) as [st2 fs2].
      apply S3, (in_map (leave_call None)) in IH1. exact (IH2 (S n) a _ l' _ _ _ A E IH1).
  - intros v m k i t j _ IH n a l l' st fs r A E P. destruct n; [discriminate|]. rewrite reach_set in E.
    apply (IH (S n) a _ l' st fs r A E). apply (in_map (set_i m)) in P. exact P.
  - intros v c x y k i s j t h _ IH1 _ IH2 n a l l' st fs r A E P. destruct n; [discriminate|]. rewrite reach_cond in E.
    destruct (match known a c with Some _ => _ | None => _ end) as [l2|] eqn:F; [|discriminate]. cbn [on] in E.
    rewrite after_app. destruct (put st fs s) as [st' fs'] eqn:W. apply (IH2 (S n) a _ l' st' fs' r A E).
    assert (G : exists l3, reach (S n) a (if v c then x else y) l = Some l3 /\ incl l3 l2).
    { destruct (known a c) as [b|] eqn:K.
      - apply (known_agrees _ v) in K; [|exact A]. rewrite K. exists l2. split; [exact F|apply incl_refl].
      - destruct (v c); [now apply both_left in F | now apply both_right in F]. }
    destruct G as (l3 & G & S3). apply S3. specialize (IH1 (S n) a _ _ _ _ _ A G P). unfold after in IH1. now rewrite W in IH1.
  - intros v b k i s j t h _ IH1 _ IH2 n a l l' st fs r A E P. destruct n; [discriminate|]. rewrite reach_filter in E.
    destruct (reach (S n) a b (map (fun p => enter (current p) p) l)) as [l2|] eqn:F; [|discriminate]. cbn [on] in E.
    rewrite after_app. apply (in_map (fun p => enter (current p) p)) in P. cbv beta in P. change (current (Pos st fs (i :: r))) with i in P.
    rewrite enter_eq in P. pose proof (put_indent st fs i s) as PI. destruct (put st fs (spaces i)) as [st1 fs1].
    specialize (IH1 (S n) a _ _ _ _ _ A F P). unfold after in IH1.
    destruct (put st1 ((i, false) :: fs1) s) as [st2 fs2]. rewrite <- PI.
    apply (in_map leave_filter) in IH1. exact (IH2 (S n) a _ l' _ _ _ A E IH1).
  - intros v e b k i s t j _ IH1 _ IH2 n a l l' st fs r A E P. destruct n; [discriminate|]. rewrite reach_loop in E.
    destruct (rounds 20 (round (S n) b) [] l) as [l2|] eqn:F; [|discriminate]. cbn [on] in E.
    apply rounds_closed in F. destruct F as (_ & I & C). rewrite after_app. destruct (put st fs s) as [st' fs'] eqn:W.
    apply (IH2 (S n) a _ l' st' fs' r A E).
    specialize (IH1 (S n) l2). unfold after in IH1. specialize (IH1 ltac:(intros p Q; destruct (C p Q) as [[] | Q']; exact Q') st fs r (I _ P)).
    now rewrite W in IH1.
  - intros b i n r C st fs is P. unfold after. replace (put st fs []) with (st, fs); [exact P|].
    clear. revert st. induction fs as [|[w b] fs IH]; intros st; [reflexivity|]. cbn. now rewrite <- IH.
  - intros b i v s t j _ IH1 _ IH2 n r C st fs is P. rewrite after_app. destruct (put st fs s) as [st' fs'] eqn:W.
    apply (IH2 n r C). destruct (C _ P) as (l0 & l1 & P0 & F & S1). apply S1. unfold round in F.
    destruct (reach n [] b _) as [l2|] eqn:G; [|discriminate]. cbn in F. injection F as <-.
    apply (in_map (fun p => push_i (current p) p)) in P0. cbv beta in P0.
    change (push_i _ (Pos st fs (i :: is))) with (Pos st fs (i :: i :: is)) in P0.
    assert (AG : agrees [] v) by (intros x y Z; destruct Z).
    specialize (IH1 n [] _ _ st fs (i :: is) AG G P0). unfold after in IH1. rewrite W in IH1. apply (in_map pop_i) in IH1. exact IH1.
Qed.
End Sound.
