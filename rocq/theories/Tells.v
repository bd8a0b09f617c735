(** An outcome does not lie about a proposition, but may be that a rule is not implemented. *)
From Verif Require Import Base Outcome Says.

Definition tells (o : outcome) (P : Prop) : Prop := (o = Passes /\ P) \/ (o = Rejects /\ ~ P) \/ o = Unimplemented.

Lemma tells_says o P : says o P -> tells o P.
Proof. unfold says, tells. tauto. Qed.
Lemma tells_iff o P Q : (P <-> Q) -> tells o P -> tells o Q.
Proof. unfold tells. intuition. Qed.
(** Something that is never reported as holding. *)
Lemma tells_never P : tells Unimplemented P.
Proof. right. right. reflexivity. Qed.
Lemma tells_seq a b P Q : tells a P -> (P -> tells b Q) -> tells (andthen a b) (P /\ Q).
Proof.
  intros [[-> H]|[[-> H]| -> ]] K; cbn; [|right; left; tauto|apply tells_never].
  destruct (K H) as [[-> L]|[[-> L]| -> ]]; [left|right; left|right; right]; tauto.
Qed.
Lemma tells_throw b P : (b = true <-> P) -> tells (throw_unless b) P.
Proof. intros H. apply tells_says, says_throw, H. Qed.
Lemma tells_if (b : bool) a P : (b = true -> tells a P) -> tells (only_if b a) (b = true -> P).
Proof. destruct b; cbn; intros H; [|left; split; auto; discriminate]. eapply tells_iff; [|apply H; auto]. intuition. Qed.
Lemma tells_map {A} (f : A -> outcome) (P : A -> Prop) l :
  (forall x, In x l -> tells (f x) (P x)) -> tells (in_order (map f l)) (forall x, In x l -> P x).
Proof.
  induction l as [|x t IH]; intros H; [left; split; auto; intros x []|].
  cbn [map in_order]. eapply tells_iff; [|apply tells_seq; [apply H; left; auto|intros _; apply IH; intros; apply H; right; auto]].
  split.
  - intros [H1 H2] y [<-|Hy]; auto.
  - intros K. split; [apply K; left; auto|]. intros y Hy. apply K. right; auto.
Qed.
Lemma tells_map2 {A B} (R : A -> B -> Prop) (f : B -> outcome) (P : A -> Prop) l l' : Forall2 R l l' ->
  (forall x y, In x l -> In y l' -> R x y -> tells (f y) (P x)) -> tells (in_order (map f l')) (forall x, In x l -> P x).
Proof.
  induction 1 as [|x y t t' HR _ IH]; intros H; [left; split; auto; intros x []|].
  cbn [map in_order]. eapply tells_iff; [|apply tells_seq; [apply (H x y); auto; left; auto|intros _; apply IH; intros; apply H; auto; right; auto]].
  split.
  - intros [H1 H2] z [<-|Hz]; auto.
  - intros K. split; [apply K; left; auto|]. intros z Hz. apply K. right; auto.
Qed.
Lemma tells_ignore (o : option bool) (b : bool) (E : Prop) body P : (b = true <-> E) -> tells body P ->
  tells (only_if (negb (getb o && b)) body) ((o = Some true /\ E) \/ P).
Proof.
  intros HE HP. destruct o as [[]|]; cbn.
  - destruct b; cbn; [left; split; auto; left; split; auto; now apply HE|].
    eapply tells_iff; [|exact HP]. split; auto. intros [[_ H]|H]; auto. apply HE in H. discriminate.
  - eapply tells_iff; [|exact HP]. split; auto. intros [[H _]|H]; auto. discriminate.
  - eapply tells_iff; [|exact HP]. split; auto. intros [[H _]|H]; auto. discriminate.
Qed.
(** The last of several checks is not implemented; [P'] is what they say without it. *)
Lemma tells_last (g : bool) l (P P' : Prop) : says (only_if g (in_order (l ++ [Passes]))) P' -> (P -> P') -> (g = false -> P) ->
  tells (only_if g (in_order (l ++ [Unimplemented]))) P.
Proof.
  intros S W G. destruct g; cbn [only_if] in *; [|left; split; auto].
  assert (A : forall o, in_order (l ++ [o]) = andthen (in_order l) o).
  { intros o. clear. induction l as [|x t IH]; cbn; [destruct o; reflexivity|]. rewrite IH. destruct x; reflexivity. }
  rewrite A in *. destruct S as [[E Q]|[E Q]]; destruct (in_order l) eqn:D; cbn in *; try discriminate; [apply tells_never|right; left; tauto].
Qed.
