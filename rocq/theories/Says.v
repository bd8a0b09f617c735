(** An outcome tells the truth about a proposition. *)
From Coq Require Import Lia.
From Verif Require Import Base Outcome.

Definition says (o : outcome) (P : Prop) : Prop := (o = Passes /\ P) \/ (o = Rejects /\ ~ P).

Lemma says_iff o P Q : (P <-> Q) -> says o P -> says o Q.
Proof. unfold says. intuition. Qed.
Lemma says_true : says Passes True.
Proof. left. auto. Qed.
Lemma says_passes o P : says o P -> (o = Passes <-> P).
Proof. intros [[-> H]|[-> H]]; intuition; discriminate. Qed.
Lemma says_rejects o P : says o P -> (o = Rejects <-> ~ P).
Proof. intros [[-> H]|[-> H]]; intuition; discriminate. Qed.
Lemma says_two o P : says o P -> o = Passes \/ o = Rejects.
Proof. intros [[-> _]|[-> _]]; auto. Qed.
Lemma says_exact o P : says o P -> (o = Passes <-> P) /\ (o = Rejects <-> ~ P).
Proof. intros [[-> H]|[-> H]]; split; split; intros X; try discriminate; tauto. Qed.
(** The second part matters only if the first passes. *)
Lemma says_seq a b P Q : says a P -> (P -> says b Q) -> says (andthen a b) (P /\ Q).
Proof.
  intros [[-> H]|[-> H]] K; cbn; [|right; tauto]. destruct (K H) as [[-> L]|[-> L]]; [left|right]; tauto.
Qed.
Lemma says_throw b P : (b = true <-> P) -> says (throw_unless b) P.
Proof. destruct b; cbn; intros H; [left|right]; intuition; discriminate. Qed.
Lemma says_some {A} (o : option A) f (P : A -> Prop) :
  (forall a, o = Some a -> says (f a) (P a)) -> says (on_some o f) (forall a, o = Some a -> P a).
Proof.
  destruct o as [a|]; cbn; intros H; [|left; split; auto; discriminate].
  eapply says_iff; [|apply (H a eq_refl)]. split; auto. intros K b [= <-]. auto.
Qed.
Lemma says_if (b : bool) a P : (b = true -> says a P) -> says (only_if b a) (b = true -> P).
Proof. destruct b; cbn; intros H; [|left; split; auto; discriminate]. eapply says_iff; [|apply H; auto]. intuition. Qed.
Lemma says_nil : says (in_order []) True.
Proof. apply says_true. Qed.
Lemma says_cons a l P Q : says a P -> (P -> says (in_order l) Q) -> says (in_order (a :: l)) (P /\ Q).
Proof. apply says_seq. Qed.
Lemma says_map {A} (f : A -> outcome) (P : A -> Prop) l :
  (forall x, In x l -> says (f x) (P x)) -> says (in_order (map f l)) (forall x, In x l -> P x).
Proof.
  induction l as [|x t IH]; intros H; [left; split; auto; intros x []|].
  cbn [map]. eapply says_iff; [|apply says_cons; [apply H; left; auto|intros _; apply IH; intros; apply H; right; auto]].
  split.
  - intros [H1 H2] y [<-|Hy]; auto.
  - intros K. split; [apply K; left; auto|]. intros y Hy. apply K. right; auto.
Qed.
(** Two lists that correspond. *)
Lemma says_map2 {A B} (R : A -> B -> Prop) (f : B -> outcome) (P : A -> Prop) l l' : Forall2 R l l' ->
  (forall x y, In x l -> In y l' -> R x y -> says (f y) (P x)) -> says (in_order (map f l')) (forall x, In x l -> P x).
Proof.
  induction 1 as [|x y t t' HR _ IH]; intros H; [left; split; auto; intros x []|].
  cbn [map]. eapply says_iff; [|apply says_cons; [apply (H x y); auto; left; auto|intros _; apply IH; intros; apply H; auto; right; auto]].
  split.
  - intros [H1 H2] z [<-|Hz]; auto.
  - intros K. split; [apply K; left; auto|]. intros z Hz. apply K. right; auto.
Qed.
Lemma says_not o b P : (b = true <-> P) -> says o (~ P) -> says o (negb b = true).
Proof. intros E. apply says_iff. destruct b; cbn; intuition; discriminate. Qed.
(** [ignore_empty]. *)
Lemma says_ignore (o : option bool) (b : bool) (E : Prop) body P : (b = true <-> E) -> says body P ->
  says (only_if (negb (getb o && b)) body) ((o = Some true /\ E) \/ P).
Proof.
  intros HE HP. destruct o as [[]|]; cbn.
  - destruct b; cbn; [left; split; auto; left; split; auto; now apply HE|].
    eapply says_iff; [|exact HP]. split; auto. intros [[_ H]|H]; auto. apply HE in H. discriminate.
  - eapply says_iff; [|exact HP]. split; auto. intros [[H _]|H]; auto. discriminate.
  - eapply says_iff; [|exact HP]. split; auto. intros [[H _]|H]; auto. discriminate.
Qed.
