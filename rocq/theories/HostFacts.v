(** Hostnames of ASCII characters. *)
From Coq Require Import Lia.
From Verif Require Import Base Utf8 Regex Known Spec Utf8Facts.

Definition ascii_letter (c : N) : Prop := alnum c \/ c = 45%N.
Definition ascii_label (l : bytes) : Prop :=
  1 <= List.length l <= 63 /\ Forall ascii_letter l /\ hd 0%N l <> 45%N /\ List.last l 0%N <> 45%N.
(** RFC 1034: labels separated by dots, with an optional final dot. *)
Definition rfc_hostname (s : bytes) : Prop :=
  List.length s <= 253 /\
  exists labels, labels <> [] /\ Forall ascii_label labels /\ (s = join_dots labels \/ s = join_dots labels ++ [46%N]).

Lemma utf8_small c : (c < 128)%N -> utf8_bytes c = [c].
Proof. intros H. unfold utf8_bytes. apply N.ltb_lt in H. now rewrite H. Qed.
Lemma utf8_flat l : Forall (fun c => c < 128)%N l -> flat_map utf8_bytes l = l.
Proof. induction 1; cbn; auto. rewrite utf8_small, IHForall; auto. Qed.
Lemma letter_small c : ascii_letter c -> (c < 128)%N.
Proof. unfold ascii_letter, alnum. lia. Qed.
Lemma join_all (P : N -> Prop) ls : Forall P (join_dots ls) -> Forall (Forall P) ls.
Proof.
  induction ls as [|x [|y t] IH]; intros H; [constructor|repeat constructor; auto|].
  change (join_dots (x :: y :: t)) with (x ++ [46%N] ++ join_dots (y :: t)) in H. apply Forall_app in H. destruct H as [A B].
  apply Forall_app in B. constructor; [auto|]. apply IH. tauto.
Qed.
Lemma flat_small l : Forall host_letter l -> Forall (fun c => c < 128)%N (flat_map utf8_bytes l) -> Forall ascii_letter l.
Proof.
  intros A B. apply Forall_forall. intros c Hc. rewrite Forall_forall in A, B. destruct (A c Hc) as [H|[H|[->| ->]]]; [left|right|..]; auto; exfalso.
  - assert (K : In 0xE2%N (flat_map utf8_bytes l)) by (apply in_flat_map; eexists; split; [exact Hc|vm_compute; auto]). apply B in K. lia.
  - assert (K : In 0xC4%N (flat_map utf8_bytes l)) by (apply in_flat_map; eexists; split; [exact Hc|vm_compute; auto]). apply B in K. lia.
Qed.

Lemma hostname_ascii s : Forall (fun c => c < 128)%N s -> (hostname s <-> rfc_hostname s).
Proof.
  intros As. unfold hostname, rfc_hostname. apply and_iff_compat_l. split.
  - intros (ls & N & F & E).
    assert (J : Forall (fun c => c < 128)%N (join_dots (map (flat_map utf8_bytes) ls))).
    { cbv zeta in E. destruct E as [E|E]; rewrite E in As; [exact As|]. apply Forall_app in As. tauto. }
    apply join_all in J. rewrite Forall_map in J.
    assert (K : forall l, In l ls -> Forall ascii_letter l).
    { intros l Hl. rewrite Forall_forall in F, J. apply flat_small; [apply F|apply J]; auto. }
    assert (M : map (flat_map utf8_bytes) ls = ls).
    { rewrite <- (map_id ls) at 2. apply map_ext_in. intros l Hl. apply utf8_flat. eapply Forall_impl; [apply letter_small|]. auto. }
    rewrite M in E. exists ls. split; auto. split; auto. apply Forall_forall. intros l Hl. rewrite Forall_forall in F. destruct (F l Hl) as (A & _ & C).
    split; auto.
  - intros (ls & N & F & E). exists ls. split; auto. split.
    + eapply Forall_impl; [|exact F]. intros l (A & B & C). split; auto. split; auto. eapply Forall_impl; [|exact B].
      intros c [H|H]; [left|right; left]; auto.
    + assert (M : map (flat_map utf8_bytes) ls = ls).
      { rewrite <- (map_id ls) at 2. apply map_ext_in. intros l Hl. apply utf8_flat. rewrite Forall_forall in F. destruct (F l Hl) as (_ & B & _).
        eapply Forall_impl; [apply letter_small|]. auto. }
      rewrite M. exact E.
Qed.

(** RFC 7230 token characters. *)
Definition tchar (c : N) : Prop := alnum c \/ In c (bs "!#$%&'*+-.^_`|~").
Definition rfc_header_name (l : list N) : Prop := exists t, (l = t \/ l = 58%N :: t) /\ t <> [] /\ Forall tchar t.
Lemma token_or_comma c : token_char c <-> tchar c \/ c = 44%N.
Proof.
  unfold token_char, tchar. split.
  - intros [H|H]; [auto|]. cbn in H |- *. intuition subst; auto 20.
  - intros [[H|H]| ->]; [auto| |]; right; cbn in *; intuition subst; auto 20.
Qed.
Lemma comma_name : exists s l, decodes s l /\ rmatch header_name_re (runes s) = true /\ ~ rfc_header_name l.
Proof.
  exists [44%N], [44%N]. split; [now apply decodes_iff|]. split; [vm_compute; reflexivity|].
  intros (t & H & _ & F). assert (t = [44%N]) as ->. { destruct H as [H|H]; [auto|discriminate]. }
  apply Forall_inv in F. destruct F as [F|F]; [unfold alnum in F; lia|]. cbn in F. intuition discriminate.
Qed.
