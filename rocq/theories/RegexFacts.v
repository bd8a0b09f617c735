(** The derivative matcher decides the language; the fixed patterns. *)
From Coq Require Import Lia ZifyBool ZifyN ZifyNat.
From Verif Require Import Base Utf8 Regex Known Spec Utf8Facts.

Lemma nullable_spec r : nullable r = true <-> lang r [].
Proof.
  induction r; simpl; split; intros H; try discriminate; try (now constructor); try (inversion H; fail).
  - apply andb_true_iff in H. destruct H.
    change (@nil rune) with (@nil rune ++ @nil rune). constructor; tauto.
  - inversion H; subst. apply app_eq_nil in H2. destruct H2; subst.
    apply andb_true_iff. tauto.
  - apply orb_true_iff in H. destruct H; [apply LAltL | apply LAltR]; tauto.
  - apply orb_true_iff. inversion H; subst; tauto.
Qed.

(** Building blocks *)
Lemma lang_class f w : lang (RClass f) w <-> exists c, w = [c] /\ f c = true.
Proof. split; [intros H; inversion H; subst; eauto | intros (c & -> & H); now constructor]. Qed.

Lemma lang_cat a b w : lang (RCat a b) w <-> exists u v, w = u ++ v /\ lang a u /\ lang b v.
Proof. split; [intros H; inversion H; subst; eauto | intros (u & v & -> & H1 & H2); now constructor]. Qed.

Lemma lang_alt a b w : lang (RAlt a b) w <-> lang a w \/ lang b w.
Proof.
  split; [intros H; inversion H; subst; auto | intros [H|H]; [now apply LAltL | now apply LAltR]].
Qed.

Lemma lang_eps w : lang REps w <-> w = [].
Proof. split; [intros H; now inversion H | intros ->; constructor]. Qed.

Lemma lang_chr k w : lang (chr k) w <-> w = [k].
Proof.
  unfold chr. rewrite lang_class. split.
  - intros (c & -> & H). apply N.eqb_eq in H. now subst.
  - intros ->. exists k. split; auto. apply N.eqb_refl.
Qed.

Lemma lang_star_cons a c t : lang (RStar a) (c :: t) -> exists u v, t = u ++ v /\ lang a (c :: u) /\ lang (RStar a) v.
Proof.
  intros H. remember (RStar a) as r eqn:Er. remember (c :: t) as w eqn:Ew.
  revert c t Ew. induction H; intros c0 t0 Ew; try discriminate; inversion Er; subst.
  destruct u as [|x u].
  - simpl in Ew. apply (IHlang2 eq_refl) in Ew. exact Ew.
  - inversion Ew; subst. exists u, v. auto.
Qed.

Lemma deriv_spec c r t : lang (deriv c r) t <-> lang r (c :: t).
Proof.
  revert t. induction r; intros t; simpl.
  - split; intros H; inversion H.
  - split; intros H; inversion H.
  - destruct (f c) eqn:E; split; intros H.
    + inversion H; subst. now constructor.
    + inversion H; subst. constructor.
    + inversion H.
    + inversion H; subst. congruence.
  - assert (Hc : lang (RCat (deriv c r1) r2) t <-> exists u v, t = u ++ v /\ lang r1 (c :: u) /\ lang r2 v).
    { split; intros H.
      - apply lang_cat in H. destruct H as (u & v & -> & H1 & H2). apply IHr1 in H1. eauto.
      - destruct H as (u & v & -> & H1 & H2). constructor; auto. now apply IHr1. }
    assert (Hd : lang (RCat r1 r2) (c :: t) <->
       (exists u v, t = u ++ v /\ lang r1 (c :: u) /\ lang r2 v) \/ (lang r1 [] /\ lang r2 (c :: t))).
    { split; intros H.
      - apply lang_cat in H. destruct H as (u & v & E & H1 & H2). destruct u as [|x u].
        + simpl in *. subst. auto.
        + inversion E; subst. left. eauto.
      - destruct H as [(u & v & -> & H1 & H2)|[H1 H2]].
        + change (c :: u ++ v) with ((c :: u) ++ v). now constructor.
        + change (c :: t) with ([] ++ c :: t). now constructor. }
    rewrite Hd. destruct (nullable r1) eqn:E.
    + apply nullable_spec in E. split; intros H.
      * apply lang_alt in H. destruct H; [left; tauto | right; split; auto; now apply IHr2].
      * destruct H as [H|[_ H]]; [apply LAltL; tauto | apply LAltR; now apply IHr2].
    + rewrite Hc. split; [auto|]. intros [H|[H _]]; auto. apply nullable_spec in H. congruence.
  - rewrite !lang_alt, IHr1, IHr2. reflexivity.
  - split; intros H.
    + apply lang_cat in H. destruct H as (u & v & -> & H1 & H2).
      change (c :: u ++ v) with ((c :: u) ++ v). constructor; auto. now apply IHr.
    + apply lang_star_cons in H. destruct H as (u & v & -> & H1 & H2). constructor; auto. now apply IHr.
Qed.

Theorem rmatch_spec r s : rmatch r s = true <-> lang r s.
Proof.
  revert r. induction s as [|c s IH]; intros r; simpl.
  - apply nullable_spec.
  - rewrite IH. apply deriv_spec.
Qed.

Lemma lang_star_class f w : lang (RStar (RClass f)) w <-> Forall (fun c => f c = true) w.
Proof.
  induction w as [|c w IH].
  - split; [constructor|]. intros _. constructor.
  - split.
    + intros H. apply lang_star_cons in H. destruct H as (u & v & -> & H1 & H2).
      inversion H1; subst. constructor; auto. now apply IH.
    + intros H. inversion H; subst. change (c :: w) with ([c] ++ w). constructor; [now constructor|tauto].
Qed.

Lemma lang_rep_class f n w :
  lang (rep n (RClass f)) w <-> List.length w = n /\ Forall (fun c => f c = true) w.
Proof.
  revert w. induction n as [|n IH]; intros w; cbn [rep].
  - rewrite lang_eps. split; [intros ->; auto|]. intros [H _]. now destruct w.
  - rewrite lang_cat. split.
    + intros (u & v & -> & H1 & H2). apply lang_class in H1. destruct H1 as (c & -> & H1).
      apply IH in H2. simpl. split; [f_equal; tauto|constructor; tauto].
    + intros [H1 H2]. destruct w as [|c w]; [discriminate|]. inversion H2; subst.
      exists [c], w. repeat split; [now constructor|]. apply IH. simpl in H1. split; auto.
Qed.

Lemma lang_rep_hex n w : lang (rep n hex_class) w <-> hexes n w.
Proof.
  unfold hex_class, hexes. rewrite lang_rep_class. split; intros [H1 H2]; split; auto;
    revert H2; apply Forall_impl; intros c; unfold hexdig, rng; lia.
Qed.

Lemma lang_uuid w : lang uuid_re w <-> uuid w.
Proof.
  unfold uuid_re, uuid. split.
  - intros H. rewrite lang_cat in H.
    destruct H as (a & w1 & -> & Ha & H). rewrite lang_cat in H.
    destruct H as (k1 & w2 & -> & Hk1 & H). rewrite lang_cat in H.
    destruct H as (b & w3 & -> & Hb & H). rewrite lang_cat in H.
    destruct H as (k2 & w4 & -> & Hk2 & H). rewrite lang_cat in H.
    destruct H as (c & w5 & -> & Hc & H). rewrite lang_cat in H.
    destruct H as (k3 & w6 & -> & Hk3 & H). rewrite lang_cat in H.
    destruct H as (d & w7 & -> & Hd & H). rewrite lang_cat in H.
    destruct H as (k4 & e & -> & Hk4 & He).
    apply lang_chr in Hk1, Hk2, Hk3, Hk4. subst.
    exists a, b, c, d, e. rewrite <- !lang_rep_hex. auto 10.
  - intros (a & b & c & d & e & Ha & Hb & Hc & Hd & He & ->).
    rewrite <- lang_rep_hex in Ha, Hb, Hc, Hd, He.
    repeat (apply LCat; auto); apply lang_chr; reflexivity.
Qed.

Lemma hexdig_ascii l n : hexes n l -> is_ascii l = true.
Proof.
  intros [_ H]. unfold is_ascii. apply forallb_forall. rewrite Forall_forall in H.
  intros x Hx. specialize (H x Hx). unfold hexdig in H. lia.
Qed.

Lemma is_ascii_app a b : is_ascii (a ++ b) = is_ascii a && is_ascii b.
Proof. apply forallb_app. Qed.

Lemma uuid_ascii s : uuid s -> is_ascii s = true.
Proof.
  intros (a & b & c & d & e & Ha & Hb & Hc & Hd & He & ->).
  apply hexdig_ascii in Ha, Hb, Hc, Hd, He.
  rewrite !is_ascii_app, Ha, Hb, Hc, Hd, He. reflexivity.
Qed.

(** If every rune is ASCII then the string was. *)
Lemma runes_ascii_inv s : is_ascii (runes s) = true -> runes s = s.
Proof.
  remember (List.length s) as n eqn:E. assert (H : (List.length s <= n)%nat) by lia. clear E.
  revert s H. induction n as [|n IH]; intros [|b t] H; try (simpl in H; lia); try reflexivity.
  destruct (runes_step b t) as [(c & u & S & E & R)|(S & R)]; rewrite R; unfold is_ascii; cbn [forallb];
    rewrite andb_true_iff; intros [H1 H2].
  - assert (Hc : utf8_bytes c = [c]) by (unfold utf8_bytes; replace (c <? 0x80)%N with true by lia; reflexivity).
    rewrite Hc in E. cbn [app] in E. apply cons_inv in E. destruct E; subst.
    f_equal. apply IH; auto. simpl in H. lia.
  - exfalso. unfold rune_error in H1. lia.
Qed.

Lemma validate_uuid_spec s : validate_uuid s = true <-> uuid s.
Proof.
  unfold validate_uuid. rewrite rmatch_spec, lang_uuid. split; intros H.
  - rewrite (runes_ascii_inv s) in H; auto. now apply uuid_ascii.
  - rewrite runes_ascii; auto. now apply uuid_ascii.
Qed.

(** The header patterns. *)
Lemma lang_header_name w : lang header_name_re w <-> header_name w.
Proof.
  unfold header_name_re, header_name, plus, opt_re. rewrite lang_cat. split.
  - intros (u & v & -> & H1 & H2). exists v. rewrite lang_cat in H2.
    destruct H2 as (x & y & -> & Hx & Hy). apply lang_class in Hx. destruct Hx as (c & -> & Hx).
    apply lang_star_class in Hy. rewrite lang_alt, lang_chr, lang_eps in H1.
    split; [destruct H1 as [->| ->]; auto|]. split; [discriminate|].
    assert (Hall : forall c, (rng 48 57 c || rng 97 122 c || rng 65 90 c
       || (c =? 33) || (c =? 35) || (c =? 36) || (c =? 37) || (c =? 38) || (c =? 39)
       || (c =? 42) || rng 43 46 c || (c =? 94) || (c =? 95) || (c =? 124) || (c =? 126)
       || (c =? 96))%N = true -> token_char c).
    { intros z. unfold token_char, alnum, rng. cbn [In]. lia. }
    constructor; auto. revert Hy. now apply Forall_impl.
  - intros (t & H1 & H2 & H3).
    assert (Hall : forall c, token_char c -> (rng 48 57 c || rng 97 122 c || rng 65 90 c
       || (c =? 33) || (c =? 35) || (c =? 36) || (c =? 37) || (c =? 38) || (c =? 39)
       || (c =? 42) || rng 43 46 c || (c =? 94) || (c =? 95) || (c =? 124) || (c =? 126)
       || (c =? 96))%N = true).
    { intros z. unfold token_char, alnum, rng. cbn [In]. lia. }
    assert (Ht : lang (plus (RClass (fun c => rng 48 57 c || rng 97 122 c || rng 65 90 c
       || (c =? 33) || (c =? 35) || (c =? 36) || (c =? 37) || (c =? 38) || (c =? 39)
       || (c =? 42) || rng 43 46 c || (c =? 94) || (c =? 95) || (c =? 124) || (c =? 126)
       || (c =? 96))%N)) t).
    { destruct t as [|c t]; [congruence|]. inversion H3; subst.
      unfold plus. change (c :: t) with ([c] ++ t). constructor; [constructor; auto|].
      apply lang_star_class. revert H5. now apply Forall_impl. }
    destruct H1 as [->| ->].
    + exists [], t. repeat split; auto. apply LAltR. constructor.
    + exists [58%N], t. repeat split; auto. apply LAltL. now apply lang_chr.
Qed.

Lemma lang_header_value w : lang header_value_re w <-> header_value w.
Proof.
  unfold header_value_re, header_value. rewrite lang_star_class.
  split; apply Forall_impl; intros c; unfold rng; lia.
Qed.

Lemma lang_header_string w : lang header_string_re w <-> header_line w.
Proof.
  unfold header_string_re, header_line. rewrite lang_star_class.
  split; apply Forall_impl; intros c; cbn [In]; lia.
Qed.
