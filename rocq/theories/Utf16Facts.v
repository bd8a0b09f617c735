(** Texts as UTF-8 and as UTF-16: same prefixes, suffixes, parts and lengths. *)
From Coq Require Import Lia ZifyBool ZifyN ZifyNat.
From Verif Require Import Base Utf8 Spec LitSpec Outcome Java BaseFacts Utf8Facts LitFacts.
Local Open Scope N_scope.

Section Code.
Variable enc : N -> list N.
Variable lead : N -> bool.
Hypothesis enc_shape : forall c, scalar_value c -> exists u t, enc c = u :: t /\ lead u = true /\ forallb (fun x => negb (lead x)) t = true.
Hypothesis enc_cancel : forall c c' t t', scalar_value c -> scalar_value c' -> enc c ++ t = enc c' ++ t' -> c = c' /\ t = t'.

Notation E cs := (flat_map enc cs).
Notation text cs := (Forall scalar_value cs).

Lemma code_inj cs : forall ds, text cs -> text ds -> E cs = E ds -> cs = ds.
Proof.
  induction cs as [|c cs IH]; intros [|d ds] Hc Hd H; auto.
  - apply Forall_cons_iff in Hd. destruct Hd as [Hd _]. destruct (enc_shape d Hd) as (u & t & Eq & _). cbn in H. rewrite Eq in H. discriminate.
  - apply Forall_cons_iff in Hc. destruct Hc as [Hc _]. destruct (enc_shape c Hc) as (u & t & Eq & _). cbn in H. rewrite Eq in H. discriminate.
  - apply Forall_cons_iff in Hc, Hd. destruct Hc as [Hc Hcs], Hd as [Hd Hds]. cbn in H.
    apply enc_cancel in H; auto. destruct H as [-> H]. f_equal. auto.
Qed.

Lemma code_prefix ps : forall cs, text cs -> text ps -> starts_with (E cs) (E ps) <-> starts_with cs ps.
Proof.
  induction ps as [|p ps IH]; intros cs Hc Hp.
  - split; intros _; eexists; reflexivity.
  - apply Forall_cons_iff in Hp. destruct Hp as [Hp Hps]. split.
    + intros [t H]. destruct cs as [|c cs].
      * destruct (enc_shape p Hp) as (u & t' & Eq & _). cbn in H. rewrite Eq in H. discriminate.
      * apply Forall_cons_iff in Hc. destruct Hc as [Hc Hcs]. cbn [flat_map] in H. rewrite <- app_assoc in H.
        apply enc_cancel in H; auto. destruct H as [-> H].
        destruct (proj1 (IH cs Hcs Hps)) as [t' ->]; [now exists t|]. now exists t'.
    + intros [t ->]. exists (E t). rewrite flat_map_app. reflexivity.
Qed.

Definition at_lead (x : list N) : Prop := match x with [] => True | u :: _ => lead u = true end.

Lemma at_lead_code cs : text cs -> at_lead (E cs).
Proof.
  intros H. destruct cs as [|c cs]; cbn; auto. apply Forall_cons_iff in H. destruct H as [H _].
  destruct (enc_shape c H) as (u & t & -> & L & _). exact L.
Qed.

Lemma code_split a : forall cs x, text cs -> E cs = a ++ x -> at_lead x -> exists c1 c2, cs = c1 ++ c2 /\ a = E c1 /\ x = E c2.
Proof.
  remember (List.length a) as n eqn:En. revert a En. induction n as [n IH] using lt_wf_ind. intros a En cs x Hc H Hx.
  destruct a as [|u a]; [exists [], cs; cbn in *; auto|].
  destruct cs as [|c cs]; [discriminate|]. apply Forall_cons_iff in Hc. destruct Hc as [Hc Hcs].
  destruct (enc_shape c Hc) as (u' & t & Eq & L & F). cbn [flat_map] in H. rewrite Eq in H. cbn [app] in H. injection H as <- H.
  (* [t] is all in [a] *)
  assert (K : exists a', a = t ++ a').
  { clear - H F Hx. revert a H. induction t as [|y t IHt]; intros a H; [exists a; auto|]. cbn in F. apply andb_true_iff in F. destruct F as [F1 F2].
    destruct a as [|z a].
    - destruct x as [|v x]; [discriminate|]. cbn in H. injection H as <- H. cbn in Hx. rewrite Hx in F1. discriminate.
    - cbn in H. injection H as <- H. destruct (IHt F2 a H) as [a' ->]. now exists a'. }
  destruct K as [a' ->]. rewrite <- app_assoc in H. apply app_inv_head in H.
  destruct (IH (List.length a')) with (a := a') (cs := cs) (x := x) as (c1 & c2 & -> & -> & ->); auto.
  - subst n. cbn. rewrite app_length. lia.
  - exists (c :: c1), c2. cbn. rewrite Eq. cbn. auto.
Qed.

Lemma code_suffix ps cs : text cs -> text ps -> ends_with (E cs) (E ps) <-> ends_with cs ps.
Proof.
  intros Hc Hp. split.
  - intros [t H]. apply code_split in H; auto; [|now apply at_lead_code]. destruct H as (c1 & c2 & -> & _ & H).
    apply Forall_app in Hc. apply code_inj in H; [|auto|tauto]. subst. now exists c1.
  - intros [t ->]. exists (E t). apply flat_map_app.
Qed.

Lemma code_inside ps cs : text cs -> text ps -> has_inside (E cs) (E ps) <-> has_inside cs ps.
Proof.
  intros Hc Hp. split.
  - intros (a & b & H). destruct ps as [|p ps]; [exists [], cs; reflexivity|].
    assert (AL : at_lead (E (p :: ps) ++ b)).
    { clear H. apply Forall_cons_iff in Hp. destruct (enc_shape p (proj1 Hp)) as (u & t & Eq & L & _). cbn. rewrite Eq. exact L. }
    destruct (code_split _ _ _ Hc H AL) as (c1 & c2 & -> & _ & H').
    apply Forall_app in Hc. destruct Hc as [_ Hc].
    assert (S : starts_with (E c2) (E (p :: ps))) by (exists b; auto). apply (proj1 (code_prefix _ _ Hc Hp)) in S.
    destruct S as [t ->]. now exists c1, t.
  - intros (a & b & ->). exists (E a), (E b). rewrite !flat_map_app. reflexivity.
Qed.
End Code.

(** ** UTF-8 *)
Definition lead8 (u : N) : bool := negb ((0x80 <=? u) && (u <? 0xC0)).
Ltac Zify.zify_post_hook ::= Z.div_mod_to_equations.
Lemma utf8_shape c : scalar_value c -> exists u t, utf8_bytes c = u :: t /\ lead8 u = true /\ forallb (fun x => negb (lead8 x)) t = true.
Proof.
  unfold scalar_value, utf8_bytes, lead8. intros S.
  destruct (c <? 0x80) eqn:E1; [exists c, []; cbn; repeat split; lia|].
  destruct (c <? 0x800) eqn:E2; [|destruct (c <? 0x10000) eqn:E3]; eexists; eexists; (split; [reflexivity|]); cbn [forallb]; split; lia.
Qed.

(** ** UTF-16 *)
Definition lead16 (u : N) : bool := negb (is_low u).
Lemma utf16_shape c : scalar_value c -> exists u t, utf16 c = u :: t /\ lead16 u = true /\ forallb (fun x => negb (lead16 x)) t = true.
Proof.
  unfold scalar_value, utf16, lead16, is_low. intros S.
  destruct (c <? 0x10000) eqn:E1; [exists c, []; cbn [forallb]; repeat split; lia|].
  eexists; eexists; (split; [reflexivity|]); cbn [forallb]; split; lia.
Qed.
Lemma utf16_cancel c c' t t' : scalar_value c -> scalar_value c' -> utf16 c ++ t = utf16 c' ++ t' -> c = c' /\ t = t'.
Proof.
  unfold scalar_value, utf16. intros S S' H.
  destruct (c <? 0x10000) eqn:E1, (c' <? 0x10000) eqn:E2; cbn [app] in H.
  - injection H as -> ->. auto.
  - apply cons_inv in H. destruct H as [A B]. exfalso. assert ((c' - 65536) / 1024 < 1024) by (apply N.div_lt_upper_bound; lia).
    generalize dependent ((c' - 65536) / 1024). intros. lia.
  - apply cons_inv in H. destruct H as [A B]. exfalso. assert ((c - 65536) / 1024 < 1024) by (apply N.div_lt_upper_bound; lia).
    generalize dependent ((c - 65536) / 1024). intros. lia.
  - apply cons_inv in H. destruct H as [A H]. apply cons_inv in H. destruct H as [B C]. split; [|exact C].
    assert (D1 := N.div_mod (c - 65536) 1024 ltac:(lia)). assert (D2 := N.div_mod (c' - 65536) 1024 ltac:(lia)).
    assert (A' : (c - 65536) / 1024 = (c' - 65536) / 1024) by (generalize dependent ((c - 65536) / 1024); generalize dependent ((c' - 65536) / 1024); intros; lia).
    assert (B' : (c - 65536) mod 1024 = (c' - 65536) mod 1024) by (generalize dependent ((c - 65536) mod 1024); generalize dependent ((c' - 65536) mod 1024); intros; lia).
    rewrite A', B', <- D2 in D1. lia.
Qed.

Notation text cs := (Forall scalar_value cs).

(** A text: its code points, its bytes and its Java string. *)
Lemma valid_text s : valid_utf8 s -> text (runes s) /\ s = flat_map utf8_bytes (runes s).
Proof.
  intros (cs & Hc & ->). rewrite <- flat_map_concat_map.
  assert (R := runes_app_char_list cs [] Hc). rewrite app_nil_r in R. cbn in R. rewrite app_nil_r in R. now rewrite R.
Qed.

Section Two.
Variable s p : bytes.
Hypothesis Hs : valid_utf8 s.
Hypothesis Hp : valid_utf8 p.

Lemma jstring_inj : jstring s = jstring p <-> s = p.
Proof.
  split; [|now intros ->]. intros H. destruct (valid_text s Hs) as [T ->], (valid_text p Hp) as [U ->].
  f_equal. exact (code_inj _ _ utf16_shape utf16_cancel _ _ T U H).
Qed.
Lemma jstring_prefix : starts_with (jstring s) (jstring p) <-> starts_with s p.
Proof.
  destruct (valid_text s Hs) as [T Es], (valid_text p Hp) as [U Ep]. unfold jstring.
  rewrite (code_prefix _ _ utf16_shape utf16_cancel) by auto. rewrite Es at 2. rewrite Ep at 2.
  symmetry. apply (code_prefix _ _ utf8_shape utf8_cancel); auto.
Qed.
Lemma jstring_suffix : ends_with (jstring s) (jstring p) <-> ends_with s p.
Proof.
  destruct (valid_text s Hs) as [T Es], (valid_text p Hp) as [U Ep]. unfold jstring.
  rewrite (code_suffix _ _ utf16_shape utf16_cancel) by auto. rewrite Es at 2. rewrite Ep at 2.
  symmetry. apply (code_suffix _ _ utf8_shape utf8_cancel); auto.
Qed.
Lemma jstring_inside : has_inside (jstring s) (jstring p) <-> has_inside s p.
Proof.
  destruct (valid_text s Hs) as [T Es], (valid_text p Hp) as [U Ep]. unfold jstring.
  rewrite (code_inside _ _ utf16_shape utf16_cancel) by auto. rewrite Es at 2. rewrite Ep at 2.
  symmetry. apply (code_inside _ _ utf8_shape utf8_cancel); auto.
Qed.
Lemma jstring_eqb : bytes_eqb (jstring s) (jstring p) = true <-> s = p.
Proof. rewrite bytes_eqb_eq. apply jstring_inj. Qed.
End Two.

Lemma jstring_nil s : valid_utf8 s -> jstring s = [] <-> s = [].
Proof.
  intros H. split; [|now intros ->]. intros E. apply (jstring_inj s []); auto. exists []. split; auto.
Qed.

(** ** Lengths *)
Lemma is_high_scalar c : scalar_value c -> is_high c = false.
Proof. unfold scalar_value, is_high. lia. Qed.
Lemma is_low_scalar c : scalar_value c -> is_low c = false.
Proof. unfold scalar_value, is_low. lia. Qed.
Lemma code_points_text cs : text cs -> code_points (flat_map utf16 cs) = N.of_nat (List.length cs).
Proof.
  induction cs as [|c cs IH]; intros H; [reflexivity|]. apply Forall_cons_iff in H. destruct H as [Hc H]. specialize (IH H).
  cbn [flat_map]. unfold utf16 at 1. destruct (c <? 0x10000) eqn:E.
  - cbn [app code_points]. rewrite is_high_scalar by auto. cbn [andb]. destruct (flat_map utf16 cs) as [|u t] eqn:F.
    + destruct cs as [|d cs]; [reflexivity|]. exfalso. cbn in F. apply app_eq_nil in F. destruct F as [F _]. unfold utf16 in F. destruct (d <? 0x10000); discriminate.
    + rewrite IH. cbn [List.length]. lia.
  - cbn [app code_points].
    replace (is_high _ && is_low _) with true by (unfold is_high, is_low, scalar_value in *; lia).
    rewrite IH. cbn [List.length]. lia.
Qed.
Lemma utf8_length_text cs : text cs -> utf8_length (flat_map utf16 cs) = N.of_nat (List.length (flat_map utf8_bytes cs)).
Proof.
  induction cs as [|c cs IH]; intros H; [reflexivity|]. apply Forall_cons_iff in H. destruct H as [Hc H]. specialize (IH H).
  cbn [flat_map]. rewrite app_length. unfold utf16 at 1. destruct (c <? 0x10000) eqn:E.
  - cbn [app utf8_length]. rewrite is_high_scalar, is_low_scalar by auto. cbn [andb orb].
    assert (L : (if c <? 0x80 then 1 else if c <? 0x800 then 2 else 3) = N.of_nat (List.length (utf8_bytes c))).
    { unfold utf8_bytes. destruct (c <? 0x80); [reflexivity|]. destruct (c <? 0x800); [reflexivity|]. now rewrite E. }
    destruct (flat_map utf16 cs) as [|u t] eqn:F.
    + rewrite L. destruct cs as [|d cs]; [cbn [flat_map List.length]; lia|]. exfalso. cbn in F. apply app_eq_nil in F. destruct F as [F _]. unfold utf16 in F. destruct (d <? 0x10000); discriminate.
    + rewrite IH, L. lia.
  - cbn [app utf8_length].
    replace (is_high _ && is_low _) with true by (unfold is_high, is_low, scalar_value in *; lia).
    rewrite IH. unfold utf8_bytes. replace (c <? 0x80) with false by lia. replace (c <? 0x800) with false by lia. rewrite E. cbn [List.length]. lia.
Qed.

Lemma jstring_chars s n : valid_utf8 s -> chars_count s n <-> code_points (jstring s) = n.
Proof. intros H. destruct (valid_text s H) as [T _]. rewrite chars_count_iff. unfold rune_count, jstring. now rewrite code_points_text. Qed.
Lemma jstring_bytes s n : valid_utf8 s -> bytes_count s n <-> utf8_length (jstring s) = n.
Proof. intros H. destruct (valid_text s H) as [T Es]. unfold bytes_count, jstring. rewrite utf8_length_text by auto. now rewrite <- Es. Qed.

(** ** ASCII *)
Lemma utf16_ascii c : c < 128 -> utf16 c = [c].
Proof. intros H. unfold utf16. replace (c <? 0x10000) with true by lia. reflexivity. Qed.
Lemma utf16_small c x : In x (utf16 c) -> x < 128 -> utf16 c = [x].
Proof.
  unfold utf16. destruct (c <? 0x10000) eqn:E; cbn [In]; [intros [->|[]]; auto|]. intros [H|[H|[]]] L; lia.
Qed.
Lemma decodes_ascii s l : decodes s l -> Forall (fun c => c < 128) l -> s = l.
Proof.
  induction 1 as [|c t l S D IH|b t l N D IH]; intros F; auto; apply Forall_cons_iff in F; destruct F as [F1 F2].
  - rewrite (IH F2). unfold utf8_bytes. replace (c <? 0x80) with true by lia. reflexivity.
  - lia.
Qed.
(** A Java string of ASCII characters comes from the same bytes. *)
Lemma jstring_ascii s : Forall (fun c => c < 128) (jstring s) <-> is_ascii s = true.
Proof.
  split.
  - intros F. assert (R : Forall (fun c => c < 128) (runes s)).
    { unfold jstring in F. induction (runes s) as [|c l IH]; constructor; cbn in F; apply Forall_app in F; destruct F as [F1 F2]; auto.
      unfold utf16 in F1. destruct (c <? 0x10000) eqn:E; [now inversion F1|]. apply Forall_cons_iff in F1. destruct F1 as [F1 _].
      exfalso. generalize dependent ((c - 65536) / 1024). intros. lia. }
    assert (D := decodes_runes s). apply decodes_ascii in D; auto. rewrite D. unfold is_ascii. apply forallb_forall. intros x Hx.
    rewrite Forall_forall in R. specialize (R x Hx). lia.
  - intros A. unfold jstring. rewrite runes_ascii by auto. unfold is_ascii in A. rewrite forallb_forall in A.
    apply Forall_forall. intros x Hx. apply in_flat_map in Hx. destruct Hx as (c & Hc & Hx). specialize (A c Hc).
    rewrite utf16_ascii in Hx by lia. destruct Hx as [<-|[]]. lia.
Qed.
Lemma jstring_of_ascii s : is_ascii s = true -> jstring s = s.
Proof.
  intros A. unfold jstring. rewrite runes_ascii by auto. unfold is_ascii in A. induction s as [|c s IH]; auto. cbn in *.
  apply andb_true_iff in A. destruct A as [A1 A2]. rewrite utf16_ascii by lia. cbn. now rewrite IH.
Qed.
