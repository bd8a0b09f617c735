(** The induction over embedded messages once more, for code that may find a rule that is not implemented. *)
From Coq Require Import Lia.
From Verif Require Import Base Utf8 Num Rules Types Time Iface Checker GoSem Spec Meaning Wt BaseFacts Utf8Facts NumFacts TimeFacts
  ExecFacts ExecRule ExecField ExecMsg Main ValidSame MeaningFacts Outcome Values Says Tells LangFacts.

Section Safe.
Variable re_ok : bytes -> bool.
Variable sc0 sc : schema.
Variable orc : oracles.
Hypothesis checked : check_schema re_ok sc0 = Some sc.
Hypothesis wf : wf_schema sc0.
Hypothesis OK : oracle_ok orc.
Notation V := (valid orc sc0).
Notation th l := (Forall t_holds l).

Variable leaf : bool -> bool -> etype -> field_rules -> value -> Prop.
Variable callable : string -> Prop.
Variable frag : field -> Prop.
Hypothesis frag_shape : forall f, frag f ->
  match f_type f, fr_typ (f_rules f) with FRep _, Some (RRepeated _) | FRep _, None | FMap _ _, Some (RMap _) | FMap _ _, None | FOne _, _ => True | _, _ => False end.

(** The code for an embedded message, on messages of limited nesting. *)
Definition emb_safe (emb : string -> msgval -> outcome) (h : nat) : Prop :=
  forall n d x, find_msg sc0 n = Some d -> wt_msg sc0 d x -> all_values sc leaf n x -> callable n -> (S (mheight x) <= h)%nat ->
    tells (emb n x) (validated_type sc0 n = true -> V n x).

Variable run_field : (string -> msgval -> outcome) -> field -> value -> outcome.
Hypothesis field_tells : forall emb f v, frag f -> sane_field f -> wt_field sc0 (f_type f) v ->
  all_field sc leaf (f_type f) (f_rules f) v -> ftype_ok sc0 (f_type f) -> emb_safe emb (vheight v) ->
  tells (run_field emb f v) (field_flat orc sc0 V f v).

Definition safe_oneof emb (o : oneof) (s : option (string * value)) : outcome :=
  match s with
  | Some (fn, v) =>
      match find (fun f => String.eqb fn (f_name f)) (o_fields o) with
      | Some f => run_field emb f v
      | None => Passes
      end
  | None => throw_unless (negb (getb (o_required o)))
  end.


Lemma emb_safe_le emb h h' : (h' <= h)%nat -> emb_safe emb h -> emb_safe emb h'.
Proof using. clear. intros L H n d x A1 A2 A3 A4 A5. eapply H; eauto. lia. Qed.


Section Msg.
Variable emb : string -> msgval -> outcome.
Variable d0 d : msgdesc.
Variable n : string.
Variable m : msgval.
Hypothesis Hfind0 : find_msg sc0 n = Some d0.
Hypothesis Hfind : find_msg sc n = Some d.
Hypothesis Hin : In d0 (sc_msgs sc0).
Hypothesis Hck : check_msg re_ok sc0 d0 = Some d.
Hypothesis Hact : active d = true.
Hypothesis Hwt : wt_msg sc0 d0 m.
Hypothesis Hall : all_values sc leaf n m.
Hypothesis Hfr : Forall frag (all_fields d).
Hypothesis Hemb : emb_safe emb (mheight m).

Lemma safe_enabled : md_disabled d0 = false.
Proof.
  destruct (check_msg_name _ _ _ _ Hck) as (_ & _ & E). rewrite <- E. unfold active in Hact. destruct (md_disabled d); auto; discriminate.
Qed.
Lemma safe_parts : (forall f v, In f (md_fields d) -> assoc (f_name f) (mv_fields m) = Some v -> all_field sc leaf (f_type f) (f_rules f) v) /\
    (forall o f v, In o (md_oneofs d) -> In f (o_fields o) ->
       assoc (o_name o) (mv_oneofs m) = Some (Some (f_name f, v)) -> all_field sc leaf (f_type f) (f_rules f) v).
Proof.
  clear - Hall Hfind Hact. inversion Hall as [n' m' d' F A|n' d' m' F A B]; subst.
  - rewrite Hfind in F. injection F as <-. congruence.
  - rewrite Hfind in F. injection F as <-. auto.
Qed.

Lemma safe_field f0 f v : check_field re_ok sc0 f0 = Some f -> In f0 (all_fields d0) -> In f (all_fields d) -> wt_field sc0 (f_type f0) v ->
  all_field sc leaf (f_type f) (f_rules f) v -> (vheight v <= mheight m)%nat ->
  tells (run_field emb f v) (th (field_reqs orc sc0 V f0 v)).
Proof.
  intros C I0 I1 W A L. destruct (check_field_name _ _ _ _ C) as [En Et].
  assert (F : frag f) by (rewrite Forall_forall in Hfr; auto).
  destruct (field_flat_iff re_ok orc sc0 V OK f0 f v C (frag_shape f F)) as [Sn Iff].
  eapply tells_iff; [symmetry; exact Iff|]. apply field_tells; auto.
  - now rewrite Et.
  - rewrite Et. destruct (wf d0 Hin) as [_ W']. auto.
  - eapply emb_safe_le; eauto.
Qed.

Lemma fields_tell :
  tells (in_order (map (fun f => match assoc (f_name f) (mv_fields m) with Some v => run_field emb f v | None => Passes end) (md_fields d)))
    (forall f, In f (md_fields d0) -> forall v, assoc (f_name f) (mv_fields m) = Some v -> th (field_reqs orc sc0 V f v)).
Proof.
  destruct (check_msg_parts re_ok sc0 d0 d safe_enabled Hck) as [F1 _]. destruct safe_parts as [P1 _]. destruct (wf d0 Hin) as [[N1 N2] _].
  apply (tells_map2 _ _ _ _ _ F1). intros f0 f I0 I1 C. destruct (check_field_name _ _ _ _ C) as [En Et]. rewrite En.
  destruct (wt_parts sc0 _ _ Hwt) as [W1 _].
  assert (ND : NoDup (map f_name (md_fields d0))).
  { unfold all_fields in N1. rewrite map_app in N1. clear - N1. induction (map f_name (md_fields d0)) as [|x l IH]; [constructor|].
    cbn in N1. apply NoDup_cons_iff in N1. destruct N1 as [A B]. constructor; auto. intros K. apply A. apply in_app_iff. auto. }
  destruct (wt_assoc sc0 _ _ _ W1 ND I0) as (v & Ev & Wv & Iv). rewrite Ev.
  eapply tells_iff; [|apply (safe_field f0 f v); auto].
  - split; [intros H w [= <-]; exact H|auto].
  - unfold all_fields. apply in_app_iff; auto.
  - unfold all_fields. apply in_app_iff; auto.
  - apply P1; auto. now rewrite En.
  - eapply field_height; eauto.
Qed.

Lemma oneofs_tell :
  tells (in_order (map (fun o => match assoc (o_name o) (mv_oneofs m) with Some s => safe_oneof emb o s | None => Passes end) (md_oneofs d)))
    (forall o, In o (md_oneofs d0) -> forall s, assoc (o_name o) (mv_oneofs m) = Some s -> oneof_flat orc sc0 V o s).
Proof.
  destruct (check_msg_parts re_ok sc0 d0 d safe_enabled Hck) as [_ F2]. destruct safe_parts as [_ P2]. destruct (wf d0 Hin) as [[N1 N2] _].
  apply (tells_map2 _ _ _ _ _ F2). intros o0 o I0 I1 C.
  unfold check_oneof in C. destruct (map_opt (check_field re_ok sc0) (o_fields o0)) as [fl|] eqn:Ef; [|discriminate]. injection C as <-.
  apply map_opt_forall2 in Ef. cbn [o_name].
  destruct (wt_parts sc0 _ _ Hwt) as [_ W2].
  destruct (wt_assoc_oneof sc0 _ _ _ W2 N2 I0) as (s & Es & Ws & Is). rewrite Es.
  eapply tells_iff with (P := oneof_flat orc sc0 V o0 s); [split; [intros H w [= <-]; exact H|auto]|].
  inversion Ws as [o' E1 E2|o' f0 v If Wv E1 E2]; subst; cbn [safe_oneof oneof_flat o_fields o_required].
  - apply tells_throw. destruct (getb _); cbn; split; auto; discriminate.
  - assert (ND := oneof_nodup _ _ N1 I0). rewrite (find_field _ _ ND If).
    assert (K : exists f, find (fun g => String.eqb (f_name f0) (f_name g)) fl = Some f /\ In f fl /\ check_field re_ok sc0 f0 = Some f).
    { clear - Ef If ND. induction Ef as [|a b l l' H _ IH]; [contradiction|]. cbn in ND. apply NoDup_cons_iff in ND. destruct ND as [A B].
      destruct (check_field_name _ _ _ _ H) as [En Et]. cbn. rewrite En. destruct (String.eqb_spec (f_name f0) (f_name a)) as [E|E].
      - destruct If as [->|If]; [exists b; auto|]. exfalso. apply A. rewrite <- E. now apply in_map.
      - destruct If as [->|If]; [congruence|]. destruct (IH If B) as (f & X & Y & Z). exists f. auto. }
    destruct K as (f & Ff & If' & C). rewrite Ff. destruct (check_field_name _ _ _ _ C) as [En Et].
    eapply tells_iff; [|apply (safe_field f0 f v); auto].
    + split; [intros H w [= <-]; exact H|auto].
    + unfold all_fields. apply in_app_iff. right. apply in_flat_map. eauto.
    + unfold all_fields. apply in_app_iff. right. apply in_flat_map. eexists. split; [exact I1|exact If'].
    + eapply P2; [exact I1|exact If'|]. cbn [o_name]. now rewrite Es, En.
    + eapply oneof_height; eauto.
Qed.

End Msg.
End Safe.
