(** Witnesses about the checker: schemas refused without a conflict, rules accepted on the wrong type,
    accepted rules that contradict each other. *)
From Coq Require Import Lia Floats.SpecFloat.
From Verif Require Import Base Utf8 Num Rules Types Time Iface Checker GoGen GoSem Spec Conflict ConflictFacts Meaning SatFacts
  Wt WtDec Setting FieldFacts RuleFacts Example.

Definition leaf (r : rule_type) : Prop :=
  match r with RRepeated _ | RMap _ => False | _ => True end.

(** A schema with one field and one rule. *)
Lemma consistent_one re_ok t r : leaf r -> fits (On_field t) r ->
  ~ conflict re_ok (with_field [] [] [] t (FR None (Some r))) (On_field t) r ->
  consistent re_ok (with_field [] [] [] t (FR None (Some r))).
Proof.
  intros L F C. split.
  - intros s r' (m & f & Im & _ & If & St). cbn in Im. destruct Im as [<-|[]]. cbn in If. destruct If as [<-|[]].
    cbn in St. inversion St; subst; auto; destruct L.
  - intros m f Im _ If mr E. cbn in Im. destruct Im as [<-|[]]. cbn in If. destruct If as [<-|[]]. discriminate.
Qed.

Ltac no_range := intros K; destruct K as [C D|D1 D2|D1 D2|D1 D2|D1 D2|a b Da Db S]; cbn in *; try congruence;
  decompose [or] Da; decompose [or] Db; try discriminate.

Lemma huge_max_refused : exists r, s_max_len r = Some (2^63)%N /\
  let sc := with_field [] [] [] (FOne TString) (FR None (Some (RString r))) in
  consistent re_any sc /\ check_schema re_any sc = None.
Proof.
  pose (r := (mkStringRules None None None (Some (2^63)%N) None None None None None None None None [] [] None None None)).
  exists r. split; [reflexivity|]. split; [|vm_compute; reflexivity].
  apply consistent_one; [exact I|left; left; reflexivity|].
  intros K. cbn in K. destruct K; cbn in *; try congruence.
  - destruct H as (a & b & E & _). discriminate.
  - destruct H as (a & b & E & _). discriminate.
  - destruct H as (a & b & _ & E & _). discriminate.
  - destruct H0 as (q & n & m & E & _). decompose [or] H; subst p; discriminate.
  - destruct H0 as (q & n & m & E & _). decompose [or] H; subst p; discriminate.
Qed.

Lemma long_durations_refused : exists r, d_lt r = Some (mkSN 9223372038 0) /\ d_gt r = Some (mkSN 9223372037 0) /\
  let sc := with_field [] [] [] (FOne TDur) (FR None (Some (RDuration r))) in
  consistent re_any sc /\ check_schema re_any sc = None.
Proof.
  pose (r := (mkDurationRules None None (Some (mkSN 9223372038 0)) None (Some (mkSN 9223372037 0)) None [] [])).
  exists r. split; [reflexivity|]. split; [reflexivity|]. split; [|vm_compute; reflexivity].
  apply consistent_one; [exact I|exact I|].
  intros K. cbn in K. destruct K as [d ND H|K]; cbn in *.
  - decompose [or] H; try tauto; try discriminate;
      match goal with H : Some _ = Some _ |- _ => injection H as <- end; apply ND; unfold valid_duration; cbn; lia.
  - destruct K as [C D|D1 D2|D1 D2|D1 D2|D1 D2|a b Da Db S]; cbn in *; try congruence.
    destruct Da as [Da|Da]; try discriminate; injection Da as <-.
    destruct Db as [Db|Db]; try discriminate; injection Db as <-. discriminate S.
Qed.

Lemma far_timestamps_refused : exists r, t_lt r = Some (mkSN 18446744073 709551616) /\ t_gt r = Some (mkSN 0 0) /\
  let sc := with_field [] [] [] (FOne TTs) (FR None (Some (RTimestamp r))) in
  consistent re_any sc /\ check_schema re_any sc = None.
Proof.
  pose (r := (mkTimestampRules None None (Some (mkSN 18446744073 709551616)) None (Some (mkSN 0 0)) None None None None)).
  exists r. split; [reflexivity|]. split; [reflexivity|]. split; [|vm_compute; reflexivity].
  apply consistent_one; [exact I|exact I|].
  intros K. cbn in K. destruct K as [d ND H|d E _|K|A B|A B]; cbn in *; try congruence.
  - decompose [or] H; try tauto; try discriminate;
      match goal with H : Some _ = Some _ |- _ => injection H as <- end; apply ND; unfold valid_timestamp; cbn; lia.
  - destruct K as [C D|D1 D2|D1 D2|D1 D2|D1 D2|a b Da Db S]; cbn in *; try congruence.
    destruct Da as [Da|Da]; try discriminate; injection Da as <-.
    destruct Db as [Db|Db]; try discriminate; injection Db as <-. discriminate S.
  - decompose [or] A; congruence.
Qed.

Lemma wrong_type_accepted : exists sc ra rd rt,
  check_schema re_any sc <> None /\
  rule_in sc (On_field (FOne (TNum KInt32))) (RAny ra) /\
  rule_in sc (On_field (FOne TString)) (RDuration rd) /\
  rule_in sc (On_field (FRep TBool)) (RTimestamp rt).
Proof.
  pose (ra := mkAnyRules (Some true) [] []).
  pose (rd := mkDurationRules None None (Some (mkSN 1 0)) None None None [] []).
  pose (rt := mkTimestampRules None None None None None None (Some true) None None).
  pose (m := mkMsg "M" [mkField "A" (FOne (TNum KInt32)) (FR None (Some (RAny ra)));
                        mkField "B" (FOne TString) (FR None (Some (RDuration rd)));
                        mkField "C" (FRep TBool) (FR None (Some (RTimestamp rt)))] [] false MBoth).
  exists (mkSchema [m] [] ["M"%string]), ra, rd, rt.
  split; [vm_compute; discriminate|].
  split; [|split].
  - exists m, (mkField "A" (FOne (TNum KInt32)) (FR None (Some (RAny ra)))). cbn. split; [auto|]. split; [auto|].
    split; [auto|]. apply stands_here.
  - exists m, (mkField "B" (FOne TString) (FR None (Some (RDuration rd)))). cbn. split; [auto|]. split; [auto|].
    split; [auto|]. apply stands_here.
  - exists m, (mkField "C" (FRep TBool) (FR None (Some (RTimestamp rt)))). cbn. split; [auto|]. split; [auto|].
    split; [auto|]. apply stands_here.
Qed.

(** Accepted rules no message satisfies. *)
Lemma contradiction_number : exists sc0 sc,
  setting re_any sc0 sc ex_orc /\
  (exists r, sc0 = with_field [] [] [] (FOne (TNum KInt32)) (FR None (Some (RNum KInt32 r)))) /\
  forall all v, num_of_kind KInt32 v = true -> validate sc ex_orc all "M" (one (VNum v)) <> VNil.
Proof.
  pose (r := mkNumRules None (Some (NI 6)) None (Some (NI 5)) None [] [] None).
  pose (s0 := with_field [] [] [] (FOne (TNum KInt32)) (FR None (Some (RNum KInt32 r)))).
  assert (ST : setting re_any s0 (checked_of' s0) ex_orc) by in_setting'.
  exists s0, (checked_of' s0). split; [exact ST|]. split; [eexists; reflexivity|].
  intros all v K E. apply (p_num re_any [] [] [] _ ex_orc all KInt32 r v ST K) in E.
  destruct E as [[E _]|(_ & [N|W] & _)].
  - discriminate.
  - rewrite N in K. discriminate K.
  - destruct v as [z|f]; [|discriminate K]. cbn in W. lia.
Qed.

Lemma contradiction_string : exists sc0 sc,
  setting re_any sc0 sc ex_orc /\
  (exists r, sc0 = with_field [] [] [] (FOne TString) (FR None (Some (RString r)))) /\
  forall all s, is_bytes s = true -> validate sc ex_orc all "M" (one (VStr s)) <> VNil.
Proof.
  pose (r := mkStringRules None None None None (Some 2%N) None None None (Some (bs "abc")) None None None [] [] None None None).
  pose (s0 := with_field [] [] [] (FOne TString) (FR None (Some (RString r)))).
  assert (ST : setting re_any s0 (checked_of' s0) ex_orc) by in_setting'.
  exists s0, (checked_of' s0). split; [exact ST|]. split; [eexists; reflexivity|].
  intros all s K E. apply (p_string re_any [] [] [] _ ex_orc all r s ST K) in E.
  destruct E as [[E _]|E]; [discriminate|].
  destruct E as (_ & _ & _ & _ & _ & L & _ & _ & P & _).
  specialize (L 2%N eq_refl). specialize (P (bs "abc") eq_refl).
  unfold bytes_count in L. destruct P as (t & ->). rewrite app_length in L. cbn in L. lia.
Qed.

Lemma contradiction_enum : exists sc0 sc,
  setting re_any sc0 sc ex_orc /\
  (exists r, sc0 = with_field [] [mkEnum "Color" [0; 1; 2]%Z] [] (FOne (TEnum "Color")) (FR None (Some (REnum r)))) /\
  forall all z, (- 2^31 <= z < 2^31)%Z -> validate sc ex_orc all "M" (one (VEnum z)) <> VNil.
Proof.
  pose (r := mkEnumRules (Some 1%Z) None [2%Z] []).
  pose (s0 := with_field [] [mkEnum "Color" [0; 1; 2]%Z] [] (FOne (TEnum "Color")) (FR None (Some (REnum r)))).
  assert (ST : setting re_any s0 (checked_of' s0) ex_orc) by in_setting'.
  exists s0, (checked_of' s0). split; [exact ST|]. split; [eexists; reflexivity|].
  intros all z K E. apply (p_enum re_any [] [mkEnum "Color" [0; 1; 2]%Z] [] _ ex_orc all "Color" r z ST) in E.
  destruct E as (E1 & [E2 _] & _). specialize (E1 1%Z eq_refl). specialize (E2 ltac:(discriminate)).
  inversion E2 as [? ? Q|? ? Q]; [lia|inversion Q].
Qed.
