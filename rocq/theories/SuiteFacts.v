(** Facts about the conformance suite (SuiteData.v), by computation where no clock is read. *)
From Coq Require Import Floats.SpecFloat Lia.
From Verif Require Import Base Utf8 Num Rules Types Time Iface Checker GoGen Regex Known GoSem Spec SpecErr Outcome Java Cc Py
  RegexFacts KnownFacts Utf8Facts TimeFacts Wt WtDec WtMsgDec Setting MainFacts Harness HarnessMain HarnessMainSpec SuiteData Suite.
Local Open Scope Z_scope.

Lemma suite_orc_ok now : oracle_ok (suite_orc now).
Proof.
  constructor.
  - intros s. cbn [o_match suite_orc]. unfold suite_match. replace (bytes_eqb re_header_name re_header_name) with true by reflexivity.
    rewrite rmatch_spec, lang_header_name. split.
    + intros H. exists (runes s). split; auto. now apply decodes_iff.
    + intros (l & D & H). apply decodes_iff in D. now subst.
  - intros s. cbn [o_match suite_orc]. unfold suite_match. replace (bytes_eqb re_header_value re_header_name) with false by reflexivity.
    replace (bytes_eqb re_header_value re_header_value) with true by reflexivity.
    rewrite rmatch_spec, lang_header_value. split.
    + intros H. exists (runes s). split; auto. now apply decodes_iff.
    + intros (l & D & H). apply decodes_iff in D. now subst.
  - intros s. cbn [o_match suite_orc]. unfold suite_match. replace (bytes_eqb re_header_string re_header_name) with false by reflexivity.
    replace (bytes_eqb re_header_string re_header_value) with false by reflexivity.
    replace (bytes_eqb re_header_string re_header_string) with true by reflexivity.
    rewrite rmatch_spec, lang_header_string. split.
    + intros H. exists (runes s). split; auto. now apply decodes_iff.
    + intros (l & D & H). apply decodes_iff in D. now subst.
  - intros s a. cbn [o_mail suite_orc]. unfold lookup. destruct (find _ suite_mail) as [e|] eqn:E; [|discriminate]. intros [= <-].
    apply find_some in E. destruct E as [I _].
    assert (A : forallb (fun e => existsb (N.eqb 64) (snd e)) suite_mail = true) by (vm_compute; reflexivity).
    rewrite forallb_forall in A. apply A, existsb_exists in I. destruct I as (c & I & Q). apply N.eqb_eq in Q. now subst.
Qed.

Lemma suite_check : check_schema suite_re_ok suite_schema = Some suite_checked.
Proof. vm_compute. reflexivity. Qed.
Lemma suite_setting now : setting suite_re_ok suite_schema suite_checked (suite_orc now).
Proof.
  constructor; [exact suite_check|apply wf_schemab_sound; vm_compute; reflexivity|
    apply supportedb_sound; vm_compute; reflexivity|apply suite_orc_ok].
Qed.

(** A message of a type for which Validate and ValidateAll are generated. *)
Definition typed (t : tcase) : bool :=
  match find_msg suite_schema (c_type t) with
  | Some d => has_methods d && match md_methods d with MBoth => true | _ => false end && wt_msgb suite_schema 6 d (c_msg t)
  | None => false
  end.
(** ValidateAll finds as many violations as expected. *)
Definition counted (now : Z) (t : tcase) : bool :=
  match validate suite_checked (suite_orc now) true (c_type t) (c_msg t) with
  | VNil => c_failures t =? 0
  | VErr g => negb (c_failures t =? 0) && (Z.of_nat (List.length (leaves g)) =? c_failures t)
  | VStuck => false
  end.

(** ** Cases that do not depend on the clock *)
Lemma static_typed t0 : forallb (fun t => clocked t || suite_ignored (c_type t) || typed t) (suite t0) = true.
Proof. vm_cast_no_check (eq_refl true). Qed.
Lemma static_go t0 now : forallb (fun t => clocked t || suite_ignored (c_type t) || counted now t) (suite t0) = true.
Proof. vm_cast_no_check (eq_refl true). Qed.

(** ** Cases that depend on it *)

(** The suite is started at [t0] (in seconds, from 1970-01-01T02:00Z until shortly before the end of 9999), a case is
    validated at [now] (in nanoseconds), less than half an hour later. *)
Definition running (t0 now : Z) : Prop :=
  7200 <= t0 <= 253402290000 /\ t0 * 1000000000 <= now < (t0 + 1800) * 1000000000.

Definition ts_case (n : string) (o : option Z) (k : Z) : tcase :=
  Case n (MV [("Val"%string, VTs (match o with Some s => Some (mkSN s 0) | None => None end))] []) k.
Definition clocked_cases (t0 : Z) : list tcase :=
  [ts_case "TimestampLTNow" (Some 0) 0; ts_case "TimestampLTNow" None 0; ts_case "TimestampLTNow" (Some (t0 + 7200)) 1;
   ts_case "TimestampGTNow" (Some (t0 + 7200)) 0; ts_case "TimestampGTNow" None 0; ts_case "TimestampGTNow" (Some 0) 1;
   ts_case "TimestampWithin" (Some t0) 0; ts_case "TimestampWithin" None 0; ts_case "TimestampWithin" (Some 0) 1;
   ts_case "TimestampWithin" (Some (t0 + 7200)) 1;
   ts_case "TimestampLTNowWithin" (Some (t0 - 1800)) 0; ts_case "TimestampLTNowWithin" None 0;
   ts_case "TimestampLTNowWithin" (Some (t0 + 1800)) 1; ts_case "TimestampLTNowWithin" (Some (t0 - 7200)) 1;
   ts_case "TimestampGTNowWithin" (Some (t0 + 1800)) 0; ts_case "TimestampGTNowWithin" None 0;
   ts_case "TimestampGTNowWithin" (Some (t0 - 1800)) 1; ts_case "TimestampGTNowWithin" (Some (t0 + 7200)) 1]%string.
Lemma clocked_list t0 : filter clocked (suite t0) = clocked_cases t0.
Proof. cbv -[Z.add Z.sub]. reflexivity. Qed.

Lemma in_range s : -62135596800 <= s <= 253402300799 -> ts_check (mkSN s 0) = None.
Proof. intros H. apply ts_check_spec. unfold valid_timestamp. cbn. lia. Qed.
Lemma sn_range s : -62135596800 <= s <= 253402300799 -> is_snb (mkSN s 0) = true.
Proof. intros H. unfold is_snb. cbn [sn_s sn_n]. lia. Qed.

Lemma clocked_typed t0 : 7200 <= t0 <= 253402290000 -> Forall (fun t => typed t = true) (clocked_cases t0).
Proof.
  intros R.
  assert (R1 := sn_range 0 ltac:(lia)). assert (R2 := sn_range (t0 + 7200) ltac:(lia)). assert (R3 := sn_range t0 ltac:(lia)).
  assert (R4 := sn_range (t0 + 1800) ltac:(lia)). assert (R5 := sn_range (t0 - 1800) ltac:(lia)). assert (R6 := sn_range (t0 - 7200) ltac:(lia)).
  unfold clocked_cases, ts_case.
  repeat (apply Forall_cons; [cbv -[Z.add Z.sub is_snb]; rewrite ?R1, ?R2, ?R3, ?R4, ?R5, ?R6; reflexivity|]). apply Forall_nil.
Qed.

Lemma hour : dur_lit (mkSN 3600 0) = Some 3600000000000.
Proof. reflexivity. Qed.
Lemma minus_hour : wrap64 (Z.opp 3600000000000) = -3600000000000.
Proof. reflexivity. Qed.
Ltac z_cases :=
  repeat match goal with
  | |- context [if ?a <=? ?b then _ else _] => let E := fresh "E" in destruct (a <=? b) eqn:E
  | |- context [if ?a <? ?b then _ else _] => let E := fresh "E" in destruct (a <? b) eqn:E
  end.

Lemma clocked_go t0 now : running t0 now -> Forall (fun t => counted now t = true) (clocked_cases t0).
Proof.
  intros [R N].
  assert (R1 := in_range 0 ltac:(lia)). assert (R2 := in_range (t0 + 7200) ltac:(lia)). assert (R3 := in_range t0 ltac:(lia)).
  assert (R4 := in_range (t0 + 1800) ltac:(lia)). assert (R5 := in_range (t0 - 1800) ltac:(lia)). assert (R6 := in_range (t0 - 7200) ltac:(lia)).
  unfold clocked_cases, ts_case.
  repeat (apply Forall_cons; [cbv -[Z.add Z.sub Z.mul Z.ltb Z.leb Z.opp time_sub ts_check wrap64 dur_lit]; try reflexivity|]); [..|apply Forall_nil].
  all: first [rewrite R1|rewrite R2|rewrite R3|rewrite R4|rewrite R5|rewrite R6].
  all: rewrite ?hour; cbv beta iota; rewrite ?time_sub_lt, ?time_sub_le, ?time_sub_gt, ?time_sub_ge, ?minus_hour, ?time_sub_lt, ?time_sub_le, ?time_sub_gt, ?time_sub_ge.
  all: z_cases; first [reflexivity|exfalso; lia].
Qed.

(** ** All cases *)
Lemma all_typed t0 : 7200 <= t0 <= 253402290000 -> Forall (fun t => suite_ignored (c_type t) = false -> typed t = true) (suite t0).
Proof.
  intros R. apply Forall_forall. intros t I Ig. assert (S := static_typed t0). rewrite forallb_forall in S. apply S in I as B.
  rewrite Ig in B. destruct (clocked t) eqn:C; [|exact B].
  assert (J : In t (clocked_cases t0)) by (rewrite <- clocked_list; apply filter_In; auto).
  assert (T := clocked_typed t0 R). rewrite Forall_forall in T. auto.
Qed.
Lemma all_counted t0 now : running t0 now -> Forall (fun t => suite_ignored (c_type t) = false -> counted now t = true) (suite t0).
Proof.
  intros R. apply Forall_forall. intros t I Ig. assert (S := static_go t0 now). rewrite forallb_forall in S. apply S in I as B.
  rewrite Ig in B. destruct (clocked t) eqn:C; [|exact B].
  assert (J : In t (clocked_cases t0)) by (rewrite <- clocked_list; apply filter_In; auto).
  assert (T := clocked_go t0 now R). rewrite Forall_forall in T. auto.
Qed.

Lemma typed_message t : typed t = true ->
  exists d, message suite_schema (c_type t) d (c_msg t) /\ md_methods d = MBoth.
Proof.
  unfold typed. destruct (find_msg suite_schema (c_type t)) as [d|] eqn:F; [|discriminate]. intros H.
  apply andb_prop in H. destruct H as [H W]. apply andb_prop in H. destruct H as [H B]. exists d. split.
  - constructor; auto. eapply wt_msgb_sound; eauto.
  - destruct (md_methods d); congruence.
Qed.
Lemma counted_right now t : typed t = true -> counted now t = true -> right_case suite_schema (suite_orc now) t.
Proof.
  intros T C. destruct (typed_message t T) as (d & M & _).
  assert (V := run_verdict _ _ _ _ (suite_setting now) _ _ true _ M). destruct V as [V1 V2].
  unfold right_case. rewrite <- V1. unfold counted in C. destruct (validate _ _ _ _ _) as [|g|]; [|..].
  - apply Z.eqb_eq in C. tauto.
  - apply andb_prop in C. destruct C as [C _]. apply Bool.negb_true_iff, Z.eqb_neq in C. split; [tauto|discriminate].
  - discriminate.
Qed.

(** TimestampGTNowWithin, when its time has come. *)
Lemma late_case t0 now : 7200 <= t0 <= 253402290000 -> (t0 + 1800) * 1000000000 <= now ->
  forall d, message suite_schema "TimestampGTNowWithin" d (MV [("Val"%string, VTs (Some (mkSN (t0 + 1800) 0)))] []) ->
  ~ valid (suite_orc now) suite_schema "TimestampGTNowWithin" (MV [("Val"%string, VTs (Some (mkSN (t0 + 1800) 0)))] []).
Proof.
  intros R L d M V. apply (proj2 (proj1 (run_verdict _ _ _ _ (suite_setting now) _ _ true _ M))) in V. revert V.
  assert (R4 := in_range (t0 + 1800) ltac:(lia)).
  cbv -[Z.add Z.sub Z.mul Z.ltb Z.leb Z.opp time_sub ts_check wrap64 dur_lit]. rewrite R4, hour. cbv beta iota.
  rewrite ?time_sub_lt, ?time_sub_le, ?time_sub_gt, ?time_sub_ge, ?minus_hour, ?time_sub_lt, ?time_sub_le, ?time_sub_gt, ?time_sub_ge.
  z_cases; first [discriminate|exfalso; lia].
Qed.

Lemma static_ignored t0 : forallb (fun t => negb (suite_ignored (c_type t)) ||
  (c_failures t =? 0) && match match find_msg suite_checked (c_type t) with Some d => md_methods d | None => MNone end with MNone => true | _ => false end)
  (suite t0) = true.
Proof. vm_cast_no_check (eq_refl true). Qed.

Lemma suite_no_legacy : no_legacy suite_schema.
Proof.
  intros k x F. unfold find_msg in F. apply find_some in F. destruct F as [I _].
  assert (A : forallb (fun d => match md_methods d with MLegacy => false | _ => true end) (sc_msgs suite_schema) = true) by (vm_compute; reflexivity).
  rewrite forallb_forall in A. specialize (A x I). destruct (md_methods x); congruence.
Qed.

Definition is_two (t : tcase) : bool :=
  String.eqb (c_type t) "MapValues" && (c_failures t =? 2) &&
  match c_msg t with MV [(f, VMap [(VStr a, VStr a'); (VStr b, VStr b')])] [] =>
    String.eqb f "Val" && bytes_eqb a (bs "a") && bytes_eqb a' (bs "A") && bytes_eqb b (bs "b") && bytes_eqb b' (bs "B")
  | _ => false end.
Lemma find_two t0 : In (Case "MapValues" (MV [("Val"%string, VMap [(VStr (bs "a"), VStr (bs "A")); (VStr (bs "b"), VStr (bs "B"))])] []) 2) (suite t0).
Proof.
  destruct (find is_two (suite t0)) as [t|] eqn:F.
  - replace (Case _ _ _) with t; [now apply find_some in F|]. vm_compute in F. injection F as <-. reflexivity.
  - vm_compute in F. discriminate.
Qed.
