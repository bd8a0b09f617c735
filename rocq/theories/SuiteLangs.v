(** What the generated Java, C++ and Python code makes of the cases of the suite. *)
From Coq Require Import Lia ZifyBool SpecFloat.
From Verif Require Import Base Utf8 Num Rules Types Iface Time Checker GoSem Spec Outcome Setting HarnessMainSpec Java Cc Py SuiteData Suite SuiteFacts.
Import ListNotations.
Open Scope Z_scope.

Definition outcome_eqb (a b : outcome) : bool :=
  match a, b with Passes, Passes | Rejects, Rejects | Unimplemented, Unimplemented | Crashes, Crashes => true | _, _ => false end.
Lemma outcome_eqb_eq a b : outcome_eqb a b = true -> a = b.
Proof. destruct a, b; cbn; congruence. Qed.

(** What a case expects of any language. *)
Definition expected (t : tcase) : outcome := if c_failures t =? 0 then Passes else Rejects.

Definition java_on (ms : Z) (t : tcase) : outcome :=
  assert_valid_f (suite_jl ms) suite_checked suite_ignored (S (mheight (c_msg t))) (c_type t) (c_msg t).
Definition cc_on (t : tcase) : outcome := cc_validate_f suite_cl suite_checked (S (mheight (c_msg t))) (c_type t) (c_msg t).
Definition py_on (now : spec_float) (t : tcase) : outcome :=
  py_validate_f (suite_pl now) suite_pn suite_schema (S (mheight (c_msg t))) (c_type t) (c_msg t).

(** The types with rules that Java and C++ do not implement. *)
Definition java_missing : list string := ["MapNoSparse"]%string.
Definition cc_missing : list string :=
  ["StringEmail"; "StringURI"; "StringURIRef"; "BytesIP"; "BytesIPv4"; "BytesIPv6"; "MapNoSparse";
   "TimestampConst"; "TimestampLT"; "TimestampLTE"; "TimestampGT"; "TimestampGTE"; "TimestampGTLT"; "TimestampExLTGT";
   "TimestampGTELTE"; "TimestampExGTELTE"; "TimestampLTNow"; "TimestampGTNow"; "TimestampWithin"; "TimestampLTNowWithin";
   "TimestampGTNowWithin"; "KitchenSinkMessage"]%string.
Definition among (l : list string) (n : string) : bool := existsb (String.eqb n) l.
Lemma among_in l n : among l n = true -> In n l.
Proof. unfold among. rewrite existsb_exists. intros (x & I & E). apply String.eqb_eq in E. now subst. Qed.

(** As expected, or the type is [ignored], or among those of [missing] and the rule reported as not implemented. *)
Definition as_told (missing : list string) (o : outcome) (t : tcase) : bool :=
  suite_ignored (c_type t) || outcome_eqb o (expected t) || among missing (c_type t) && outcome_eqb o Unimplemented.

Lemma static_java t0 ms : forallb (fun t => clocked t || as_told java_missing (java_on ms t) t) (suite t0) = true.
Proof. vm_cast_no_check (eq_refl true). Qed.
Lemma static_py t0 now : forallb (fun t => clocked t || outcome_eqb (py_on now t) (expected t)) (suite t0) = true.
Proof. vm_cast_no_check (eq_refl true). Qed.
Lemma static_cc t0 : forallb (fun t => clocked t || as_told cc_missing (cc_on t) t) (suite t0) = true.
Proof. vm_cast_no_check (eq_refl true). Qed.
Lemma clocked_cc t0 : Forall (fun t => as_told cc_missing (cc_on t) t = true) (clocked_cases t0).
Proof.
  unfold clocked_cases, ts_case.
  repeat (apply Forall_cons; [cbv -[Z.add Z.sub Z.mul Z.ltb Z.leb]; try reflexivity|]); [..|apply Forall_nil].
Qed.

(** ** Java's clock, in milliseconds *)
Lemma j_compare_now ms s : -62135596800000 <= ms <= 253402300799999 -> -62135596800 <= s <= 253402300799 ->
  jts_compare (mkSN s 0) (mkSN (ms / 1000) (ms mod 1000 * 1000000)) = Some (Z.compare (s * 1000) ms).
Proof.
  intros M S. unfold jts_compare, jts_valid, sn_compare. cbn [sn_s sn_n].
  assert (A := Z.div_mod ms 1000 ltac:(lia)). assert (B := Z.mod_pos_bound ms 1000 ltac:(lia)).
  destruct (_ && _) eqn:E.
  - f_equal. destruct (Z.compare_spec s (ms / 1000)); destruct (Z.compare_spec (s * 1000) ms); try lia; try reflexivity.
    all: destruct (Z.compare_spec 0 (ms mod 1000 * 1000000)); try lia; reflexivity.
  - exfalso. lia.
Qed.
Lemma j_within_now ms s : 0 <= ms <= 9001000000000 -> 0 <= s <= 9001000000 ->
  j_within (mkSN s 0) (mkSN 3600 0) (mkSN (ms / 1000) (ms mod 1000 * 1000000)) = throw_unless (Z.abs (s * 1000 - ms) <=? 3600000).
Proof.
  intros M S. unfold j_within, jts_valid, jdur_valid, total, fits_int64, min_int64, max_int64. cbn [sn_s sn_n].
  assert (A := Z.div_mod ms 1000 ltac:(lia)). assert (B := Z.mod_pos_bound ms 1000 ltac:(lia)).
  set (q := ms / 1000) in *. set (r := ms mod 1000) in *. change (2 ^ 63) with 9223372036854775808 in *.
  replace (_ && _) with true by lia. f_equal. change (jabs (3600 * 1000000000 + 0)) with 3600000000000. unfold jabs.
  change (- 2 ^ 63) with (-9223372036854775808).
  destruct (Z.eqb_spec (s * 1000000000 + 0 - (q * 1000000000 + r * 1000000)) (-9223372036854775808)); lia.
Qed.
Lemma clocked_java t0 ms : 7200 <= t0 <= 9000000000 -> t0 * 1000 <= ms < (t0 + 1800) * 1000 ->
  Forall (fun t => as_told java_missing (java_on ms t) t = true) (clocked_cases t0).
Proof.
  intros R N. unfold clocked_cases, ts_case.
  repeat (apply Forall_cons; [cbv -[Z.add Z.sub Z.mul Z.ltb Z.leb Z.div Z.modulo jts_compare j_within]; try reflexivity|]); [..|apply Forall_nil].
  all: rewrite ?j_compare_now, ?j_within_now by lia.
  all: repeat match goal with |- context [Z.compare ?a ?b] => destruct (Z.compare_spec a b) end.
  all: repeat match goal with |- context [?a <=? ?b] => let E := fresh "E" in destruct (a <=? b) eqn:E end.
  all: first [reflexivity|exfalso; lia].
Qed.

(** ** All cases *)
Lemma with_clock (P : tcase -> bool) t0 : forallb (fun t => clocked t || P t) (suite t0) = true ->
  Forall (fun t => P t = true) (clocked_cases t0) -> Forall (fun t => P t = true) (suite t0).
Proof.
  intros S F. apply Forall_forall. intros t I. rewrite forallb_forall in S. apply S in I as B.
  destruct (clocked t) eqn:C; [|exact B].
  assert (J : In t (clocked_cases t0)) by (rewrite <- clocked_list; apply filter_In; auto).
  rewrite Forall_forall in F. auto.
Qed.
Lemma told missing o t : as_told missing o t = true -> suite_ignored (c_type t) = false ->
  o = expected t \/ o = Unimplemented /\ In (c_type t) missing.
Proof.
  unfold as_told. intros H E. rewrite E in H. cbn [orb] in H. apply orb_prop in H. destruct H as [H|H]; [left; now apply outcome_eqb_eq|].
  apply andb_prop in H. right. split; [now apply outcome_eqb_eq|now apply among_in].
Qed.
Lemma all_cc t0 t : In t (suite t0) -> suite_ignored (c_type t) = false ->
  cc_on t = expected t \/ cc_on t = Unimplemented /\ In (c_type t) cc_missing.
Proof.
  intros I Ig. assert (F := with_clock _ t0 (static_cc t0) (clocked_cc t0)). rewrite Forall_forall in F. eapply told; eauto.
Qed.
Lemma all_java t0 ms t : 7200 <= t0 <= 9000000000 -> t0 * 1000 <= ms < (t0 + 1800) * 1000 ->
  In t (suite t0) -> suite_ignored (c_type t) = false ->
  java_on ms t = expected t \/ java_on ms t = Unimplemented /\ In (c_type t) java_missing.
Proof.
  intros R N I Ig. assert (F := with_clock _ t0 (static_java t0 ms) (clocked_java t0 ms R N)). rewrite Forall_forall in F. eapply told; eauto.
Qed.
Lemma all_py t0 now t : In t (suite t0) -> clocked t = false -> py_on now t = expected t.
Proof.
  intros I C. assert (S := static_py t0 now). rewrite forallb_forall in S. apply S in I. rewrite C in I. now apply outcome_eqb_eq.
Qed.
