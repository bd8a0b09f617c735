(** C37, C42: validation in C++.

    [cc_validate_f cl sc fuel n m] runs the generated Validate for the message type [n] on [m], with the libraries
    [cl]; the fuel bounds the nesting of messages.  CcSpec.v says on which schemas and values it has to agree with
    the rules; the theorems named [_refuted] at the end show what happens outside. *)
From Coq Require Import Floats.SpecFloat Lia.
From Verif Require Import Base Utf8 Num Rules Types Time Iface Checker GoGen Known GoSem Spec Meaning LitSpec Wt Setting MainFacts MeaningFacts
  KnownFacts RegexFacts HostFacts LangFacts Values Outcome Says Example JavaFacts JavaEx Cc CcSpec CcFacts CcRunFacts CcEx.

(** ** C42: whole messages *)
Lemma ex3_cset : cc_setting re_any ex3_schema ex3_checked ex_orc ex_cl.
Proof. destruct ex3_setting. constructor; auto. exact ex3_cc. Qed.

(** C++ validation returns true exactly on the valid messages and false, never throwing, on the others. *)
Theorem cc_validate_exact : forall re_ok sc0 sc orc cl, cc_setting re_ok sc0 sc orc cl ->
  forall n d m, message sc0 n d m -> cc_values sc orc cl n m ->
  forall fuel, mheight m < fuel ->
    (cc_validate_f cl sc fuel n m = Passes <-> valid orc sc0 n m) /\
    (cc_validate_f cl sc fuel n m = Rejects <-> ~ valid orc sc0 n m).
Proof.
  intros re_ok sc0 sc orc cl [C W O J] n d m [F M T] V fuel H.
  assert (Y : validated_type sc0 n = true) by (unfold validated_type; rewrite F; unfold has_methods in M; destruct (md_methods d); auto).
  destruct (cc_validate_says re_ok sc0 sc orc cl C W O J fuel n d m F T V H) as [[E P]|[E P]]; rewrite E;
    (split; split; intros X; try discriminate; auto; exfalso; auto).
Qed.
Print Assumptions cc_validate_exact.
Example cc_validate_exact_ex :
  cc_validate_f ex_cl ex3_checked 3 "Account" ex3_good = Passes /\
  cc_validate_f ex_cl ex3_checked 3 "Account" ex3_bad = Rejects /\
  valid ex_orc ex3_schema "Account" ex3_good /\ ~ valid ex_orc ex3_schema "Account" ex3_bad.
Proof.
  split; [vm_compute; reflexivity|]. split; [vm_compute; reflexivity|]. split.
  - apply (cc_validate_exact _ _ _ _ _ ex3_cset _ _ _ ex3_good_msg ex3_good_cc 3); vm_compute; [lia|reflexivity].
  - apply (cc_validate_exact _ _ _ _ _ ex3_cset _ _ _ ex3_bad_msg ex3_bad_cc 3); vm_compute; [lia|reflexivity].
Qed.

(** C++ and Go give the same verdict. *)
Theorem cc_agrees_with_go : forall re_ok sc0 sc orc cl, setting re_ok sc0 sc orc -> cc_schema cl sc ->
  forall n d m, message sc0 n d m -> cc_values sc orc cl n m ->
  forall all fuel, mheight m < fuel ->
    (cc_validate_f cl sc fuel n m = Passes <-> validate sc orc all n m = VNil) /\
    (cc_validate_f cl sc fuel n m = Rejects <-> exists e, validate sc orc all n m = VErr e).
Proof.
  intros re_ok sc0 sc orc cl st J n d m M V all fuel H.
  assert (cs : cc_setting re_ok sc0 sc orc cl) by (destruct st; constructor; auto).
  destruct (cc_validate_exact _ _ _ _ _ cs _ _ _ M V fuel H) as [A B].
  destruct (run_verdict re_ok sc0 sc orc st n d all m M) as [A' B']. split; etransitivity; eauto; now symmetry.
Qed.
Print Assumptions cc_agrees_with_go.
Example cc_agrees_with_go_ex :
  setting re_any ex3_schema ex3_checked ex_orc /\ cc_schema ex_cl ex3_checked /\
  message ex3_schema "Account" ex3_account ex3_bad /\ cc_values ex3_checked ex_orc ex_cl "Account" ex3_bad /\
  (exists e, validate ex3_checked ex_orc true "Account" ex3_bad = VErr e).
Proof. repeat (split; [first [exact ex3_setting|exact ex3_cc|exact ex3_bad_msg|exact ex3_bad_cc]|]). eexists. vm_compute. reflexivity. Qed.

(** ** C37: validate.h *)

(** For all bytes. *)
Theorem cc_affixes_exact : forall p s,
  (cc_is_prefix p s = true <-> starts_with s p) /\ (cc_is_suffix p s = true <-> ends_with s p) /\ (cc_contains s p = true <-> has_inside s p).
Proof. intros p s. exact (conj (cc_is_prefix_spec p s) (conj (cc_is_suffix_spec p s) (cc_contains_spec s p))). Qed.
Print Assumptions cc_affixes_exact.
(** The number of characters, in valid UTF-8. *)
Theorem cc_utf8_len_exact : forall s n, valid_utf8 s -> (chars_count s n <-> cc_utf8_len s = n).
Proof. exact cc_utf8_len_count. Qed.
Print Assumptions cc_utf8_len_exact.
Example cc_utf8_len_ex : valid_utf8 ([0xF0; 0x9F; 0x98; 0x80; 0xC3; 0xA9; 97])%N /\ cc_utf8_len [0xF0; 0x9F; 0x98; 0x80; 0xC3; 0xA9; 97]%N = 3%N.
Proof.
  split; [|vm_compute; reflexivity]. exists [0x1F600; 0xE9; 97]%N. split; [|vm_compute; reflexivity].
  repeat (apply Forall_cons; [unfold scalar_value; lia|]). apply Forall_nil.
Qed.
(** RFC 1034 host names, for all bytes; on ASCII that is what Go accepts. *)
Theorem cc_hostname_exact : forall s, is_bytes s = true -> (cc_is_hostname s = true <-> rfc_hostname s).
Proof.
  intros s B. apply cc_is_hostname_spec. unfold is_bytes in B. rewrite forallb_forall in B. apply Forall_forall. intros c Hc. specialize (B c Hc). unfold is_byte in B. lia.
Qed.
Print Assumptions cc_hostname_exact.
Theorem cc_hostname_agrees_with_go : forall s, ascii s -> (cc_is_hostname s = true <-> validate_hostname s = None).
Proof.
  intros s A. rewrite validate_hostname_spec, hostname_ascii by exact A. apply cc_is_hostname_spec.
  eapply Forall_impl; [|exact A]. cbn. intros; lia.
Qed.
Print Assumptions cc_hostname_agrees_with_go.
Example cc_hostname_ex : map cc_is_hostname [bs "example.org"; bs "example.org."; bs "a..b"; bs "-a"; bs ""; bs "a_b"; bs "9"] =
  [true; true; false; false; false; false; true].
Proof. vm_compute. reflexivity. Qed.
Theorem cc_uuid_exact : forall s, cc_is_uuid s = true <-> uuid s.
Proof. exact cc_is_uuid_spec. Qed.
Print Assumptions cc_uuid_exact.

(** ** C37: the generated checks *)

(** Every number that is not compared with a list as NaN.  For integers there are no other conditions than
    that the constants of the rule are constants in C++. *)
Theorem cc_num_exact : forall cl k r n, num_of_kind k n = true -> cc_num_ok cl k r -> check_num r = true ->
  (n_in r <> [] \/ n_not_in r <> [] -> ~ nan n) -> says (cc_num cl k r n) (num_meaning r n).
Proof. exact cc_num_says. Qed.
Print Assumptions cc_num_exact.
Theorem cc_integer_exact : forall cl k r z, is_float k = false -> num_of_kind k (NI z) = true -> check_num r = true ->
  (forall n, (n_const r = Some n \/ n_lt r = Some n \/ n_lte r = Some n \/ n_gt r = Some n \/ n_gte r = Some n \/
              In n (n_in r) \/ In n (n_not_in r)) -> cc_const k n) ->
  says (cc_num cl k r (NI z)) (num_meaning r (NI z)).
Proof.
  intros cl k r z F K C H. apply cc_num_says; auto; [|intros _; discriminate]. split; [exact H|]. split; intros ->; discriminate F.
Qed.
Print Assumptions cc_integer_exact.
(** A reversed range: below 10 or at least 90. *)
Definition outside : num_rules := mkNumRules None (Some (NI 10)) None None (Some (NI 90)) [] [NI 100] None.
Example cc_num_ex : cc_num_ok ex_cl KUInt32 outside /\ check_num outside = true /\
  map (fun z => cc_num ex_cl KUInt32 outside (NI z)) [0; 9; 10; 89; 90; 100; 4294967295]%Z =
    [Passes; Passes; Rejects; Rejects; Passes; Rejects; Passes].
Proof. split; [c_num|]. split; vm_compute; reflexivity. Qed.

Theorem cc_bool_exact : forall c b, says (cc_bool c b) (forall x, c = Some x -> b = x).
Proof. exact cc_bool_says. Qed.
Print Assumptions cc_bool_exact.

(** [r] is [r0] with the pattern of well_known_regex filled in by the plugin. *)
Theorem cc_string_exact : forall re_ok orc cl r0 r s, oracle_ok orc -> check_string re_ok r0 = Some r -> cc_str_ok r ->
  is_bytes s = true -> cc_ruled cl orc (RString r) (VStr s) -> says (cc_string cl r s) (str_meaning orc r0 s).
Proof.
  intros re_ok orc cl r0 r s O C J B V. eapply says_iff; [symmetry; eapply str_flat_iff; eauto|].
  destruct (string_lists _ _ _ C) as (S1 & S2 & S3). exact (cc_string_says orc cl r s J B S1 S2 S3 V).
Qed.
Print Assumptions cc_string_exact.
Definition three : string_rules := mkStringRules None (Some 3%N) None None (Some 7%N) None None None None (Some (bs "a")) None (Some (bs "x")) [] [] None None None.
Example cc_string_ex : check_string re_any three = Some three /\ cc_str_ok three /\
  map (cc_string ex_cl three) [[0xF0; 0x9F; 0x98; 0x80; 0xC3; 0xA9; 97]; [0xF0; 0x9F; 0x98; 0x80; 0xC3; 0xA9; 98]; [98; 98; 97]]%N = [Passes; Rejects; Rejects].
Proof. split; [vm_compute; reflexivity|]. split; [c_str|vm_compute; reflexivity]. Qed.

Theorem cc_bytes_exact : forall orc cl r s, check_bytes (fun _ => true) r = true -> cc_byt_ok r -> cc_ruled cl orc (RBytes r) (VByt s) ->
  says (cc_bytes cl r s) (byt_meaning orc r s).
Proof.
  intros orc cl r s C J V. apply cc_bytes_says; auto. unfold check_bytes in C. rewrite !andb_true_iff in C. apply ins_excl. apply C.
Qed.
Print Assumptions cc_bytes_exact.

Theorem cc_enum_exact : forall sc e r z, e_in r = [] \/ e_not_in r = [] -> says (cc_enum sc e r z) (enum_meaning sc e r z).
Proof. exact cc_enum_says. Qed.
Print Assumptions cc_enum_exact.
Example cc_enum_ex : map (cc_enum ex3_checked "Color" (mkEnumRules None (Some true) [] [2%Z])) [0; 1; 2; 3; -1]%Z = [Passes; Passes; Rejects; Rejects; Rejects].
Proof. vm_compute. reflexivity. Qed.

Theorem cc_any_exact : forall r o, cc_any_ok r -> a_in r = [] \/ a_not_in r = [] -> says (cc_any r o) (any_meaning r o).
Proof. exact cc_any_says. Qed.
Print Assumptions cc_any_exact.

(** All durations but those whose parts have opposite signs. *)
Theorem cc_duration_exact : forall r o, cc_dur_ok r -> check_duration r = true ->
  (forall d, o = Some d -> ~ ((sn_s d < 0 < sn_n d)%Z \/ (sn_n d < 0 < sn_s d)%Z)) ->
  says (cc_duration r o) (dur_meaning r o).
Proof. exact cc_duration_says. Qed.
Print Assumptions cc_duration_exact.
Definition hours : duration_rules := mkDurationRules (Some true) None None (Some (mkSN 7200 0)) (Some (mkSN (-1) (-500000000))) None [] [mkSN 3600 0].
Example cc_duration_ex : cc_dur_ok hours /\ check_duration hours = true /\
  map (cc_duration hours) [None; Some (mkSN 7200 0); Some (mkSN 3600 0); Some (mkSN (-1) (-499999999)); Some (mkSN (-1) (-500000000)); Some (mkSN 315576000001 0)]
    = [Rejects; Passes; Rejects; Passes; Rejects; Rejects].
Proof. split; [some_cases; (split; vm_compute; reflexivity)|split; vm_compute; reflexivity]. Qed.

(** min_items, max_items, min_pairs and max_pairs. *)
Theorem cc_count_exact : forall n mn mx, says (cc_count n mn mx) (count_meaning n mn mx).
Proof. exact cc_count_says. Qed.
Print Assumptions cc_count_exact.
Example cc_count_ex : map (fun n => cc_count n (Some 2%N) (Some 4%N)) [1; 2; 4; 5]%N = [Rejects; Passes; Passes; Rejects] /\
  map (fun n => cc_count n None (Some 0%N)) [0; 1]%N = [Passes; Rejects].
Proof. split; vm_compute; reflexivity. Qed.

(** [unique]: no two items are equal. *)
Theorem cc_unique_exact : forall cl sc0 sc emb e l, is_embed e = false -> Forall (wt_elem sc0 e) l ->
  says (cc_repeated cl sc emb e (mkRepRules None None (Some true) None None) l)
    (forall i j x y, i < j -> nth_error l i = Some x -> nth_error l j = Some y -> ~ same_item y x).
Proof.
  intros cl sc0 sc emb e l E W. unfold cc_repeated.
  cbn [r_ignore_empty r_min r_max r_unique r_items getb negb andb orb only_if]. rewrite Forall_forall in W.
  assert (C : cc_count (N.of_nat (List.length l)) None None = Passes) by reflexivity. rewrite C. cbn [andthen].
  eapply says_iff; [|apply (cc_items_says sc cl emb true e None (wt_elem sc0 e) (fun _ => True) l [])].
  - split.
    + intros [H _] i j x y Hij Hx Hy. destruct (H eq_refl j y Hy) as [_ K]. eauto.
    + intros H. split; [|auto]. intros _ j y Hy. split; [intros x []|]. intros i x Hi Hx. eapply H; eauto.
  - intros _ x y Wx Wy. now apply (cc_equals_iff sc0 e).
  - intros x [[]|I]. auto.
  - intros x _. cbn [cc_elem]. rewrite E. apply says_true.
Qed.
Print Assumptions cc_unique_exact.
Example cc_unique_ex : let r := cc_repeated ex_cl ex3_checked (fun _ _ => Passes) TString (mkRepRules None None (Some true) None None) in
  map r [[VStr (bs "a"); VStr (bs "b"); VStr (bs "A")]; [VStr (bs "a"); VStr (bs "b"); VStr (bs "a")]] = [Passes; Rejects].
Proof. vm_compute. reflexivity. Qed.

(** ** What is not implemented throws, whatever the value *)
Theorem cc_timestamp_unimplemented : forall r o, ts_constrained r -> (t_required r = Some true -> o <> None) -> cc_timestamp r o = Unimplemented.
Proof.
  intros r o C R. unfold cc_timestamp. destruct (says_exact _ _ (cc_required_says (t_required r) o)) as [E _]. rewrite (proj2 E R). cbn [andthen].
  unfold ts_constrained in C.
  assert (O : forall A (x : option A), x <> None -> is_some x = true) by (intros A []; cbn; congruence).
  match goal with |- only_if ?b _ = _ => assert (X : b = true) end.
  { rewrite !orb_true_iff. destruct C as [C|[C|[C|[C|[C|[C|[C|C]]]]]]]; apply O in C; rewrite C; tauto. }
  rewrite X. reflexivity.
Qed.
Print Assumptions cc_timestamp_unimplemented.
Theorem cc_email_uri_unimplemented : forall cl w s, In w [WEmail true; WUri true; WUriRef true] -> cc_well_known cl (Some w) s = Unimplemented.
Proof. intros cl w s H. in_cases H; subst w; reflexivity. Qed.
Print Assumptions cc_email_uri_unimplemented.
Example cc_unimplemented_ex : ts_constrained (mkTimestampRules None None None None None None (Some true) None None).
Proof. unfold ts_constrained. cbn. do 5 right. left. discriminate. Qed.

(** ** Outside the fragment

    [cc_deviates cl t fr v go o]: with one field of type [t] and rules [fr], and the value [v] in it, Go's
    Validate accepts (if [go]) or rejects, and C++ ends with [o] (CcEx.v). *)
Definition c_num_rule (k : numkind) (r : num_rules) : field_rules := FR None (Some (RNum k r)).
Definition c_str_rule (r : string_rules) : field_rules := FR None (Some (RString r)).
Definition str_const (s : bytes) : string_rules := mkStringRules (Some s) None None None None None None None None None None None [] [] None None None.
Ltac dev := match goal with |- cc_deviates _ ?t ?fr _ _ _ => cc_dev t fr end.

(** A constant ends at its first NUL. *)
Theorem cc_const_nul_refuted : cc_deviates ex_cl (FOne TString) (c_str_rule (str_const [97; 0; 98]%N)) (VStr [97; 0; 98]%N) true Rejects.
Proof. dev. Qed.
(** NaN is in every list that is not empty. *)
Theorem cc_nan_in_refuted :
  cc_deviates ex_cl (FOne (TNum KDouble)) (c_num_rule KDouble (mkNumRules None None None None None [f12] [] None)) (VNum (NF S754_nan)) false Passes.
Proof. dev. Qed.
Theorem cc_nan_not_in_refuted :
  cc_deviates ex_cl (FOne (TNum KDouble)) (c_num_rule KDouble (mkNumRules None None None None None [] [f12] None)) (VNum (NF S754_nan)) true Rejects.
Proof. dev. Qed.
(** A float constant is printed with six decimals: 2^-24 as 0.000000. *)
Definition f_tiny : spec_float := S754_finite false 8388608 (-47).
Theorem cc_float_const_refuted :
  cc_deviates ex_cl (FOne (TNum KFloat)) (c_num_rule KFloat (mkNumRules (Some (NF f_tiny)) None None None None [] [] None)) (VNum (NF f_tiny)) true Rejects.
Proof. dev. Qed.
(** A float bound is compared as a double.  The double nearest to 0.1 is less than the float nearest to 0.1, so that 0.1f does
    not satisfy [lte: 0.1]. *)
Definition f_tenth : spec_float := S754_finite false 13421773 (-27).
Definition d_tenth : spec_float := S754_finite false 7205759403792794 (-56).
Theorem cc_float_lte_refuted :
  cc_deviates (mkCcLibs (cl_full ex_cl) (cl_inet4 ex_cl) (cl_inet6 ex_cl) (fun f => match f with S754_finite false 13421773 (-27) => d_tenth | _ => widen f end))
    (FOne (TNum KFloat)) (c_num_rule KFloat (mkNumRules None None (Some (NF f_tenth)) None None [] [] None)) (VNum (NF f_tenth)) true Rejects.
Proof. dev. Qed.
(** A duration whose parts have opposite signs. *)
Theorem cc_mixed_duration_refuted :
  cc_deviates ex_cl (FOne TDur) (FR None (Some (RDuration (mkDurationRules None None None None (Some (mkSN 0 0)) None [] [])))) (VDur (Some (mkSN 1 (-1)))) false Passes.
Proof. dev. Qed.
(** The Kelvin sign, which Go's ToLower makes a "k". *)
Theorem cc_kelvin_refuted :
  cc_deviates ex_cl (FOne TString) (c_str_rule (with_wk (WHostname true) str_none)) (VStr [0xE2; 0x84; 0xAA]%N) true Rejects.
Proof. dev. Qed.
(** Bytes that are not UTF-8: Go counts each, C++ believes the first one. *)
Theorem cc_invalid_utf8_refuted :
  cc_deviates ex_cl (FOne TString) (c_str_rule (min_len 3 str_none)) (VStr [0xE2; 0x84; 97]%N) true Rejects.
Proof. dev. Qed.
(** Not implemented. *)
Theorem cc_email_refuted :
  cc_deviates ex_cl (FOne TString) (c_str_rule (with_wk (WEmail true) str_none)) (VStr (bs "a@b")) true Unimplemented.
Proof. dev. Qed.
Theorem cc_timestamp_refuted :
  cc_deviates ex_cl (FOne TTs) (FR None (Some (RTimestamp (mkTimestampRules None None None None None None (Some true) None None)))) (VTs None) true Unimplemented.
Proof. dev. Qed.
Theorem cc_no_sparse_refuted :
  cc_deviates ex_cl (FMap TBool (TMsg "Ignored")) (FR None (Some (RMap (mkMapRules None None (Some true) None None None)))) (VMap []) true Unimplemented.
Proof. dev. Qed.
Theorem cc_bytes_ip_refuted :
  cc_deviates ex_cl (FOne TBytes) (FR None (Some (RBytes (mkBytesRules None None None None None None None None [] [] (Some (BIp true)) None))))
    (VByt [127; 0; 0; 1]%N) true Unimplemented.
Proof. dev. Qed.

Print Assumptions cc_const_nul_refuted.
Print Assumptions cc_nan_in_refuted.
Print Assumptions cc_nan_not_in_refuted.
Print Assumptions cc_float_const_refuted.
Print Assumptions cc_float_lte_refuted.
Print Assumptions cc_mixed_duration_refuted.
Print Assumptions cc_kelvin_refuted.
Print Assumptions cc_invalid_utf8_refuted.
Print Assumptions cc_email_refuted.
Print Assumptions cc_timestamp_refuted.
Print Assumptions cc_no_sparse_refuted.
Print Assumptions cc_bytes_ip_refuted.
