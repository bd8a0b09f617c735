(** C10, C31, C35, C41: validation in Java.

    [assert_valid_f jl sc ignored fuel n m] runs the generated validator of the message type [n] on [m], with the
    libraries [jl]; the fuel bounds the nesting of messages.  JavaSpec.v says on which schemas and values it
    has to agree with the rules; the theorems named [_refuted] at the end show what happens outside. *)
From Coq Require Import Floats.SpecFloat Lia.
From Verif Require Import Base Num Rules Types Time Iface Checker GoGen Known GoSem Spec Meaning LitSpec Wt Setting MainFacts MeaningFacts FieldFacts
  KnownFacts RegexFacts LangFacts Values Outcome Says Example Java JavaSpec JavaFacts JavaRunFacts JavaEx.

(** ** C41: whole messages *)

Lemma ex2_jset : java_setting re_any ex2_schema ex2_checked ex_orc (fun _ => false).
Proof. destruct ex2_setting. constructor; auto. exact ex2_java. Qed.
Lemma ex2_good_jmsg : java_message ex2_checked ex_orc ex_jl (fun _ => false) "Person" ex_good.
Proof. constructor; [reflexivity|exact ex2_good_java]. Qed.
Lemma ex2_bad_jmsg : java_message ex2_checked ex_orc ex_jl (fun _ => false) "Person" ex_bad.
Proof. constructor; [reflexivity|exact ex2_bad_java]. Qed.

(** The Java validator passes exactly the valid messages and throws ValidationException, never anything
    else, on the others. *)
Theorem java_assert_valid_exact : forall re_ok sc0 sc orc jl ignored, java_setting re_ok sc0 sc orc ignored ->
  forall n d m, message sc0 n d m -> java_message sc orc jl ignored n m ->
  forall fuel, mheight m < fuel ->
    (assert_valid_f jl sc ignored fuel n m = Passes <-> valid orc sc0 n m) /\
    (assert_valid_f jl sc ignored fuel n m = Rejects <-> ~ valid orc sc0 n m).
Proof.
  intros re_ok sc0 sc orc jl ignored [C W O J] n d m [F M T] [I V] fuel H.
  assert (Y : validated_type sc0 n = true) by (unfold validated_type; rewrite F; unfold has_methods in M; destruct (md_methods d); auto).
  destruct (assert_valid_says re_ok sc0 sc orc jl ignored C W O J fuel n d m F T V I H) as [[E P]|[E P]]; rewrite E;
    (split; split; intros X; try discriminate; auto; exfalso; auto).
Qed.
Print Assumptions java_assert_valid_exact.
Example java_assert_valid_exact_ex :
  assert_valid_f ex_jl ex2_checked (fun _ => false) 3 "Person" ex_good = Passes /\
  assert_valid_f ex_jl ex2_checked (fun _ => false) 3 "Person" ex_bad = Rejects /\
  valid ex_orc ex2_schema "Person" ex_good /\ ~ valid ex_orc ex2_schema "Person" ex_bad.
Proof.
  split; [vm_compute; reflexivity|]. split; [vm_compute; reflexivity|]. split.
  - apply (java_assert_valid_exact _ _ _ _ _ _ ex2_jset _ _ _ ex2_good_msg ex2_good_jmsg 3); vm_compute; [lia|reflexivity].
  - apply (java_assert_valid_exact _ _ _ _ _ _ ex2_jset _ _ _ ex2_bad_msg ex2_bad_jmsg 3); vm_compute; [lia|reflexivity].
Qed.

(** Java and Go give the same verdict. *)
Theorem java_agrees_with_go : forall re_ok sc0 sc orc jl ignored,
  setting re_ok sc0 sc orc -> java_schema sc ignored ->
  forall n d m, message sc0 n d m -> java_message sc orc jl ignored n m ->
  forall all fuel, mheight m < fuel ->
    (assert_valid_f jl sc ignored fuel n m = Passes <-> validate sc orc all n m = VNil) /\
    (assert_valid_f jl sc ignored fuel n m = Rejects <-> exists e, validate sc orc all n m = VErr e).
Proof.
  intros re_ok sc0 sc orc jl ignored st J n d m M V all fuel H.
  assert (js : java_setting re_ok sc0 sc orc ignored) by (destruct st; constructor; auto).
  destruct (java_assert_valid_exact _ _ _ _ _ _ js _ _ _ M V fuel H) as [A B].
  destruct (run_verdict re_ok sc0 sc orc st n d all m M) as [A' B']. split; etransitivity; eauto; now symmetry.
Qed.
Print Assumptions java_agrees_with_go.
Example java_agrees_with_go_ex :
  setting re_any ex2_schema ex2_checked ex_orc /\ java_schema ex2_checked (fun _ => false) /\
  message ex2_schema "Person" ex2_person ex_bad /\ java_message ex2_checked ex_orc ex_jl (fun _ => false) "Person" ex_bad /\
  (exists e, validate ex2_checked ex_orc true "Person" ex_bad = VErr e).
Proof. repeat (split; [first [exact ex2_setting|exact ex2_java|exact ex2_bad_msg|exact ex2_bad_jmsg]|]). eexists. vm_compute. reflexivity. Qed.

(** ** C10: uuid *)

(** The Java check of a uuid, on every text, valid UTF-8 or not. *)
Theorem java_uuid_exact : forall s, (j_uuid (jstring s) = Passes <-> uuid s) /\ (j_uuid (jstring s) = Rejects <-> ~ uuid s).
Proof. intros s. exact (says_exact _ _ (j_uuid_says s)). Qed.
Print Assumptions java_uuid_exact.
Theorem java_uuid_agrees_with_go : forall s, j_uuid (jstring s) = Passes <-> validate_uuid s = true.
Proof. intros s. rewrite validate_uuid_spec. exact (proj1 (java_uuid_exact s)). Qed.
Print Assumptions java_uuid_agrees_with_go.
Example java_uuid_ex :
  j_uuid (jstring (bs "123e4567-E89B-12d3-a456-426614174000")) = Passes /\ j_uuid (jstring (bs "123e4567-E89B-12d3-a456_426614174000")) = Rejects.
Proof. split; vm_compute; reflexivity. Qed.

(** ** C31: numbers *)

(** Signed integers, floats that are not NaN or -0, and unsigned integers below the top bit obey const, in, not_in and the
    range exactly as the rule says.  [java_num]: the constants of the rule are such numbers too. *)
Theorem java_num_exact : forall k r n, num_of_kind k n = true -> java_number k n -> java_num k r -> check_num r = true ->
  says (j_num k r n) (num_meaning r n).
Proof. intros k r n K N. exact (num_says k r n (conj K N)). Qed.
Print Assumptions java_num_exact.
(** A reversed range: below 10 or at least 90. *)
Definition outside : num_rules := mkNumRules None (Some (NI 10)) None None (Some (NI 90)) [] [NI 100] None.
Example java_num_ex : java_num KSInt32 outside /\ check_num outside = true /\
  map (fun z => j_num KSInt32 outside (NI z)) [-5; 9; 10; 89; 90; 100]%Z = [Passes; Passes; Rejects; Rejects; Passes; Rejects].
Proof. split; [j_num|]. split; vm_compute; reflexivity. Qed.

(** In the signed kinds [java_number] is no restriction. *)
Theorem java_signed_all : forall k z, In k [KInt32; KInt64; KSInt32; KSInt64; KSFixed32; KSFixed64] -> java_number k (NI z).
Proof. intros k z H. in_cases H; subst k; exact I. Qed.
Print Assumptions java_signed_all.

(** An unsigned number with its top bit set is treated as the negative number with the same bits. *)
Theorem java_unsigned_as_signed : forall k r z z', top_bit k z = Some z' -> java_num k r -> check_num r = true ->
  says (j_num k r (NI z)) (num_meaning r (NI z')).
Proof. exact unsigned_says. Qed.
Print Assumptions java_unsigned_as_signed.
Example java_unsigned_as_signed_ex : top_bit KUInt32 4294967295 = Some (-1)%Z /\ top_bit KFixed64 (2^63) = Some (- 2^63)%Z.
Proof. split; reflexivity. Qed.

(** So all of them satisfy every upper bound and violate every lower one. *)
Theorem java_unsigned_reversed : forall k z z' c, top_bit k z = Some z' -> java_const k (NI c) ->
  let lt := mkNumRules None (Some (NI c)) None None None [] [] None in
  let gt := mkNumRules None None None (Some (NI c)) None [] [] None in
  (c < z)%Z /\ j_num k lt (NI z) = Passes /\ j_num k gt (NI z) = Rejects.
Proof.
  intros k z z' c T C lt gt.
  assert (B : (z' < 0 /\ 0 <= c < z)%Z).
  { destruct C as [C H]. unfold top_bit in T. cbn in C. apply andb_true_iff in C.
    destruct k; try discriminate; match type of T with (if ?b then _ else _) = _ => destruct b eqn:B; [|discriminate] end;
      injection T as <-; cbn in *; lia. }
  split; [lia|]. split.
  - apply (says_exact _ _ (unsigned_says k lt z z' T ltac:(intros n H; cbn in H; in_cases H; injection H as <-; exact C) eq_refl)).
    right. split; [discriminate|]. split; [cbn; lia|]. split; [intros X; now destruct X|intros X; now apply Exists_nil in X].
  - apply (says_exact _ _ (unsigned_says k gt z z' T ltac:(intros n H; cbn in H; in_cases H; injection H as <-; exact C) eq_refl)).
    intros [[X _]|(_ & X & _)]; [discriminate|]. cbn in X. destruct X as [X|X]; [discriminate X|lia].
Qed.
Print Assumptions java_unsigned_reversed.

(** ** C35: the other rules *)
Theorem java_bool_exact : forall c b, says (j_bool c b) (forall x, c = Some x -> b = x).
Proof. exact bool_says. Qed.
Print Assumptions java_bool_exact.


(** [r] is [r0] with the pattern of well_known_regex filled in by the plugin. *)
Theorem java_string_exact : forall re_ok orc jl r0 r s, oracle_ok orc -> check_string re_ok r0 = Some r -> java_str r ->
  java_ruled orc jl (RString r) (VStr s) -> says (j_string jl r s) (str_meaning orc r0 s).
Proof.
  intros re_ok orc jl r0 r s O C J V. eapply says_iff; [symmetry; eapply str_flat_iff; eauto|]. exact (string_says orc jl r s J V).
Qed.
Print Assumptions java_string_exact.
(** Five characters that are six UTF-16 units and ten bytes. *)
Definition five : string_rules := mkStringRules None (Some 5%N) None None (Some 10%N) None None None (Some (bs "a")) (Some (bs "d")) None (Some (bs "x")) [] [] None None None.
Definition five_text : bytes := bs "a" ++ [0xF0; 0x9F; 0x98; 0x80; 0xCE; 0xB1; 0xC3]%N ++ [0xA9%N] ++ bs "d".
Example java_string_ex :
  check_string re_any five = Some five /\ java_str five /\ java_ruled ex_orc ex_jl (RString five) (VStr five_text) /\
  List.length (jstring five_text) = 6 /\
  j_string ex_jl five five_text = Passes /\ j_string ex_jl five (five_text ++ bs "d") = Rejects.
Proof.
  split; [vm_compute; reflexivity|]. split; [j_str|]. split; [|repeat split; vm_compute; reflexivity].
  split; [|split; discriminate].
  exists [97; 0x1F600; 0x3B1; 0xE9; 100]%N. split; [|vm_compute; reflexivity].
  repeat (apply Forall_cons; [unfold scalar_value; lia|]). apply Forall_nil.
Qed.

Theorem java_bytes_exact : forall orc jl r s, java_byt r -> java_ruled orc jl (RBytes r) (VByt s) ->
  says (j_bytes jl r s) (byt_meaning orc r s).
Proof. exact bytes_says. Qed.
Print Assumptions java_bytes_exact.
Definition key32 : bytes_rules := mkBytesRules None None (Some 2%N) (Some 4%N) None (Some [255%N]) None None [] [[255; 0]%N] None None.
Example java_bytes_ex : java_byt key32 /\ java_ruled ex_orc ex_jl (RBytes key32) (VByt [255; 1]%N) /\
  map (j_bytes ex_jl key32) [[255; 1]; [255; 0]; [1; 255]; [255]; [255; 1; 2; 3; 4]]%N = [Passes; Rejects; Rejects; Rejects; Rejects].
Proof.
  split; [split; [intros H; now destruct H|repeat (apply Forall_cons; [intros ? [= <-]; reflexivity|]); apply Forall_nil]|].
  split; [split; [discriminate|intros H; now destruct H]|vm_compute; reflexivity].
Qed.

Theorem java_enum_exact : forall re_ok sc0 sc, check_schema re_ok sc0 = Some sc -> forall in_map e r z, java_enum sc in_map e r ->
  says (j_enum sc e r z) (enum_meaning sc0 e r z).
Proof. intros re_ok sc0 sc C. exact (enum_says re_ok sc0 sc (fun _ => false) C). Qed.
Print Assumptions java_enum_exact.
Definition colors : enum_rules := mkEnumRules None (Some true) [] [2%Z].
Example java_enum_ex : java_enum ex2_checked false "Color" colors /\
  map (j_enum ex2_checked "Color" colors) [0; 1; 2; 3; -1]%Z = [Passes; Passes; Rejects; Rejects; Rejects].
Proof.
  split; [split; [|discriminate]|vm_compute; reflexivity]. intros z H. cbn in H. in_cases H. subst z.
  eexists. split; [vm_compute; reflexivity|]. cbn. tauto.
Qed.

Theorem java_any_exact : forall r o, java_any r -> (forall url, o = Some url -> valid_utf8 url) -> says (j_any r o) (any_meaning r o).
Proof. exact any_says. Qed.
Print Assumptions java_any_exact.
Example java_any_ex : map (j_any (mkAnyRules (Some true) [bs "a/b"; bs "c"] [])) [None; Some (bs "c"); Some (bs "d")] = [Rejects; Passes; Rejects].
Proof. vm_compute. reflexivity. Qed.

(** Durations the API accepts (the sign of seconds and nanoseconds agrees, at most 10000 years). *)
Theorem java_duration_exact : forall r o, java_dur r -> check_duration r = true ->
  (forall d, o = Some d -> valid_duration d) -> says (j_duration r o) (dur_meaning r o).
Proof. exact duration_says. Qed.
Print Assumptions java_duration_exact.
Definition hours : duration_rules := mkDurationRules (Some true) None None (Some (mkSN 7200 0)) (Some (mkSN (-1) (-500000000))) None [] [mkSN 3600 0].
Example java_duration_ex : java_dur hours /\ check_duration hours = true /\
  map (j_duration hours) [None; Some (mkSN 7200 0); Some (mkSN 3600 0); Some (mkSN (-1) (-499999999)); Some (mkSN (-1) (-500000000))]
    = [Rejects; Passes; Rejects; Passes; Rejects].
Proof. split; [some_cases; (split; [discriminate|reflexivity])|split; vm_compute; reflexivity]. Qed.

Theorem java_timestamp_exact : forall orc jl r o, java_ts r -> check_timestamp r = true ->
  (forall t, o = Some t -> java_ruled orc jl (RTimestamp r) (VTs (Some t))) -> says (j_timestamp jl r o) (ts_meaning orc r o).
Proof. exact timestamp_says. Qed.
Print Assumptions java_timestamp_exact.
Definition last_hour : timestamp_rules := mkTimestampRules None None None None None None (Some true) None (Some (mkSN 3600 0)).
Example java_timestamp_ex : java_ts last_hour /\ check_timestamp last_hour = true /\ clocks_agree ex_orc ex_jl /\
  map (fun s => j_timestamp ex_jl last_hour (Some (mkSN s 0))) [1600000000; 1599999999; 1599996400; 1599996399]%Z = [Rejects; Passes; Passes; Rejects].
Proof.
  split; [split; [some_cases; (split; [discriminate|reflexivity])|left; discriminate]|].
  split; [vm_compute; reflexivity|]. split; [split; [reflexivity|cbn; lia]|vm_compute; reflexivity].
Qed.

(** [in] and [not_in] (CollectiveValidation), for any [equals]. *)
Theorem java_in_exact : forall A (equals : A -> A -> bool) (EQ : A -> A -> Prop) v l,
  (forall c, In c l -> (equals v c = true <-> EQ v c)) ->
  says (j_in equals v (map Some l)) (exists c, In c l /\ EQ v c) /\
  says (j_not_in equals v (map Some l)) (forall c, In c l -> ~ EQ v c).
Proof.
  intros A equals EQ v l H. assert (K := in_some equals EQ v l H). rewrite Exists_exists in K. split; apply says_throw; [exact K|].
  rewrite negb_true_iff, <- not_true_iff_false, K. firstorder.
Qed.
Print Assumptions java_in_exact.

(** [unique], min_items, max_items, min_pairs and max_pairs.  A maximum of 0 is not rendered. *)
Theorem java_unique_exact : forall (equals : value -> value -> bool) l,
  (forall x y, In x l -> In y l -> (equals x y = true <-> same_item x y)) ->
  says (j_unique equals [] l)
    (forall i j x y, i < j -> nth_error l i = Some x -> nth_error l j = Some y -> ~ same_item y x).
Proof.
  intros equals l H. eapply says_iff; [|apply (unique_says equals (fun x => In x l) H l []); [constructor|now apply Forall_forall]].
  split; [intros (_ & X); exact X|intros X; split; [intros x s _ []|exact X]].
Qed.
Print Assumptions java_unique_exact.
Example java_unique_ex : j_unique (j_value_equals ex2_checked TString) [] [VStr (bs "a"); VStr (bs "b"); VStr (bs "A")] = Passes /\
  j_unique (j_value_equals ex2_checked TString) [] [VStr (bs "a"); VStr (bs "b"); VStr (bs "a")] = Rejects.
Proof. split; vm_compute; reflexivity. Qed.


Lemma plain_items jl sc emb e l : is_embed e = false -> in_order (map (j_elem jl sc emb true e None) l) = Passes.
Proof. intros E. induction l as [|x t IH]; [reflexivity|]. cbn [map in_order j_elem]. rewrite E, IH. reflexivity. Qed.

Theorem java_counts_exact : forall jl sc emb e w mn mx l p, mx <> Some 0%N -> is_embed e = false -> is_embed w = false ->
  says (j_repeated jl sc emb e (mkRepRules mn mx None None None) l) (count_meaning (N.of_nat (List.length l)) mn mx) /\
  says (j_map jl sc emb e w (mkMapRules mn mx None None None None) p) (count_meaning (N.of_nat (List.length p)) mn mx).
Proof.
  intros jl sc emb e w mn mx l p X E W. split.
  - unfold j_repeated. cbn [r_ignore_empty r_min r_max r_unique r_items getb negb only_if in_order andb].
    rewrite plain_items, andthen_passes by auto. cbn [andthen]. apply says_seq; [apply min_says|].
    intros _. now apply max_says.
  - unfold j_map, j_none. cbn [p_ignore_empty p_min p_max p_no_sparse p_keys p_values getb negb only_if in_order andb]. rewrite E, W.
    cbn [negb orb only_if andthen]. apply says_seq; [apply min_says'|].
    intros _. rewrite andthen_passes. now apply max_says'.
Qed.
Print Assumptions java_counts_exact.

(** ** Outside the fragment

    [deviates ignored jl t fr v go o]: with one field of type [t] and rules [fr], and the value [v] in it, Go's
    Validate accepts (if [go]) or rejects, and Java ends with [o] (JavaEx.v). *)
Definition none_ignored : string -> bool := fun _ => false.
Ltac deviation := eapply deviates_by; [vm_compute; reflexivity|vm_compute; reflexivity|vm_compute; reflexivity|
  repeat constructor; cbn; try lia|vm_compute; reflexivity|vm_compute; reflexivity].

Definition num_rule (k : numkind) (r : num_rules) : field_rules := FR None (Some (RNum k r)).

(** uint32 gt 0 on 2^31. *)
Theorem java_unsigned_gt_refuted :
  deviates none_ignored ex_jl (FOne (TNum KUInt32)) (num_rule KUInt32 (mkNumRules None None None (Some (NI 0)) None [] [] None))
    (VNum (NI 2147483648)) true Rejects.
Proof. deviation. Qed.
(** NaN passes every range in Go but is the largest number in Java. *)
Theorem java_nan_refuted :
  deviates none_ignored ex_jl (FOne (TNum KDouble)) (num_rule KDouble (mkNumRules None (Some f12) None None None [] [] None))
    (VNum (NF S754_nan)) true Rejects.
Proof. deviation. Qed.
(** -0.0 is not 0 in Java. *)
Theorem java_negative_zero_refuted :
  deviates none_ignored ex_jl (FOne (TNum KDouble)) (num_rule KDouble (mkNumRules (Some (NF (S754_zero false))) None None None None [] [] None))
    (VNum (NF (S754_zero true))) true Rejects.
Proof. deviation. Qed.
(** Java enforces bytes.min_len next to len, Go does not. *)
Theorem java_bytes_len_refuted :
  deviates none_ignored ex_jl (FOne TBytes) (FR None (Some (RBytes (mkBytesRules None (Some 3%N) (Some 5%N) None None None None None [] [] None None))))
    (VByt [1; 2; 3]%N) true Rejects.
Proof. deviation. Qed.
(** bytes.ipv4 with the 16 bytes of an IPv4-mapped address. *)
Theorem java_bytes_ipv4_refuted :
  deviates none_ignored ex_jl (FOne TBytes) (FR None (Some (RBytes (mkBytesRules None None None None None None None None [] [] (Some (BIpv4 true)) None))))
    (VByt (repeat 0 10 ++ [255; 255; 127; 0; 0; 1])%N) true Rejects.
Proof. deviation. Qed.
Theorem java_bytes_ipv6_refuted :
  deviates none_ignored ex_jl (FOne TBytes) (FR None (Some (RBytes (mkBytesRules None None None None None None None None [] [] (Some (BIpv6 true)) None))))
    (VByt (repeat 0 10 ++ [255; 255; 127; 0; 0; 1])%N) false Passes.
Proof. deviation. Qed.
(** A constant that is not a value of the enum: the message for the exception dereferences null. *)
Theorem java_enum_const_refuted :
  deviates none_ignored ex_jl (FOne (TEnum "Color")) (FR None (Some (REnum (mkEnumRules (Some 7%Z) None [] []))))
    (VEnum 1) false Crashes.
Proof. deviation. Qed.
Theorem java_enum_in_refuted :
  deviates none_ignored ex_jl (FOne (TEnum "Color")) (FR None (Some (REnum (mkEnumRules None None [7; 8]%Z []))))
    (VEnum 7) true Rejects.
Proof. deviation. Qed.
(** Undefined enum numbers are all UNRECOGNIZED. *)
Theorem java_enum_unique_refuted :
  deviates none_ignored ex_jl (FRep (TEnum "Color")) (FR None (Some (RRepeated (mkRepRules None None (Some true) None None))))
    (VList [VEnum 7; VEnum 8]) true Rejects.
Proof. deviation. Qed.
(** skip hides required. *)
Theorem java_skip_required_refuted :
  deviates none_ignored ex_jl (FOne (TMsg "Ignored")) (FR (Some (mkMessageRules (Some true) (Some true))) None) (VMsg None) false Passes.
Proof. deviation. Qed.
(** max_items: 0 and max_pairs: 0. *)
Theorem java_max_items_0_refuted :
  deviates none_ignored ex_jl (FRep TBool) (FR None (Some (RRepeated (mkRepRules None (Some 0%N) None None None)))) (VList [VBool true]) false Passes.
Proof. deviation. Qed.
Theorem java_max_pairs_0_refuted :
  deviates none_ignored ex_jl (FMap TBool TBool) (FR None (Some (RMap (mkMapRules None (Some 0%N) None None None None))))
    (VMap [(VBool true, VBool true)]) false Passes.
Proof. deviation. Qed.
(** no_sparse, whatever the map. *)
Theorem java_no_sparse_refuted :
  deviates none_ignored ex_jl (FMap TBool (TMsg "Ignored")) (FR None (Some (RMap (mkMapRules None None (Some true) None None None)))) (VMap []) true Unimplemented.
Proof. deviation. Qed.
(** A field of a message type with the option [ignored]. *)
Theorem java_ignored_refuted :
  deviates (String.eqb "Ignored") ex_jl (FOne (TMsg "Ignored")) (FR None None) (VMsg (Some (MV [] []))) true Crashes.
Proof.
  eapply deviates_by; [vm_compute; reflexivity|vm_compute; reflexivity|vm_compute; reflexivity| |vm_compute; reflexivity|vm_compute; reflexivity].
  constructor. econstructor; [reflexivity|]. constructor; constructor.
Qed.
(** [within] alone at its end. *)
Theorem java_within_refuted :
  deviates none_ignored ex_jl (FOne TTs) (FR None (Some (RTimestamp (mkTimestampRules None None None None None None None None (Some (mkSN 60 0))))))
    (VTs (Some (mkSN 1600000060 0))) false Passes.
Proof. deviation. Qed.
(** An instant too far away for 64 bits of nanoseconds. *)
Theorem java_within_far_refuted :
  deviates none_ignored ex_jl (FOne TTs) (FR None (Some (RTimestamp (mkTimestampRules None None None None None None (Some true) None (Some (mkSN 60 0))))))
    (VTs (Some (mkSN (-60000000000) 0))) false Crashes.
Proof. deviation. Qed.
(** A duration whose parts have opposite signs: Go rejects it, Java fails on gt and passes not_in. *)
Theorem java_invalid_duration_gt_refuted :
  deviates none_ignored ex_jl (FOne TDur) (FR None (Some (RDuration (mkDurationRules None None None None (Some (mkSN 0 0)) None [] []))))
    (VDur (Some (mkSN 1 (-1)))) false Crashes.
Proof. deviation. Qed.
Theorem java_invalid_duration_not_in_refuted :
  deviates none_ignored ex_jl (FOne TDur) (FR None (Some (RDuration (mkDurationRules None None None None None None [] [mkSN 5 0]))))
    (VDur (Some (mkSN 1 (-1)))) false Passes.
Proof. deviation. Qed.

Print Assumptions java_unsigned_gt_refuted.
Print Assumptions java_nan_refuted.
Print Assumptions java_negative_zero_refuted.
Print Assumptions java_bytes_len_refuted.
Print Assumptions java_bytes_ipv4_refuted.
Print Assumptions java_bytes_ipv6_refuted.
Print Assumptions java_enum_const_refuted.
Print Assumptions java_enum_in_refuted.
Print Assumptions java_enum_unique_refuted.
Print Assumptions java_skip_required_refuted.
Print Assumptions java_max_items_0_refuted.
Print Assumptions java_max_pairs_0_refuted.
Print Assumptions java_no_sparse_refuted.
Print Assumptions java_ignored_refuted.
Print Assumptions java_within_refuted.
Print Assumptions java_within_far_refuted.
Print Assumptions java_invalid_duration_gt_refuted.
Print Assumptions java_invalid_duration_not_in_refuted.
