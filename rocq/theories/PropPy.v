(** C36: validation in Python.

    [py_validate_f pl pn sc fuel n m] is [validate] on the message [m] of the type [n]; the fuel bounds the nesting of
    messages.  Python reads the schema as it is written, [sc0] below; [sc] is what the checker of the plugin makes of it.
    PySpec.v says on which schemas and values Python has to agree with the rules; the theorems named [_refuted] at the end
    show what happens outside. *)
From Coq Require Import Floats.SpecFloat Lia.
From Verif Require Import Base Utf8 Num Rules Types Time Iface Checker GoGen Known GoSem Spec Meaning LitSpec Wt WtMsgDec Setting MainFacts MeaningFacts
  Main KnownFacts RegexFacts HostFacts LangFacts Values Outcome Says Example JavaFacts JavaEx CcEx Py PySpec PyFacts PyRunFacts PyEx.

(** ** Whole messages *)

(** [validate] returns exactly for the valid messages, and raises ValidationFailed, and nothing else, for the others. *)
Theorem py_validate_exact : forall re_ok sc0 sc orc pl pn, py_setting re_ok sc0 sc orc pl pn ->
  forall n d m, message sc0 n d m -> py_values sc orc pl n m ->
  forall fuel, mheight m < fuel ->
    (py_validate_f pl pn sc0 fuel n m = Passes <-> valid orc sc0 n m) /\
    (py_validate_f pl pn sc0 fuel n m = Rejects <-> ~ valid orc sc0 n m).
Proof.
  intros re_ok sc0 sc orc pl pn PS n d m [F M T] V fuel H.
  assert (Y : validated_type sc0 n = true) by (unfold validated_type; rewrite F; unfold has_methods in M; destruct (md_methods d); auto).
  destruct (py_validate_says re_ok sc0 sc orc pl pn PS fuel n d m F T V H) as [[E P]|[E P]]; rewrite E;
    (split; split; intros X; try discriminate; auto; exfalso; auto).
Qed.
Print Assumptions py_validate_exact.
Example py_validate_exact_ex :
  py_validate_f ex_pl ex_pn ex4_schema 4 "Account" ex4_good = Passes /\
  py_validate_f ex_pl ex_pn ex4_schema 4 "Account" ex4_bad = Rejects /\
  valid ex_orc ex4_schema "Account" ex4_good /\ ~ valid ex_orc ex4_schema "Account" ex4_bad.
Proof.
  split; [vm_compute; reflexivity|]. split; [vm_compute; reflexivity|]. split.
  - apply (py_validate_exact _ _ _ _ _ _ ex4_py _ _ _ ex4_good_msg ex4_good_py 4); vm_compute; [lia|reflexivity].
  - apply (py_validate_exact _ _ _ _ _ _ ex4_py _ _ _ ex4_bad_msg ex4_bad_py 4); vm_compute; [lia|reflexivity].
Qed.

(** A message of a type without validation passes. *)
Theorem py_disabled_passes : forall re_ok sc0 sc orc pl pn, py_setting re_ok sc0 sc orc pl pn ->
  forall n d m, find_msg sc0 n = Some d -> md_methods d = MNone -> wt_msg sc0 d m ->
  forall fuel, mheight m < fuel -> py_validate_f pl pn sc0 fuel n m = Passes.
Proof.
  intros re_ok sc0 sc orc pl pn PS n d m F M T fuel H.
  assert (V : py_values sc orc pl n m).
  { destruct (ck_find _ _ _ _ _ (ps_checked _ _ _ _ _ _ PS) F) as (d' & F' & C' & _). destruct (Main.check_msg_name _ _ _ _ C') as (_ & Md & _). apply ev_inactive with d'; [exact F'|].
    unfold active. rewrite Md, M. apply andb_false_r. }
  assert (Y : validated_type sc0 n = false) by (unfold validated_type; now rewrite F, M).
  destruct (py_validate_says re_ok sc0 sc orc pl pn PS fuel n d m F T V H) as [[E P]|[E P]]; rewrite E; auto.
  exfalso. apply P. rewrite Y. discriminate.
Qed.
Print Assumptions py_disabled_passes.
Example py_disabled_passes_ex : find_msg ex4_schema "Note" = Some ex4_note /\ md_methods ex4_note = MNone /\
  wt_msg ex4_schema ex4_note (note (bs "a") (Some (note (bs "b") None))).
Proof. split; [reflexivity|]. split; [reflexivity|]. apply (wt_msgb_sound _ 3). vm_compute. reflexivity. Qed.

(** Python and Go give the same verdict. *)
Theorem py_agrees_with_go : forall re_ok sc0 sc orc pl pn, setting re_ok sc0 sc orc -> py_setting re_ok sc0 sc orc pl pn ->
  forall n d m, message sc0 n d m -> py_values sc orc pl n m ->
  forall all fuel, mheight m < fuel ->
    (py_validate_f pl pn sc0 fuel n m = Passes <-> validate sc orc all n m = VNil) /\
    (py_validate_f pl pn sc0 fuel n m = Rejects <-> exists e, validate sc orc all n m = VErr e).
Proof.
  intros re_ok sc0 sc orc pl pn st PS n d m M V all fuel H.
  destruct (py_validate_exact _ _ _ _ _ _ PS _ _ _ M V fuel H) as [A B].
  destruct (run_verdict re_ok sc0 sc orc st n d all m M) as [A' B']. split; etransitivity; eauto; now symmetry.
Qed.
Print Assumptions py_agrees_with_go.
Example py_agrees_with_go_ex :
  setting re_any ex4_schema ex4_checked ex_orc /\ py_setting re_any ex4_schema ex4_checked ex_orc ex_pl ex_pn /\
  message ex4_schema "Account" ex4_account ex4_bad /\ py_values ex4_checked ex_orc ex_pl "Account" ex4_bad /\
  (exists e, validate ex4_checked ex_orc true "Account" ex4_bad = VErr e).
Proof. repeat (split; [first [exact ex4_setting|exact ex4_py|exact ex4_bad_msg|exact ex4_bad_py]|]). eexists. vm_compute. reflexivity. Qed.

(** ** The checks of values

    [sayc c v P]: [c] is Python source, and running it on the value [v] returns if [P] holds and raises ValidationFailed
    otherwise. *)
Theorem py_num_exact : forall k r n, num_of_kind k n = true -> py_num_ok k r -> check_num r = true ->
  ~ (ignoring (RNum k r) /\ idle (RNum k r)) -> sayc (py_num r) n (num_meaning r n).
Proof. exact py_num_says. Qed.
Print Assumptions py_num_exact.
(** What the source [c] does with [v]. *)
Definition does {A} (c : code A) (v : A) : outcome := match c with Some l => run l v | None => Crashes end.
(** A reversed range: below 10 or at least 90. *)
Definition outside : num_rules := mkNumRules None (Some (NI 10)) None None (Some (NI 90)) [] [NI 100] (Some true).
Example py_num_ex : py_num_ok KUInt32 outside /\ check_num outside = true /\ ~ (ignoring (RNum KUInt32 outside) /\ idle (RNum KUInt32 outside)) /\
  map (fun z => does (py_num outside) (NI z)) [0; 9; 10; 89; 90; 100; 4294967295]%Z =
    [Passes; Passes; Rejects; Rejects; Passes; Rejects; Passes].
Proof.
  split; [split; [p_const|discriminate]|]. split; [vm_compute; reflexivity|]. split; [|vm_compute; reflexivity].
  intros [_ (_ & _ & K & _)]. discriminate K.
Qed.

Theorem py_bool_exact : forall c b, c <> None -> sayc (py_bool c) b (forall x, c = Some x -> b = x).
Proof. exact py_bool_says. Qed.
Print Assumptions py_bool_exact.
Example py_bool_ex : map (does (py_bool (Some true))) [true; false] = [Passes; Rejects].
Proof. reflexivity. Qed.

(** [r] is [r0] with the pattern of well_known_regex filled in by the plugin. *)
Theorem py_string_exact : forall re_ok orc pl r0 r s, oracle_ok orc ->
  (forall h, List.length h = 32 -> Forall hexdig h -> pl_int16 pl h = true) ->
  check_string re_ok r0 = Some r -> py_str_ok r -> ~ (ignoring (RString r) /\ idle (RString r)) ->
  py_ruled pl orc (RString r) (VStr s) -> sayc (py_string pl r0) (runes s) (str_meaning orc r0 s).
Proof.
  intros re_ok orc pl r0 r s O X C J N V. eapply sayc_iff; [symmetry; eapply str_flat_iff; eauto|].
  rewrite (proj1 (str_same re_ok pl r0 r C)). destruct (string_lists _ _ _ C) as (S1 & S2 & S3).
  apply py_string_says; auto. eapply string_filled; eauto.
Qed.
Print Assumptions py_string_exact.
Definition three : string_rules := mkStringRules None (Some 3%N) None None (Some 7%N) None None None None (Some (bs "a")) None (Some (bs "x")) [] [] None None None.
Example py_string_ex : check_string re_any three = Some three /\ py_str_ok three /\ ~ (ignoring (RString three) /\ idle (RString three)) /\
  map (fun s => does (py_string ex_pl three) (runes s)) [[0xF0; 0x9F; 0x98; 0x80; 0xC3; 0xA9; 97]; [0xF0; 0x9F; 0x98; 0x80; 0xC3; 0xA9; 98]; [98; 98; 97]]%N
    = [Passes; Rejects; Rejects].
Proof. split; [vm_compute; reflexivity|]. split; [p_str|]. split; [intros [K _]; discriminate K|vm_compute; reflexivity]. Qed.

(** For all characters, not only ASCII. *)
Theorem py_hostname_exact : forall s, py_hostname s = true <-> rfc_hostname s.
Proof. exact py_hostname_spec. Qed.
Print Assumptions py_hostname_exact.
Theorem py_hostname_agrees_with_go : forall s, Forall (fun c => c < 128)%N s -> (py_hostname (runes s) = true <-> validate_hostname s = None).
Proof. intros s A. rewrite (ascii_runes s A), validate_hostname_spec. now apply py_host_ascii. Qed.
Print Assumptions py_hostname_agrees_with_go.
Example py_hostname_ex : map py_hostname [bs "example.org"; bs "example.org."; bs "a..b"; bs "-a"; bs ""; bs "a_b"; bs "9"] =
  [true; true; false; false; false; false; true].
Proof. vm_compute. reflexivity. Qed.

Theorem py_bytes_exact : forall orc pl r s, py_byt_ok r -> ~ (ignoring (RBytes r) /\ idle (RBytes r)) ->
  py_ruled pl orc (RBytes r) (VByt s) -> sayc (py_bytes pl r) s (byt_meaning orc r s).
Proof. exact py_bytes_says. Qed.
Print Assumptions py_bytes_exact.
Definition blob : bytes_rules := mkBytesRules None None (Some 2%N) None None (Some [1; 255]%N) None None [] [] None None.
Example py_bytes_ex : py_byt_ok blob /\ ~ (ignoring (RBytes blob) /\ idle (RBytes blob)) /\
  map (does (py_bytes ex_pl blob)) [[1; 255]; [1]; [1; 254; 255]]%N = [Passes; Rejects; Rejects].
Proof. split; [p_byt|]. split; [intros [K _]; discriminate K|vm_compute; reflexivity]. Qed.

Theorem py_enum_exact : forall sc e r z, e_const r <> Some 0%Z -> sayc (py_enum sc e r) z (enum_meaning sc e r z).
Proof. exact py_enum_says. Qed.
Print Assumptions py_enum_exact.
Example py_enum_ex : map (does (py_enum ex4_checked "Color" (mkEnumRules None (Some true) [] [2%Z]))) [0; 1; 2; 3; -1]%Z = [Passes; Passes; Rejects; Rejects; Rejects].
Proof. vm_compute. reflexivity. Qed.

(** [elem]: the value is an item of a list or a value of a map. *)
Theorem py_any_exact : forall elem r o, (elem = true -> o <> None /\ a_required r <> Some true) ->
  (forall s, In s (a_in r) \/ In s (a_not_in r) -> py_quoted s) -> (forall u, o = Some u -> valid_utf8 u) ->
  sayc (py_any elem r) (VAny o) (any_meaning r o).
Proof. exact py_any_says. Qed.
Print Assumptions py_any_exact.

(** Whole seconds only. *)
Theorem py_duration_exact : forall elem r o, (elem = true -> o <> None /\ d_required r <> Some true) ->
  py_rule_ok (RDuration r) -> dur_apart (RDuration r) -> check_duration r = true ->
  (forall d, o = Some d -> dur_constrained r -> valid_duration d /\ sn_n d = 0%Z) ->
  sayc (py_duration elem r) (VDur o) (dur_meaning r o).
Proof. exact py_duration_says. Qed.
Print Assumptions py_duration_exact.
Definition hours : duration_rules := mkDurationRules (Some true) None None (Some (mkSN 7200 0)) (Some (mkSN (-1) 0)) None [] [mkSN 3600 0].
Example py_duration_ex : py_rule_ok (RDuration hours) /\ dur_apart (RDuration hours) /\ check_duration hours = true /\
  map (fun o => does (py_duration false hours) (VDur o)) [None; Some (mkSN 7200 0); Some (mkSN 3600 0); Some (mkSN 0 0); Some (mkSN (-1) 0); Some (mkSN 7201 0)]
    = [Rejects; Passes; Rejects; Passes; Rejects; Rejects].
Proof. split; [p_rule|]. split; [|split; vm_compute; reflexivity].
  right. right. exists (mkSN 7200 0), (mkSN (-1) 0). cbn. split; [auto|]. split; [auto|]. repeat split; reflexivity. Qed.

Theorem py_timestamp_exact : forall orc pl elem r o, (elem = true -> o <> None /\ t_required r <> Some true) ->
  py_rule_ok (RTimestamp r) -> check_timestamp r = true -> py_ruled pl orc (RTimestamp r) (VTs o) ->
  sayc (py_timestamp pl elem r) (VTs o) (ts_meaning orc r o).
Proof. exact py_timestamp_says. Qed.
Print Assumptions py_timestamp_exact.
Definition past : timestamp_rules := mkTimestampRules None None None None None None (Some true) None None.
Example py_timestamp_ex : py_rule_ok (RTimestamp past) /\ check_timestamp past = true /\
  py_ruled ex_pl ex_orc (RTimestamp past) (VTs (Some (mkSN 1600000000 0))) /\
  map (fun o => does (py_timestamp ex_pl false past) (VTs o)) [None; Some (mkSN 1599999999 0); Some (mkSN 1600000000 0)] = [Passes; Passes; Rejects].
Proof.
  split; [split; [intros ? K; cbn in K; in_cases K|reflexivity]|]. split; [vm_compute; reflexivity|]. split; [|vm_compute; reflexivity].
  intros _. split; [split; cbn; lia|]. split; [reflexivity|]. intros _. exists 1600000000%Z. repeat split; reflexivity.
Qed.

(** [unique]: no two items are equal. *)
Theorem py_unique_exact : forall sc e l, is_embed e = false -> Forall (wt_elem sc e) l -> (forall s, In (VStr s) l -> valid_utf8 s) ->
  says (py_unique [] l) (forall i j x y, i < j -> nth_error l i = Some x -> nth_error l j = Some y -> ~ same_item y x).
Proof.
  intros sc e l E W U. rewrite Forall_forall in W.
  eapply says_iff; [|apply (py_unique_says (fun x => wt_elem sc e x /\ forall s, x = VStr s -> valid_utf8 s) l [])].
  - split.
    + intros H i j x y Hij Hx Hy. destruct (H j y Hy) as [_ K]. eauto.
    + intros H j y Hy. split; [intros x []|]. intros i x Hi Hx. eapply H; eauto.
  - intros x [Wx _]. destruct Wx; try discriminate E; reflexivity.
  - intros x y [Wx Ux] [Wy Uy]. eapply py_same_iff; eauto.
  - intros x [[]|I]. split; auto. intros s ->. auto.
Qed.
Print Assumptions py_unique_exact.
Example py_unique_ex :
  map (py_unique []) [[VStr (bs "a"); VStr (bs "b"); VStr (bs "A")]; [VStr (bs "a"); VStr (bs "b"); VStr (bs "a")]] = [Passes; Rejects].
Proof. vm_compute. reflexivity. Qed.

(** ** Message types that cannot be validated *)

(** A field with rules in which nothing is set, for example [(validate.rules).string = {}]: validate raises an exception that is
    not ValidationFailed, for all messages of the type. *)
Theorem py_blank_rules_crash : forall pl pn sc n d f r, find_msg sc n = Some d -> In f (md_fields d) ->
  f_rules f = FR None (Some r) -> blank r -> forall fuel m, py_validate_f pl pn sc fuel n m = Crashes.
Proof.
  intros pl pn sc n d f r F I R B fuel m. destruct fuel as [|k]; [reflexivity|]. cbn [py_validate_f]. rewrite F. unfold py_msg.
  assert (E : py_field pl sc (py_validate_f pl pn sc k) pn (md_name d) f = None).
  { apply told_blank in B. unfold py_field. rewrite R. cbn [is_some orb negb].
    destruct (fields_embed (f_type f)); destruct r; try rewrite B; try rewrite andb_false_r; reflexivity. }
  assert (Q : py_body pl sc (py_validate_f pl pn sc k) pn d = None); [|now rewrite Q].
  unfold py_body. apply seq_none. apply in_app_iff. right. apply in_map_iff. exists f. split; [now rewrite E|exact I].
Qed.
Print Assumptions py_blank_rules_crash.

(** [ignore_empty] with no other rule that has an effect. *)
Theorem py_ignore_empty_alone_crashes : forall pl pn sc n d f r, find_msg sc n = Some d -> In f (md_fields d) ->
  f_rules f = FR None (Some r) -> (exists e, f_type f = FOne e /\ fits e r) -> ignoring r -> idle r ->
  forall fuel m, py_validate_f pl pn sc fuel n m = Crashes.
Proof.
  intros pl pn sc n d f r F I R (e & Te & Fe) G D fuel m. destruct fuel as [|k]; [reflexivity|]. cbn [py_validate_f]. rewrite F. unfold py_msg.
  assert (S : forall e, py_scalar pl sc e r = None).
  { intros e'. exact (idle_none pl sc e' r G D). }
  assert (E : py_field pl sc (py_validate_f pl pn sc k) pn (md_name d) f = None).
  { unfold py_field. rewrite R, Te. cbn [is_some orb negb fields_embed].
    destruct r; try contradiction; destruct e; try contradiction; cbn [is_embed]; cbn [told_message]; rewrite ?S;
      match goal with |- (if ?b then _ else _) = _ => destruct b; reflexivity end. }
  assert (Q : py_body pl sc (py_validate_f pl pn sc k) pn d = None); [|now rewrite Q].
  unfold py_body. apply seq_none. apply in_app_iff. right. apply in_map_iff. exists f. split; [now rewrite E|exact I].
Qed.
Print Assumptions py_ignore_empty_alone_crashes.
Definition lenient : field_rules := FR None (Some (RString (with_ignore_empty str_none))).
Example py_crash_ex : In (mkField "F" (FOne TString) lenient) (md_fields (one_field (FOne TString) lenient)) /\
  ignoring (RString (with_ignore_empty str_none)) /\ idle (RString (with_ignore_empty str_none)) /\ blank (RString str_none).
Proof.
  split; [left; reflexivity|]. split; [reflexivity|]. split; [|reflexivity].
  repeat split; unfold no_size, no_text; repeat (apply Forall_cons; [now left|]); try apply Forall_nil. now left.
Qed.

(** A duration that has to be, or not to be, one of some, and also has an upper bound, which is alone or not above the lower bound. *)
Theorem py_duration_bound_crashes : forall pl pn sc n d f r u, find_msg sc n = Some d -> In f (md_fields d) ->
  f_type f = FOne TDur -> f_rules f = FR None (Some (RDuration r)) ->
  (d_const r <> None \/ d_in r <> [] \/ d_not_in r <> []) ->
  (d_lt r = Some u \/ d_lt r = None /\ d_lte r = Some u) ->
  (d_gt r = None /\ d_gte r = None \/
   exists l, (d_gt r = Some l \/ d_gt r = None /\ d_gte r = Some l) /\ whole_seconds l /\ whole_seconds u /\ (sn_s u <= sn_s l)%Z) ->
  forall fuel m, py_validate_f pl pn sc fuel n m = Crashes.
Proof.
  intros pl pn sc n d f r u F I T R A B C. apply (no_source pl pn sc n d f F I). intros v. unfold py_field. rewrite R, T. cbn [is_some orb negb fields_embed is_embed].
  unfold py_duration. rewrite (bound_glued r u A B C). now destruct (told _).
Qed.
Print Assumptions py_duration_bound_crashes.
(** A string with [ignore_empty] in a list, as a key or a value of a map, or in a oneof. *)
Theorem py_inner_ignore_empty_crashes : forall pl pn sc n d f mr s, find_msg sc n = Some d -> In f (md_fields d) ->
  s_ignore_empty s = Some true ->
  (exists r, f_type f = FRep TString /\ f_rules f = FR None (Some (RRepeated r)) /\ r_items r = Some (FR mr (Some (RString s)))) \/
  (exists r w, f_type f = FMap TString w /\ f_rules f = FR None (Some (RMap r)) /\ p_keys r = Some (FR mr (Some (RString s)))) \/
  (exists r k, f_type f = FMap k TString /\ f_rules f = FR None (Some (RMap r)) /\ p_values r = Some (FR mr (Some (RString s)))) ->
  forall fuel m, py_validate_f pl pn sc fuel n m = Crashes.
Proof.
  intros pl pn sc n d f mr s F I G H. apply (no_source pl pn sc n d f F I). intros v. assert (T := told_ignoring _ G).
  destruct H as [(r & Et & Er & Ei)|[(r & w & Et & Er & Ei)|(r & k & Et & Er & Ei)]].
  - exact (items_headless pl sc v pn _ f r mr s Et Er Ei G).
  - exact (keys_headless pl sc v pn _ f r w mr s Et Er Ei G).
  - exact (values_headless pl sc v pn _ f r k mr s Et Er Ei G).
Qed.
Print Assumptions py_inner_ignore_empty_crashes.
Theorem py_oneof_ignore_empty_crashes : forall pl pn sc n d o f mr s, find_msg sc n = Some d -> In o (md_oneofs d) -> In f (o_fields o) ->
  f_type f = FOne TString -> f_rules f = FR mr (Some (RString s)) -> s_ignore_empty s = Some true ->
  forall fuel m, py_validate_f pl pn sc fuel n m = Crashes.
Proof.
  intros pl pn sc n d o f mr s F Io If T R G fuel m. destruct fuel as [|k]; [reflexivity|]. cbn [py_validate_f]. rewrite F. unfold py_msg.
  assert (Q : py_body pl sc (py_validate_f pl pn sc k) pn d = None); [|now rewrite Q].
  unfold py_body. apply seq_none. apply in_app_iff. left. apply in_map_iff. exists o. split; [|exact Io].
  assert (P : py_oneof pl sc (py_validate_f pl pn sc k) pn (md_name d) o = None); [|now rewrite P].
  unfold py_oneof. apply seq_none. apply in_app_iff. left. apply in_map_iff. exists f. split; [|exact If].
  unfold py_member, headless_member. rewrite T, R. cbn [fields_embed is_embed negb andb fr_typ headless]. now rewrite G.
Qed.
Print Assumptions py_oneof_ignore_empty_crashes.
Definition optional : string_rules := mkStringRules None None (Some 3%N) None None None None None None None None None [] [] None None (Some true).
Definition a_day : duration_rules := mkDurationRules None None (Some (mkSN 86400 0)) None None None [] [mkSN 0 0].
Example py_no_source_ex : s_ignore_empty optional = Some true /\
  (d_const a_day <> None \/ d_in a_day <> [] \/ d_not_in a_day <> []) /\ d_lt a_day = Some (mkSN 86400 0) /\ d_gt a_day = None /\ d_gte a_day = None.
Proof. split; [reflexivity|]. split; [right; right; discriminate|]. repeat split. Qed.

(** ** Outside the fragment

    [py_deviates pl t fr v go o]: with one field of type [t] and rules [fr], and the value [v] in it, Go's
    Validate accepts (if [go]) or rejects, and Python ends with [o] (PyEx.v). *)
Definition p_num_rule (k : numkind) (r : num_rules) : field_rules := FR None (Some (RNum k r)).
Definition p_str_rule (r : string_rules) : field_rules := FR None (Some (RString r)).
Definition p_byt_rule (r : bytes_rules) : field_rules := FR None (Some (RBytes r)).
Definition items (fr : field_rules) : field_rules := FR None (Some (RRepeated (mkRepRules None None None (Some fr) None))).
Ltac dev := match goal with |- py_deviates _ ?t ?fr _ _ _ => py_dif (one_schema t fr) "M"%string end.

(** A constant zero is taken for none. *)
Theorem py_len_0_refuted :
  py_deviates ex_pl (FOne TString) (p_str_rule (mkStringRules None (Some 0%N) None None None None None None None None None None [] [] None None None)) (VStr (bs "a")) false Passes.
Proof. dev. Qed.
Theorem py_max_len_0_refuted :
  py_deviates ex_pl (FOne TString) (p_str_rule (mkStringRules None None None (Some 0%N) None None None None None None None None [] [] None None None)) (VStr (bs "a")) false Passes.
Proof. dev. Qed.
Theorem py_max_items_0_refuted :
  py_deviates ex_pl (FRep TBool) (FR None (Some (RRepeated (mkRepRules None (Some 0%N) None None None)))) (VList [VBool true]) false Passes.
Proof. dev. Qed.
Theorem py_enum_const_0_refuted :
  py_deviates ex_pl (FOne (TEnum "Color")) (FR None (Some (REnum (mkEnumRules (Some 0%Z) None [] [])))) (VEnum 1) false Passes.
Proof. dev. Qed.
(** [ignore_empty: false] acts as [true]. *)
Theorem py_ignore_empty_false_refuted :
  py_deviates ex_pl (FOne (TNum KInt32)) (p_num_rule KInt32 (mkNumRules None None None (Some (NI 5)) None [] [] (Some false))) (VNum (NI 0)) false Passes.
Proof. dev. Qed.
(** Rules for items that are bytes are not enforced. *)
Theorem py_items_bytes_refuted :
  py_deviates ex_pl (FRep TBytes) (items (p_byt_rule (mkBytesRules None None (Some 1%N) None None None None None [] [] None None))) (VList [VByt []]) false Passes.
Proof. dev. Qed.
(** With rules for the keys, the messages that are values are not validated. *)
Theorem py_keys_hide_values_refuted :
  py_deviates ex_pl (FMap TString (TMsg "M")) (FR None (Some (RMap (mkMapRules None None None (Some (s_rules (min_len 1))) None None))))
    (VMap [(VStr (bs "a"), VMsg (Some (one_value (VMap [(VStr [], VMsg (Some (one_value (VMap []))))]))))]) false Passes.
Proof. dev. Qed.
(** An item for which there are message rules: AttributeError. *)
Theorem py_items_message_refuted :
  py_deviates ex_pl (FRep (TMsg "Ignored")) (items (FR (Some (mkMessageRules (Some false) None)) None)) (VList [VMsg (Some (MV [] []))]) true Crashes.
Proof. dev. Qed.
(** An item that is required is always missing. *)
Theorem py_items_required_refuted :
  py_deviates ex_pl (FRep TDur) (items (FR None (Some (RDuration (mkDurationRules (Some true) None None None None None [] [])))))
    (VList [VDur (Some (mkSN 1 0))]) true Rejects.
Proof. dev. Qed.
(** Three nanoseconds are not equal to three nanoseconds. *)
Theorem py_nanos_refuted :
  py_deviates ex_pl (FOne TDur) (FR None (Some (RDuration (mkDurationRules None (Some (mkSN 0 3)) None None None None [] [])))) (VDur (Some (mkSN 0 3))) true Rejects.
Proof. dev. Qed.
(** Durations that are not valid. *)
Theorem py_mixed_duration_refuted :
  py_deviates ex_pl (FOne TDur) (FR None (Some (RDuration (mkDurationRules None None None None (Some (mkSN 0 0)) None [] [])))) (VDur (Some (mkSN 1 (-1)))) false Passes.
Proof. dev. Qed.
(** A newline at the end of a header value. *)
Theorem py_header_newline_refuted :
  py_deviates ex_pl (FOne TString) (p_str_rule (with_wk (WRegex KRHeaderValue) str_none)) (VStr (bs "a" ++ [10%N])) false Passes.
Proof. dev. Qed.
(** 32 hexadecimal digits are a UUID. *)
Theorem py_uuid_refuted :
  py_deviates ex_pl (FOne TString) (p_str_rule (with_wk (WUuid true) str_none)) (VStr (bs "00112233445566778899aabbccddeeff")) false Passes.
Proof. dev. Qed.
(** The Kelvin sign, which Go's ToLower makes a "k". *)
Theorem py_kelvin_refuted :
  py_deviates ex_pl (FOne TString) (p_str_rule (with_wk (WHostname true) str_none)) (VStr [0xE2; 0x84; 0xAA]%N) true Rejects.
Proof. dev. Qed.
(** An URI without a path. *)
Definition no_path : py_libs := mkPyLibs (pl_search ex_pl) (pl_bsearch ex_pl) (pl_ip4 ex_pl) (pl_ip6 ex_pl) (pl_email ex_pl)
  (fun s => Some (mkPyUrl true true false false)) (pl_int16 ex_pl) (pl_now ex_pl).
Theorem py_uri_refuted :
  py_deviates no_path (FOne TString) (p_str_rule (with_wk (WUri true) str_none)) (VStr (bs "http://example.org")) true Rejects.
Proof. dev. Qed.
(** An empty constant for bytes is enforced. *)
Theorem py_empty_bytes_refuted :
  py_deviates ex_pl (FOne TBytes) (p_byt_rule (mkBytesRules (Some []) None None None None None None None [] [] None None)) (VByt [1%N]) true Rejects.
Proof. dev. Qed.
(** A backslash in a pattern for bytes is doubled.  The libraries agree about the pattern itself. *)
Definition word_char : bytes := bs "\w".
Definition words : py_libs := mkPyLibs (pl_search ex_pl) (fun p s => if bytes_eqb p word_char then contains s (bs "x") else contains s p)
  (pl_ip4 ex_pl) (pl_ip6 ex_pl) (pl_email ex_pl) (pl_url ex_pl) (pl_int16 ex_pl) (pl_now ex_pl).
Theorem py_backslash_refuted :
  (forall s, pl_bsearch words word_char s = o_match ex_orc word_char s) /\
  py_deviates words (FOne TBytes) (p_byt_rule (mkBytesRules None None None None (Some word_char) None None None [] [] None None)) (VByt (bs "x")) true Rejects.
Proof. split; [intros s; reflexivity|dev]. Qed.
(** At the earliest moment that [within] allows. *)
Theorem py_within_refuted :
  py_deviates ex_pl (FOne TTs) (FR None (Some (RTimestamp (mkTimestampRules None None None None None None (Some true) None (Some (mkSN 60 0))))))
    (VTs (Some (mkSN 1599999940 0))) true Rejects.
Proof. dev. Qed.

(** Messages with two fields, "key" and "value", are taken for the entries of a map if they are in a list. *)
Definition pairs : schema :=
  mkSchema [mkMsg "M" [mkField "F" (FRep (TMsg "Pair")) fr_none] [] false MBoth;
            mkMsg "Pair" [mkField "key" (FOne TString) fr_none; mkField "value" (FOne TString) (s_rules (min_len 1))] [] false MBoth] [] ["M"; "Pair"]%string.
Theorem py_pairs_refuted :
  py_differs ex_pl (mkPyNames (pn_full ex_pn) (fun n => String.eqb n "Pair") (pn_ignored ex_pn)) pairs "M"
    (one_value (VList [VMsg (Some (MV [("key", VStr []); ("value", VStr [])]%string []))])) false Passes.
Proof. py_dif pairs "M"%string. Qed.
(** Messages of a package whose name begins with "google.protobuf" are not validated. *)
Definition googly : schema :=
  mkSchema [mkMsg "M" [mkField "F" (FOne (TMsg "Name")) fr_none] [] false MBoth;
            mkMsg "Name" [mkField "Text" (FOne TString) (s_rules (min_len 1))] [] false MBoth] [] ["M"; "Name"]%string.
Theorem py_google_refuted :
  py_differs ex_pl (mkPyNames (String.append "google.protobufs.") (fun _ => false) (fun _ => false)) googly "M"
    (one_value (VMsg (Some (MV [("Text"%string, VStr [])] [])))) false Passes.
Proof. py_dif googly "M"%string. Qed.

(** There is no line break before the upper bound. *)
Theorem py_duration_bound_refuted :
  py_deviates ex_pl (FOne TDur) (FR None (Some (RDuration a_day))) (VDur (Some (mkSN 60 0))) true Crashes.
Proof. dev. Qed.
(** Nor before the [if] of [ignore_empty]. *)
Theorem py_items_ignore_empty_refuted :
  py_deviates ex_pl (FRep TString) (items (p_str_rule optional)) (VList [VStr (bs "abc"); VStr []]) true Crashes.
Proof. dev. Qed.
Theorem py_keys_ignore_empty_refuted :
  py_deviates ex_pl (FMap TString TBool) (FR None (Some (RMap (mkMapRules None None None (Some (p_str_rule optional)) None None)))) (VMap []) true Crashes.
Proof. dev. Qed.
Theorem py_values_ignore_empty_refuted :
  py_deviates ex_pl (FMap (TNum KInt32) TString) (FR None (Some (RMap (mkMapRules None None None None (Some (p_str_rule optional)) None)))) (VMap []) true Crashes.
Proof. dev. Qed.
Definition choosy : schema :=
  mkSchema [mkMsg "M" [] [mkOneof "Choice" [mkField "Text" (FOne TString) (p_str_rule optional); mkField "Flag" (FOne TBool) fr_none] None] false MBoth] [] ["M"]%string.
(** Even if it is not the member that is set. *)
Theorem py_oneof_ignore_empty_refuted :
  py_differs ex_pl ex_pn choosy "M" (MV [] [("Choice", Some ("Flag", VBool true))]%string) true Crashes.
Proof. py_dif choosy "M"%string. Qed.
Print Assumptions py_duration_bound_refuted.
Print Assumptions py_items_ignore_empty_refuted.
Print Assumptions py_keys_ignore_empty_refuted.
Print Assumptions py_values_ignore_empty_refuted.
Print Assumptions py_oneof_ignore_empty_refuted.
Print Assumptions py_len_0_refuted.
Print Assumptions py_max_len_0_refuted.
Print Assumptions py_max_items_0_refuted.
Print Assumptions py_enum_const_0_refuted.
Print Assumptions py_ignore_empty_false_refuted.
Print Assumptions py_items_bytes_refuted.
Print Assumptions py_keys_hide_values_refuted.
Print Assumptions py_items_message_refuted.
Print Assumptions py_items_required_refuted.
Print Assumptions py_nanos_refuted.
Print Assumptions py_mixed_duration_refuted.
Print Assumptions py_header_newline_refuted.
Print Assumptions py_uuid_refuted.
Print Assumptions py_kelvin_refuted.
Print Assumptions py_uri_refuted.
Print Assumptions py_empty_bytes_refuted.
Print Assumptions py_backslash_refuted.
Print Assumptions py_within_refuted.
Print Assumptions py_pairs_refuted.
Print Assumptions py_google_refuted.
