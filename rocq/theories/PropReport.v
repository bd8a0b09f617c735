(** C50: the field that a failing validation names, in Java, C++, Go and Python.

    [path_to orc sc n m p] (ReportSpec.v): [p] leads from the message [m] of type [n] through embedded messages to a
    violated rule.  [java_report_f], [cc_report_f] and [py_report_f] are the validators of Java, C++ and Python once more,
    with what their errors name. *)
From Coq Require Import Lia.
From Verif Require Import Base Num Rules Types Iface Checker GoGen GoSem Spec SpecErr Meaning Wt WtDec Setting Main MainFacts MeaningFacts LangFacts
  Values Outcome Says Example ErrTextFacts Java JavaSpec JavaRunFacts JavaEx PropJava Cc CcSpec CcRunFacts CcEx PropCc
  WtMsgDec Report JavaReport CcReport ReportSpec JavaReportFacts CcReportFacts CcTextFacts ReportGo
  Py PySpec PyRunFacts PyEx PropPy PyReport PyReportSpec PyReportFacts PyLabelFacts.

(** ** Paths *)

(** There is a path only in messages that are not valid, and all paths begin with the same field.  This is so for
    both orders: the fields that are in no oneof first, or the oneofs first. *)
Theorem path_leads_to_violation : forall re_ok sc0 sc orc, check_schema re_ok sc0 = Some sc -> wf_schema sc0 ->
  forall ord n m p, path_by ord orc sc0 n m p -> ~ valid orc sc0 n m.
Proof.
  intros re_ok sc0 sc orc C W ord n m p H V. apply (path_invalid _ _ _ _ _ _ H).
  apply (valid_meant re_ok sc0 sc orc C (fun d I => proj1 (proj1 (W d I)))). exact V.
Qed.
Print Assumptions path_leads_to_violation.
Theorem paths_begin_alike : forall ord orc sc n m c p c' p', path_by ord orc sc n m (c :: p) -> path_by ord orc sc n m (c' :: p') -> c = c'.
Proof. exact path_head_unique. Qed.
Print Assumptions paths_begin_alike.

(** ** Java *)

(** The same validator. *)
Theorem java_report_exact : forall jl sc ignored fuel n m,
  verdict (java_report_f jl sc ignored fuel n m) = assert_valid_f jl sc ignored fuel n m.
Proof. intros. apply java_report_verdict. Qed.
Print Assumptions java_report_exact.

(** For an invalid message, the exception names the end of a path: the field, or the oneof, whose rule is violated.
    If that field is a wrapper that must be present, what it names may be garbage. *)
Theorem java_error_names_field : forall re_ok sc0 sc orc jl ignored, java_setting re_ok sc0 sc orc ignored ->
  forall n d m, message sc0 n d m -> java_message sc orc jl ignored n m -> ~ valid orc sc0 n m ->
  forall fuel, mheight m < fuel ->
    exists p c c', java_report_f jl sc ignored fuel n m = Fault [c'] /\ path_to orc sc0 n m (p ++ [c]) /\ java_names sc0 c c'.
Proof.
  intros re_ok sc0 sc orc jl ignored js n d m M JM NV fuel H.
  assert (E := proj2 (java_assert_valid_exact _ _ _ _ _ _ js n d m M JM fuel H)). apply E in NV. rewrite <- java_report_exact in NV.
  destruct (java_report_f jl sc ignored fuel n m) as [|p'| |] eqn:R; try discriminate.
  destruct js as [C W O J], M as [F Me T], JM as [I V].
  destruct (java_blame re_ok sc0 sc orc jl ignored C W O J fuel n d m p' F T V I H R) as (_ & q & Q1 & p & c & c' & -> & -> & Q2).
  exists p, c, c'. auto.
Qed.
Print Assumptions java_error_names_field.
Example java_error_names_field_ex :
  java_setting re_any ex2_schema ex2_checked ex_orc (fun _ => false) /\ message ex2_schema "Person" ex2_person ex_bad /\
  java_message ex2_checked ex_orc ex_jl (fun _ => false) "Person" ex_bad /\ ~ valid ex_orc ex2_schema "Person" ex_bad /\
  java_report_f ex_jl ex2_checked (fun _ => false) 3 "Person" ex_bad = Fault [FieldOf "Person" "Id"].
Proof.
  split; [exact ex2_jset|]. split; [exact ex2_bad_msg|]. split; [exact ex2_bad_jmsg|]. split; [exact (proj2 (proj2 (proj2 java_assert_valid_exact_ex)))|].
  vm_compute. reflexivity.
Qed.

(** ** C++ *)
Theorem cc_report_exact : forall cl sc fuel n m, verdict (cc_report_f cl sc fuel n m) = cc_validate_f cl sc fuel n m.
Proof. intros. apply cc_report_verdict. Qed.
Print Assumptions cc_report_exact.

(** For an invalid message, the fields that the error and its causes name are a path. *)
Theorem cc_error_names_path : forall re_ok sc0 sc orc cl, cc_setting re_ok sc0 sc orc cl ->
  forall n d m, message sc0 n d m -> cc_values sc orc cl n m -> ~ valid orc sc0 n m ->
  forall fuel, mheight m < fuel ->
    exists p, cc_report_f cl sc fuel n m = Fault p /\ path_to orc sc0 n m p.
Proof.
  intros re_ok sc0 sc orc cl cs n d m M CV NV fuel H.
  assert (E := proj2 (cc_validate_exact _ _ _ _ _ cs n d m M CV fuel H)). apply E in NV. rewrite <- cc_report_exact in NV.
  destruct (cc_report_f cl sc fuel n m) as [|p'| |] eqn:R; try discriminate.
  destruct cs as [C W O J], M as [F Me T].
  destruct (cc_blame re_ok sc0 sc orc cl C W O J fuel n d m p' F T CV H R) as (_ & Q). eauto.
Qed.
Print Assumptions cc_error_names_path.
(** An entry of the map is an invalid message. *)
Definition ex3_inner : msgval :=
  account 1000 (bs "www.example.org") (bs "xy") (bs "text/html") f_half [1; 255; 0]%N (Some (place f_one f_one)) [bs "a"; bs "b"]
    [entry "work" f_one f_one; entry "gym" f_big f_one] 30 1 2 (bs "type.example/Foo") None.
Lemma ex3_inner_msg : message ex3_schema "Account" ex3_account ex3_inner.
Proof. constructor; [reflexivity|reflexivity|]. apply (wt_msgb_sound _ 3). vm_compute. reflexivity. Qed.
Lemma ex3_inner_cc : cc_values ex3_checked ex_orc ex_cl "Account" ex3_inner.
Proof.
  apply ev_active with (ex3_desc "Account"); [vm_compute; reflexivity| |].
  - intros f v Hf Hv. in_fields Hf; vm_compute in Hv; injection Hv as <-; cbn [f_type f_rules]. all: c_all.
  - intros o f v Ho Hf Hv. in_fields Ho. in_fields Hf; vm_compute in Hv; try discriminate Hv; injection Hv as <-; cbn [f_type f_rules]; c_all.
Qed.
Example cc_error_names_path_ex :
  cc_setting re_any ex3_schema ex3_checked ex_orc ex_cl /\ message ex3_schema "Account" ex3_account ex3_inner /\
  cc_values ex3_checked ex_orc ex_cl "Account" ex3_inner /\ ~ valid ex_orc ex3_schema "Account" ex3_inner /\
  cc_report_f ex_cl ex3_checked 3 "Account" ex3_inner = Fault [FieldOf "Account" "Places"; FieldOf "Location" "Lat"].
Proof.
  split; [exact ex3_cset|]. split; [exact ex3_inner_msg|]. split; [exact ex3_inner_cc|]. split; [|vm_compute; reflexivity].
  apply (cc_validate_exact _ _ _ _ _ ex3_cset _ _ _ ex3_inner_msg ex3_inner_cc 3); vm_compute; [lia|reflexivity].
Qed.

(** ** Go *)

(** The fields that the error of Validate and its causes name are a path. *)
Theorem go_error_names_path : forall re_ok sc0 sc orc, setting re_ok sc0 sc orc ->
  forall n d m e, message sc0 n d m -> validate sc orc false n m = VErr e ->
    exists p, path_to orc sc0 n m p /\ go_names e = map named p.
Proof.
  intros re_ok sc0 sc orc st n d m e M R.
  destruct (run_ok re_ok sc0 sc orc st n d false m M) as (_ & _ & X). specialize (X e R). destruct st as [C W _ _].
  destruct (go_blame re_ok sc0 sc orc C W e n m X) as (q & Q1 & Q2). exists q. auto.
Qed.
Print Assumptions go_error_names_path.
Example go_error_names_path_ex : exists e, validate ex3_checked ex_orc false "Account" ex3_inner = VErr e /\
  go_names e = [("Account", "Places"); ("Location", "Lat")]%string.
Proof. eexists. split; [vm_compute; reflexivity|reflexivity]. Qed.

(** The errors of Go and C++ name the same field. *)
Theorem go_cc_name_same_field : forall re_ok sc0 sc orc cl, setting re_ok sc0 sc orc -> cc_schema cl sc ->
  forall n d m, message sc0 n d m -> cc_values sc orc cl n m ->
  forall e fuel, mheight m < fuel -> validate sc orc false n m = VErr e ->
    exists c p t, cc_report_f cl sc fuel n m = Fault (c :: p) /\ go_names e = named c :: t.
Proof.
  intros re_ok sc0 sc orc cl st J n d m M CV e fuel H R.
  assert (cs : cc_setting re_ok sc0 sc orc cl) by (destruct st; constructor; auto).
  destruct (go_error_names_path _ _ _ _ st n d m e M R) as (q & Q1 & Q2).
  assert (NV : ~ valid orc sc0 n m) by (destruct st as [C W _ _]; eapply path_leads_to_violation; eauto).
  destruct (cc_error_names_path _ _ _ _ _ cs n d m M CV NV fuel H) as (p & P1 & P2).
  destruct (path_blamed _ _ _ _ _ _ P2) as (d1 & c & t & -> & _ & _). destruct (path_blamed _ _ _ _ _ _ Q1) as (d2 & c2 & t2 & -> & _ & _).
  rewrite (path_head_unique _ _ _ _ _ _ _ _ _ Q1 P2) in Q2. exists c, t, (map named t2). auto.
Qed.
Print Assumptions go_cc_name_same_field.
Example go_cc_name_same_field_ex :
  setting re_any ex3_schema ex3_checked ex_orc /\ cc_schema ex_cl ex3_checked /\
  exists e, validate ex3_checked ex_orc false "Account" ex3_inner = VErr e /\
    cc_report_f ex_cl ex3_checked 3 "Account" ex3_inner = Fault [FieldOf "Account" "Places"; FieldOf "Location" "Lat"].
Proof. split; [exact ex3_setting|]. split; [exact ex3_cc|]. eexists. split; vm_compute; reflexivity. Qed.

(** ** Python *)

(** The same validator. *)
Theorem py_report_exact : forall pl pn sc fuel n m, verdict (py_report_f pl pn sc fuel n m) = py_validate_f pl pn sc fuel n m.
Proof. intros. apply py_report_verdict. Qed.
Print Assumptions py_report_exact.

(** For an invalid message, the text of the exception starts with what Python calls the end of a path.  The oneofs come first. *)
Theorem py_error_names_field : forall re_ok sc0 sc orc pl pn, py_setting re_ok sc0 sc orc pl pn ->
  forall n d m, message sc0 n d m -> py_values sc orc pl n m -> ~ valid orc sc0 n m ->
  forall fuel, mheight m < fuel ->
    exists p c l, py_report_f pl pn sc0 fuel n m = Fault [l] /\ path_by OneofsFirst orc sc0 n m (p ++ [c]) /\ py_says sc0 c l.
Proof.
  intros re_ok sc0 sc orc pl pn ps n d m M V NV fuel H.
  assert (E := proj2 (py_validate_exact _ _ _ _ _ _ ps n d m M V fuel H)). apply E in NV. rewrite <- py_report_exact in NV.
  destruct (py_report_f pl pn sc0 fuel n m) as [|p'| |] eqn:R; try discriminate.
  destruct M as [F Me T].
  destruct (py_blame re_ok sc0 sc orc pl pn ps fuel n d m p' F T V H R) as (_ & q & Q1 & p & c & l & -> & -> & Q2).
  exists p, c, l. auto.
Qed.
Print Assumptions py_error_names_field.
(** The only mistake is in the items of a list. *)
Definition ex4_contact : option (string * value) := Some ("Phone"%string, VStr (bs "+1")).
Definition ex4_with (home : option msgval) (tags : list bytes) (places : list (value * value)) (contact : option (string * value)) : msgval :=
  account4 1000 (bs "www.example.org") (bs "xy") [] (bs "text/html") f_half [1; 255; 0]%N home None tags places 30 1 2 (bs "type.example/Foo") contact.
Definition ex4_item : msgval := ex4_with (Some (place f_one f_one)) [bs "a"; []] [entry "work" f_one f_one] ex4_contact.
Lemma ex4_item_msg : message ex4_schema "Account" ex4_account ex4_item.
Proof. constructor; [reflexivity|reflexivity|]. apply (wt_msgb_sound _ 4). vm_compute. reflexivity. Qed.
Lemma ex4_item_py : py_values ex4_checked ex_orc ex_pl "Account" ex4_item.
Proof.
  apply ev_active with (ex4_desc "Account"); [vm_compute; reflexivity| |].
  - intros f v Hf Hv. in_fields Hf; vm_compute in Hv; injection Hv as <-; cbn [f_type f_rules]. all: p_all.
  - intros o f v Ho Hf Hv. in_fields Ho. in_fields Hf; vm_compute in Hv; try discriminate Hv; injection Hv as <-; cbn [f_type f_rules]; p_all.
Qed.
Example py_error_names_field_ex :
  py_setting re_any ex4_schema ex4_checked ex_orc ex_pl ex_pn /\ message ex4_schema "Account" ex4_account ex4_item /\
  py_values ex4_checked ex_orc ex_pl "Account" ex4_item /\ ~ valid ex_orc ex4_schema "Account" ex4_item /\
  py_report_f ex_pl ex_pn ex4_schema 4 "Account" ex4_item = Fault [LItem].
Proof.
  split; [exact ex4_py|]. split; [exact ex4_item_msg|]. split; [exact ex4_item_py|]. split; [|vm_compute; reflexivity].
  apply (py_validate_exact _ _ _ _ _ _ ex4_py _ _ _ ex4_item_msg ex4_item_py 4); vm_compute; [lia|reflexivity].
Qed.

(** If the text tells a field, then a path ends in a field of this name. *)
Theorem py_told_field : forall re_ok sc0 sc orc pl pn, py_setting re_ok sc0 sc orc pl pn ->
  forall n d m, message sc0 n d m -> py_values sc orc pl n m ->
  forall fuel l f, mheight m < fuel -> py_report_f pl pn sc0 fuel n m = Fault [l] -> told_field l = Some f ->
    exists p n', path_by OneofsFirst orc sc0 n m (p ++ [FieldOf n' f]).
Proof.
  intros re_ok sc0 sc orc pl pn ps n d m M V fuel l f H R T.
  assert (NV : ~ valid orc sc0 n m).
  { apply (py_validate_exact _ _ _ _ _ _ ps n d m M V fuel H). rewrite <- py_report_exact, R. reflexivity. }
  destruct (py_error_names_field _ _ _ _ _ _ ps n d m M V NV fuel H) as (p & c & l' & E & P & S).
  rewrite R in E. injection E as <-. destruct S as [n' d' f' l _ _ L|n' o]; [|discriminate].
  exists p, n'. replace f with (f_name f'); [exact P|]. destruct L; cbn in T; congruence.
Qed.
Print Assumptions py_told_field.
Definition ex4_lat : msgval := ex4_with (Some (place f_big f_one)) [bs "a"] [entry "work" f_one f_one] ex4_contact.
Lemma ex4_lat_msg : message ex4_schema "Account" ex4_account ex4_lat.
Proof. constructor; [reflexivity|reflexivity|]. apply (wt_msgb_sound _ 4). vm_compute. reflexivity. Qed.
Lemma ex4_lat_py : py_values ex4_checked ex_orc ex_pl "Account" ex4_lat.
Proof.
  apply ev_active with (ex4_desc "Account"); [vm_compute; reflexivity| |].
  - intros f v Hf Hv. in_fields Hf; vm_compute in Hv; injection Hv as <-; cbn [f_type f_rules]. all: p_all.
  - intros o f v Ho Hf Hv. in_fields Ho. in_fields Hf; vm_compute in Hv; try discriminate Hv; injection Hv as <-; cbn [f_type f_rules]; p_all.
Qed.
Example py_told_field_ex :
  message ex4_schema "Account" ex4_account ex4_lat /\ py_values ex4_checked ex_orc ex_pl "Account" ex4_lat /\
  py_report_f ex_pl ex_pn ex4_schema 4 "Account" ex4_lat = Fault [LField "Lat"] /\ told_field (LField "Lat") = Some "Lat"%string.
Proof. split; [exact ex4_lat_msg|]. split; [exact ex4_lat_py|]. split; vm_compute; reflexivity. Qed.

(** What the text starts with tells which of the names it is, up to fields called "item" and "key". *)
Theorem py_label_text : forall l l', label_ident l -> label_ident l' ->
  (label_text l = label_text l' <-> l = l' \/ mistaken l l' \/ mistaken l' l).
Proof. exact label_tells. Qed.
Print Assumptions py_label_text.
Example py_label_text_ex : map label_text [LField "Lat"; LBare "Home"; LValue "Age"; LEntry "Places"; LItem; LKey; LOneof "Contact"] =
  ["p.Lat"; "Home"; "p.Age.value"; "p.Places[key]"; "item"; "key"; "Oneof Contact"]%string.
Proof. reflexivity. Qed.

(** ** What the errors do not tell *)

(** Java does not name an absent wrapper that is required. *)
Theorem java_required_wrapper_refuted : exists sc0 sc m, check_schema re_any sc0 = Some sc /\ java_schema sc (fun _ => false) /\
  message sc0 "M" (one_field (FOne (TWrap WkInt32)) (FR (Some (mkMessageRules None (Some true))) (Some (RNum KInt32 (mkNumRules None None None None None [] [] None))))) m /\
  java_report_f ex_jl sc (fun _ => false) 1 "M" m = Fault [Garbled "M" "F"].
Proof.
  exists (one_schema (FOne (TWrap WkInt32)) (FR (Some (mkMessageRules None (Some true))) (Some (RNum KInt32 (mkNumRules None None None None None [] [] None))))).
  eexists. exists (one_value (VWrap None)). split; [vm_compute; reflexivity|]. split; [|split].
  - intros d [<-|[<-|[]]] A; [|discriminate]. cbn. repeat constructor. all: intros; exfalso; cbn in *; intuition discriminate.
  - constructor; [reflexivity|reflexivity|]. apply (wt_msgb_sound _ 3). vm_compute. reflexivity.
  - vm_compute. reflexivity.
Qed.
Print Assumptions java_required_wrapper_refuted.
(** Java names the field inside of an embedded message only, not where that message is: [Fault] of one place, also
    when all paths are longer. *)
Definition ex2_home : msgval :=
  person 1000 (bs "ann@example.org") (bs "xy") (bs "text/html") (Some (place f_big f_one)) [bs "a"; bs "b"]
    [entry "work" f_one f_one] 30 1500000000 1 2 (bs "type.example/Foo") None.
Definition ex2_places : msgval :=
  person 1000 (bs "ann@example.org") (bs "xy") (bs "text/html") (Some (place f_one f_one)) [bs "a"; bs "b"]
    [entry "work" f_big f_one] 30 1500000000 1 2 (bs "type.example/Foo") None.
Lemma ex2_home_msg : message ex2_schema "Person" ex2_person ex2_home.
Proof. constructor; [reflexivity|reflexivity|]. apply (wt_msgb_sound _ 3). vm_compute. reflexivity. Qed.
Lemma ex2_places_msg : message ex2_schema "Person" ex2_person ex2_places.
Proof. constructor; [reflexivity|reflexivity|]. apply (wt_msgb_sound _ 3). vm_compute. reflexivity. Qed.
Theorem java_place_refuted : exists m m' p p',
  message ex2_schema "Person" ex2_person m /\ message ex2_schema "Person" ex2_person m' /\
  path_to ex_orc ex2_schema "Person" m p /\ map named p = [("Person", "Home"); ("Location", "Lat")]%string /\
  path_to ex_orc ex2_schema "Person" m' p' /\ map named p' = [("Person", "Places"); ("Location", "Lat")]%string /\
  java_report_f ex_jl ex2_checked (fun _ => false) 3 "Person" m = Fault [FieldOf "Location" "Lat"] /\
  java_report_f ex_jl ex2_checked (fun _ => false) 3 "Person" m' = Fault [FieldOf "Location" "Lat"].
Proof.
  assert (R : exists e, validate ex2_checked ex_orc false "Person" ex2_home = VErr e /\ go_names e = [("Person", "Home"); ("Location", "Lat")]%string).
  { eexists. split; [vm_compute; reflexivity|reflexivity]. }
  assert (R' : exists e, validate ex2_checked ex_orc false "Person" ex2_places = VErr e /\ go_names e = [("Person", "Places"); ("Location", "Lat")]%string).
  { eexists. split; [vm_compute; reflexivity|reflexivity]. }
  destruct R as (e & R1 & R2), R' as (e' & R1' & R2').
  destruct (go_error_names_path _ _ _ _ ex2_setting _ _ _ _ ex2_home_msg R1) as (p & P1 & P2).
  destruct (go_error_names_path _ _ _ _ ex2_setting _ _ _ _ ex2_places_msg R1') as (p' & P1' & P2').
  exists ex2_home, ex2_places, p, p'. split; [exact ex2_home_msg|]. split; [exact ex2_places_msg|].
  split; [exact P1|]. split; [congruence|]. split; [exact P1'|]. split; [congruence|]. split; vm_compute; reflexivity.
Qed.
Print Assumptions java_place_refuted.

(** The text of Python does not tell which list the item is in. *)
Definition ex_lists : schema :=
  mkSchema [mkMsg "M" [mkField "A" (FRep TString) (FR None (Some (RRepeated (mkRepRules None None None (Some (s_rules (min_len 1))) None))));
                       mkField "B" (FRep TString) (FR None (Some (RRepeated (mkRepRules None None None (Some (s_rules (min_len 1))) None))))] [] false MBoth]
           [] ["M"%string].
Definition ex_lists_msg (a b : bytes) : msgval := MV [("A", VList [VStr a]); ("B", VList [VStr b])]%string [].
Theorem py_item_refuted : exists sc0 sc d m m' e e',
  setting re_any sc0 sc ex_orc /\ message sc0 "M" d m /\ message sc0 "M" d m' /\
  validate sc ex_orc false "M" m = VErr e /\ go_names e = [("M", "A")]%string /\
  validate sc ex_orc false "M" m' = VErr e' /\ go_names e' = [("M", "B")]%string /\
  py_report_f ex_pl ex_pn sc0 2 "M" m = Fault [LItem] /\ py_report_f ex_pl ex_pn sc0 2 "M" m' = Fault [LItem].
Proof.
  exists ex_lists, (match check_schema re_any ex_lists with Some s => s | None => mkSchema [] [] [] end), (hd ex_person (sc_msgs ex_lists)), (ex_lists_msg [] (bs "b")), (ex_lists_msg (bs "a") []). do 2 eexists.
  split; [|split; [|split; [|split; [|split; [|split; [|split; [|split]]]]]]].
  - constructor; [vm_compute; reflexivity|apply wf_schemab_sound; vm_compute; reflexivity|apply supportedb_sound; vm_compute; reflexivity|exact ex_orc_ok].
  - constructor; [reflexivity|reflexivity|]. apply (wt_msgb_sound _ 3). vm_compute. reflexivity.
  - constructor; [reflexivity|reflexivity|]. apply (wt_msgb_sound _ 3). vm_compute. reflexivity.
  - vm_compute. reflexivity.
  - reflexivity.
  - vm_compute. reflexivity.
  - reflexivity.
  - vm_compute. reflexivity.
  - vm_compute. reflexivity.
Qed.
Print Assumptions py_item_refuted.
(** Nor where the embedded message is, nor its type. *)
Definition ex4_place : msgval := ex4_with (Some (place f_one f_one)) [bs "a"] [entry "work" f_big f_one] ex4_contact.
Lemma ex4_place_msg : message ex4_schema "Account" ex4_account ex4_place.
Proof. constructor; [reflexivity|reflexivity|]. apply (wt_msgb_sound _ 4). vm_compute. reflexivity. Qed.
Theorem py_place_refuted : exists m m' e e',
  message ex4_schema "Account" ex4_account m /\ message ex4_schema "Account" ex4_account m' /\
  validate ex4_checked ex_orc false "Account" m = VErr e /\ go_names e = [("Account", "Home"); ("Location", "Lat")]%string /\
  validate ex4_checked ex_orc false "Account" m' = VErr e' /\ go_names e' = [("Account", "Places"); ("Location", "Lat")]%string /\
  py_report_f ex_pl ex_pn ex4_schema 4 "Account" m = Fault [LField "Lat"] /\ py_report_f ex_pl ex_pn ex4_schema 4 "Account" m' = Fault [LField "Lat"].
Proof.
  exists ex4_lat, ex4_place. do 2 eexists.
  split; [exact ex4_lat_msg|]. split; [exact ex4_place_msg|]. split; [vm_compute; reflexivity|]. split; [reflexivity|].
  split; [vm_compute; reflexivity|]. split; [reflexivity|]. split; vm_compute; reflexivity.
Qed.
Print Assumptions py_place_refuted.
(** Python and Go may name different fields of one message: Python looks at the oneofs first. *)
Theorem py_go_field_refuted : exists m e, message ex4_schema "Account" ex4_account m /\ py_values ex4_checked ex_orc ex_pl "Account" m /\
  validate ex4_checked ex_orc false "Account" m = VErr e /\ go_names e = [("Account", "Id")]%string /\
  py_report_f ex_pl ex_pn ex4_schema 4 "Account" m = Fault [LOneof "Contact"].
Proof.
  exists ex4_bad. eexists. split; [exact ex4_bad_msg|]. split; [exact ex4_bad_py|]. split; [vm_compute; reflexivity|]. split; [reflexivity|vm_compute; reflexivity].
Qed.
Print Assumptions py_go_field_refuted.

(** The text of an error of C++.  The stream begins with "invalid ", but each error text lacks it. *)
Theorem cc_text_exact : forall key msg field idx reason cause,
  cc_error_text key msg field idx reason cause =
    ((if key : bool then bs "key for " else []) ++ msg ++ bs "ValidationError." ++ field ++
     match idx with Some i => bs "[" ++ i ++ bs "]" | None => [] end ++ bs ": " ++ reason ++
     match cause with Some c => bs " | caused by " ++ c | None => [] end)%list.
Proof. exact cc_error_text_is. Qed.
Print Assumptions cc_text_exact.
Theorem cc_text_names_field : forall key msg field idx reason cause key' msg' field' idx' reason' cause',
  ident msg -> ident msg' -> ident field -> ident field' ->
  cc_error_text key (bs msg) (bs field) idx reason cause = cc_error_text key' (bs msg') (bs field') idx' reason' cause' ->
  key = key' /\ msg = msg' /\ field = field' /\ (idx = None <-> idx' = None).
Proof. exact cc_text_names. Qed.
Print Assumptions cc_text_names_field.
Theorem cc_text_invalid_refuted : forall key msg field idx reason cause, ident msg ->
  ~ exists t, cc_error_text key (bs msg) field idx reason cause = (bs "invalid " ++ t)%list.
Proof. exact cc_text_not_invalid. Qed.
Print Assumptions cc_text_invalid_refuted.
Example cc_text_ex : cc_error_text false (bs "Person") (bs "Id") None (bs "value must be greater than 999") None =
  bs "PersonValidationError.Id: value must be greater than 999".
Proof. vm_compute. reflexivity. Qed.
