(** C49: rules that C++ and Java do not implement.

    [cc_partly] and [java_partly] in SafeSpec.v: without the rules that are not implemented the schema is in the fragment
    on which C++ or Java validate exactly (PropCc.v, PropJava.v).  Where such rules are present, code that reaches
    one throws; it never reports a message as valid or invalid wrongly. *)
From Coq Require Import Floats.SpecFloat Lia.
From Verif Require Import Base Utf8 Num Rules Types Time Iface Checker GoGen Known GoSem Spec Meaning LitSpec Wt WtDec WtMsgDec Setting MainFacts MeaningFacts
  LangFacts Values Outcome Says Tells Example Java JavaSpec JavaFacts JavaEx Cc CcSpec CcFacts CcEx SafeSpec CcSafe JavaSafe.

(** ** A sign-up form: a name, an optional e-mail address, places by name *)
Definition signup : msgdesc := mkMsg "Signup"
  [mkField "Name" (FOne TString) (s_rules (min_len 1));
   mkField "Mail" (FOne (TWrap WkString)) (s_rules (with_wk (WEmail true)));
   mkField "Key" (FOne TBytes) (FR None (Some (RBytes (mkBytesRules None None None None None None None None [] [] (Some (BIp true)) (Some true)))));
   mkField "Places" (FMap TString (TMsg "Location"))
     (FR None (Some (RMap (mkMapRules None None (Some true) None None (Some true)))))]
  [] false MBoth.
Definition ex6_schema : schema := mkSchema [signup; ex_location] [] ["Signup"; "Location"]%string.
Definition ex6_checked : schema := match check_schema re_any ex6_schema with Some s => s | None => mkSchema [] [] [] end.
Definition form (name : bytes) (mail : option bytes) (key : bytes) (places : list (value * value)) : msgval :=
  MV [("Name", VStr name); ("Mail", VWrap (option_map VStr mail)); ("Key", VByt key); ("Places", VMap places)]%string [].
Definition nameless : msgval := form [] None [] [].
Definition plain : msgval := form (bs "Ann") None [] [].
Definition mailed : msgval := form (bs "Ann") (Some (bs "ann@example.org")) [] [].
Definition travelled : msgval := form (bs "Ann") None [] [entry "work" f_one f_one].

Lemma ex6_parts : check_schema re_any ex6_schema = Some ex6_checked /\ wf_schema ex6_schema.
Proof. split; [vm_compute; reflexivity|apply wf_schemab_sound; vm_compute; reflexivity]. Qed.
Lemma ex6_msg m : wt_msgb ex6_schema 3 signup m = true -> message ex6_schema "Signup" signup m.
Proof. constructor; [reflexivity|reflexivity|]. now apply (wt_msgb_sound _ 3). Qed.

Lemma ex6_cc : cc_part_setting re_any ex6_schema ex6_checked ex_orc ex_cl.
Proof.
  destruct ex6_parts as [C W]. constructor; [exact C|exact W|exact ex_orc_ok|].
  intros d Hd _.
  assert (G : Forall (fun d => Forall (fun f => cc_field_ok ex_cl (field_part cc_part f)) (all_fields d)) (sc_msgs ex6_checked)).
  2: { rewrite Forall_forall in G. apply G. exact Hd. }
  clear d Hd. apply Forall_impl with (P := fun d => Forall (cc_field_ok ex_cl) (map (field_part cc_part) (all_fields d))).
  { intros d H. rewrite Forall_map in H. exact H. }
  let l := eval vm_compute in (map (fun d => map (field_part cc_part) (all_fields d)) (sc_msgs ex6_checked)) in
  assert (E : map (fun d => map (field_part cc_part) (all_fields d)) (sc_msgs ex6_checked) = l) by (vm_compute; reflexivity).
  apply (Forall_map (fun d => map (field_part cc_part) (all_fields d)) (Forall (cc_field_ok ex_cl))). rewrite E. clear E.
  repeat (apply Forall_cons; [repeat (apply Forall_cons; [c_field|]); try apply Forall_nil|]); try apply Forall_nil.
Qed.

Lemma ex6_java : java_part_setting re_any ex6_schema ex6_checked ex_orc (fun _ => false).
Proof.
  destruct ex6_parts as [C W]. constructor; [exact C|exact W|exact ex_orc_ok|].
  intros d Hd _. set (g := field_part (fun r => r)).
  assert (G : Forall (fun d => Forall (fun f => java_field ex6_checked (fun _ => false) (g f)) (all_fields d)) (sc_msgs ex6_checked)).
  2: { rewrite Forall_forall in G. apply G. exact Hd. }
  clear d Hd. apply Forall_impl with (P := fun d => Forall (java_field ex6_checked (fun _ => false)) (map g (all_fields d))).
  { intros d H. rewrite Forall_map in H. exact H. }
  let l := eval vm_compute in (map (fun d => map g (all_fields d)) (sc_msgs ex6_checked)) in
  assert (E : map (fun d => map g (all_fields d)) (sc_msgs ex6_checked) = l) by (vm_compute; reflexivity).
  apply (Forall_map (fun d => map g (all_fields d)) (Forall (java_field ex6_checked (fun _ => false)))). rewrite E. clear E.
  repeat (apply Forall_cons; [repeat (apply Forall_cons; [j_field|]); try apply Forall_nil|]); try apply Forall_nil.
  split; [intros H; now destruct H|]. repeat (apply Forall_cons; [intros ? [=]|]). apply Forall_nil.
Qed.

Definition ex6_desc (n : string) : msgdesc := match find_msg ex6_checked n with Some d => d | None => ex_location end.

Lemma place_cc6 a b : all_values ex6_checked (cc_value ex_cl ex_orc) "Location" (place a b).
Proof.
  apply ev_active with (ex6_desc "Location"); [vm_compute; reflexivity| |intros o f v []].
  intros f v Hf Hv. in_fields Hf; vm_compute in Hv; injection Hv as <-.
  all: apply ev_one, ev_leaf; [|discriminate]; (split; [discriminate|]); intros ? ? [= <- <-]; intros K; now destruct K as [K|K].
Qed.
Lemma ex6_cc_values m : In m [nameless; plain; mailed; travelled] -> cc_values ex6_checked ex_orc ex_cl "Signup" m.
Proof.
  intros Hm. apply ev_active with (ex6_desc "Signup"); [vm_compute; reflexivity| |intros o f v []].
  intros f v Hf Hv. in_fields Hf; in_fields Hm; vm_compute in Hv; injection Hv as <-; cbn [f_type f_rules].
  all: first
    [ apply ev_one; apply ev_leaf; [|discriminate]; split; [discriminate|]; intros ? ? [= <- <-]; first
        [ exact I | intros ?; discriminate
        | split; [intros _; apply ascii_utf8; vm_compute; reflexivity|]; split; [discriminate|]; intros ? [= <-]; exact I ]
    | apply ev_map; intros x y H; in_fields H; try contradiction H; injection H as <- <-; split;
        (apply ev_leaf; [split; [intros _; first [exact I|discriminate]|discriminate]|first [discriminate|intros ? ? [= <-] [= <-] _; apply place_cc6]]) ].
Qed.

(** ** C++ *)

(** What C++ returns is right. *)
Theorem cc_never_wrong : forall re_ok sc0 sc orc cl, cc_part_setting re_ok sc0 sc orc cl ->
  forall n d m, message sc0 n d m -> cc_values sc orc cl n m ->
  forall fuel, mheight m < fuel ->
    (cc_validate_f cl sc fuel n m = Passes /\ valid orc sc0 n m) \/
    (cc_validate_f cl sc fuel n m = Rejects /\ ~ valid orc sc0 n m) \/
    cc_validate_f cl sc fuel n m = Unimplemented.
Proof.
  intros re_ok sc0 sc orc cl [C W O J] n d m [F M T] V fuel H.
  assert (Y : validated_type sc0 n = true) by (unfold validated_type; rewrite F; unfold has_methods in M; destruct (md_methods d); auto).
  destruct (cc_validate_tells re_ok sc0 sc orc cl C W O J fuel n d m F T V H) as [[E P]|[[E P]|E]]; rewrite E; [left; auto|right; left; split; auto|right; right; auto].
Qed.
Print Assumptions cc_never_wrong.
(** All three happen. *)
Example cc_never_wrong_ex : cc_part_setting re_any ex6_schema ex6_checked ex_orc ex_cl /\
  (forall m, In m [nameless; plain; mailed; travelled] -> message ex6_schema "Signup" signup m /\ cc_values ex6_checked ex_orc ex_cl "Signup" m) /\
  map (cc_validate_f ex_cl ex6_checked 3 "Signup") [nameless; plain; mailed; travelled] = [Rejects; Passes; Unimplemented; Unimplemented].
Proof.
  split; [exact ex6_cc|]. split; [|vm_compute; reflexivity]. intros m Hm. split; [|now apply ex6_cc_values].
  apply ex6_msg. in_fields Hm; vm_compute; reflexivity.
Qed.

(** So no message passes with a value under a rule that is not implemented, at any depth. *)
Theorem cc_passes_only_enforced : forall re_ok sc0 sc cl, check_schema re_ok sc0 = Some sc -> wf_schema sc0 ->
  forall n d, find_msg sc0 n = Some d -> forall fuel m,
    cc_validate_f cl sc fuel n m = Passes -> all_values sc cc_enforceable n m.
Proof.
  intros re_ok sc0 sc cl C W n d F fuel m. apply (cc_passes_enforced re_ok sc0 sc cl C W).
  destruct (ck_find re_ok sc0 sc n d C F) as (d' & F' & _). congruence.
Qed.
Print Assumptions cc_passes_only_enforced.
Example cc_passes_only_enforced_ex : cc_validate_f ex_cl ex6_checked 3 "Signup" plain = Passes /\
  cc_missing (RString (with_wk (WEmail true) str_none)) (VStr (bs "ann@example.org")) /\
  ~ all_values ex6_checked cc_enforceable "Signup" mailed.
Proof.
  split; [vm_compute; reflexivity|]. split; [split; [auto|intros [H _]; discriminate]|].
  intros A. inversion A as [n m d F I|n d m F P _]; subst; [vm_compute in F; injection F as <-; discriminate|].
  vm_compute in F. injection F as <-. specialize (P _ _ (or_intror (or_introl eq_refl)) eq_refl). cbn [f_type f_rules] in P.
  inversion P as [e fr v L| |]; subst. inversion L as [b u e fr v L' _]; subst. cbn in L'. apply L'. split; [auto|]. intros [H _]. discriminate.
Qed.

(** [no_sparse], in both. *)
Theorem no_sparse_never_passes : forall sc n d f v m, find_msg sc n = Some d -> active d = true -> In f (md_fields d) ->
  assoc (f_name f) (mv_fields m) = Some v -> sparse_missing (f_rules f) v ->
  forall fuel, (forall cl, cc_validate_f cl sc fuel n m <> Passes) /\ (forall jl ignored, assert_valid_f jl sc ignored fuel n m <> Passes).
Proof.
  intros sc n d f v m F A I E S fuel. split; intros; [eapply cc_sparse_throws|eapply java_sparse_throws]; eauto.
Qed.
Print Assumptions no_sparse_never_passes.
Example no_sparse_never_passes_ex : exists f v, In f (md_fields (ex6_desc "Signup")) /\ assoc (f_name f) (mv_fields travelled) = Some v /\ sparse_missing (f_rules f) v.
Proof.
  eexists. eexists. split; [right; right; right; left; reflexivity|]. split; [reflexivity|]. do 3 eexists. split; [reflexivity|]. split; [reflexivity|]. split; [reflexivity|].
  intros [_ H]. discriminate.
Qed.

(** ** Java *)
Theorem java_never_wrong : forall re_ok sc0 sc orc jl ignored, java_part_setting re_ok sc0 sc orc ignored ->
  forall n d m, message sc0 n d m -> java_message sc orc jl ignored n m ->
  forall fuel, mheight m < fuel ->
    (assert_valid_f jl sc ignored fuel n m = Passes /\ valid orc sc0 n m) \/
    (assert_valid_f jl sc ignored fuel n m = Rejects /\ ~ valid orc sc0 n m) \/
    assert_valid_f jl sc ignored fuel n m = Unimplemented.
Proof.
  intros re_ok sc0 sc orc jl ignored [C W O J] n d m [F M T] [I V] fuel H.
  assert (Y : validated_type sc0 n = true) by (unfold validated_type; rewrite F; unfold has_methods in M; destruct (md_methods d); auto).
  destruct (assert_valid_tells re_ok sc0 sc orc jl ignored C W O J fuel n d m F T V I H) as [[E P]|[[E P]|E]]; rewrite E; [left; auto|right; left; split; auto|right; right; auto].
Qed.
Print Assumptions java_never_wrong.

Lemma place_java6 a b : java_number KDouble a -> java_number KDouble b ->
  all_values ex6_checked (java_value ex6_checked ex_orc ex_jl) "Location" (place a b).
Proof.
  intros Ha Hb. apply ev_active with (ex6_desc "Location"); [vm_compute; reflexivity| |intros o f v []].
  intros f v Hf Hv. in_fields Hf; vm_compute in Hv; injection Hv as <-.
  all: apply ev_one, ev_leaf; [|discriminate]; j_val; assumption.
Qed.
Lemma ex6_java_values m : In m [nameless; plain; mailed; travelled] -> java_message ex6_checked ex_orc ex_jl (fun _ => false) "Signup" m.
Proof.
  intros Hm. constructor; [reflexivity|]. apply ev_active with (ex6_desc "Signup"); [vm_compute; reflexivity| |intros o f v []].
  intros f v Hf Hv. in_fields Hf; in_fields Hm; vm_compute in Hv; injection Hv as <-; cbn [f_type f_rules].
  all: first
    [ apply ev_one; apply ev_leaf; [|discriminate]; split; [discriminate|]; split; [discriminate|]; intros ? ? [= <- <-];
      split; [discriminate|intros _; intros (a & _ & E); discriminate E]
    | apply ev_one; apply ev_leaf; [j_val|discriminate]
    | apply ev_map; intros x y H; in_fields H; try contradiction H; injection H as <- <-; split;
        (apply ev_leaf; [j_val|first [discriminate|intros ? ? [= <-] [= <-] _; apply place_java6; split; discriminate]]) ].
Qed.
Example java_never_wrong_ex : java_part_setting re_any ex6_schema ex6_checked ex_orc (fun _ => false) /\
  (forall m, In m [nameless; plain; mailed; travelled] -> message ex6_schema "Signup" signup m /\ java_message ex6_checked ex_orc ex_jl (fun _ => false) "Signup" m) /\
  map (assert_valid_f ex_jl ex6_checked (fun _ => false) 3 "Signup") [nameless; plain; mailed; travelled] = [Rejects; Passes; Passes; Unimplemented].
Proof.
  split; [exact ex6_java|]. split; [|vm_compute; reflexivity]. intros m Hm. split; [|now apply ex6_java_values].
  apply ex6_msg. in_fields Hm; vm_compute; reflexivity.
Qed.
