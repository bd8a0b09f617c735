(** C54-C56 when the two programs are written in any of the four languages. *)
From Coq Require Import Lia Floats.SpecFloat Sorting.Permutation.
From Verif Require Import Base Utf8 Num Rules Types Iface Checker GoGen GoSem Spec Meaning Wt Setting WtDec WtMsgDec MainFacts MeaningFacts FieldFacts Values Outcome
  Java JavaSpec Cc CcSpec Py PySpec PropJava PropCc PropPy GoFit GoCompile AllSpec AllFacts RuleFacts GoEx Example JavaEx CcEx PyEx AllEx HarnessMainSpec EvolveSpec EvolveFacts PropEvolve.

(** A program: its language, its schema (as written, and as the plugin leaves it), and the libraries of its language. *)
Record program := mkProgram {
  g_lang : lang; g_sc0 : schema; g_sc : schema;
  g_jl : java_libs; g_cl : cc_libs; g_pl : py_libs; g_pn : py_names; g_ignored : string -> bool }.

(** The schema is one for which code in this language is exact ([HarnessMainSpec.fit]). *)
Definition fit_program (re_ok : bytes -> bool) (orc : oracles) (g : program) : Prop :=
  fit (g_sc0 g) (g_sc g) orc (g_cl g) (g_pl g) (g_pn g) (g_ignored g) re_ok (g_lang g).
(** So is the message. *)
Definition fit_message (orc : oracles) (g : program) (n : string) (m : msgval) : Prop :=
  match g_lang g with
  | LGo => True
  | LCc => cc_values (g_sc g) orc (g_cl g) n m
  | LJava => java_message (g_sc g) orc (g_jl g) (g_ignored g) n m
  | LPython => py_values (g_sc g) orc (g_pl g) n m
  end.
(** What the program does with a message; [all] is for ValidateAll of Go, [fuel] the depth of calls. *)
Definition accepts (orc : oracles) (all : bool) (fuel : nat) (g : program) (n : string) (m : msgval) : Prop :=
  match g_lang g with
  | LGo => validate (g_sc g) orc all n m = VNil
  | LCc => cc_validate_f (g_cl g) (g_sc g) fuel n m = Passes
  | LJava => assert_valid_f (g_jl g) (g_sc g) (g_ignored g) fuel n m = Passes
  | LPython => py_validate_f (g_pl g) (g_pn g) (g_sc0 g) fuel n m = Passes
  end.

Lemma fit_parts re_ok orc g : fit_program re_ok orc g -> check_schema re_ok (g_sc0 g) = Some (g_sc g) /\ wf_schema (g_sc0 g) /\ oracle_ok orc.
Proof. unfold fit_program, fit. destruct (g_lang g); intros []; auto. Qed.
Lemma accepts_meant re_ok orc all fuel g n d m : fit_program re_ok orc g -> message (g_sc0 g) n d m -> fit_message orc g n m -> mheight m < fuel ->
  (accepts orc all fuel g n m <-> meant orc (g_sc0 g) n m).
Proof.
  intros F M V H. destruct (fit_parts _ _ _ F) as (C & W & O).
  rewrite <- (valid_meant re_ok (g_sc0 g) (g_sc g) orc C (wf_nodup _ W) n m). unfold fit_program, fit, fit_message, accepts in *. destruct (g_lang g).
  - exact (proj1 (run_verdict _ _ _ _ F n d all m M)).
  - exact (proj1 (cc_validate_exact _ _ _ _ _ F n d m M V fuel H)).
  - exact (proj1 (java_assert_valid_exact _ _ _ _ _ _ F n d m M V fuel H)).
  - exact (proj1 (py_validate_exact _ _ _ _ _ _ F n d m M V fuel H)).
Qed.

(** C54: the program [g] accepts, as it sees it, whatever [g'] sends and accepts, if the rules of [g'] cover its own. *)
Theorem evolve_across : forall re_ok orc g g', fit_program re_ok orc g -> fit_program re_ok orc g' -> covered orc (g_sc0 g) (g_sc0 g') ->
  forall n d d' m m', message (g_sc0 g) n d m -> message (g_sc0 g') n d' m' -> fit_message orc g n m -> fit_message orc g' n m' -> sees (g_sc0 g) d m m' ->
  forall all all' fuel fuel', mheight m < fuel -> mheight m' < fuel' -> accepts orc all' fuel' g' n m' -> accepts orc all fuel g n m.
Proof.
  intros re_ok orc g g' F F' C n d d' m m' M M' V V' S all all' fuel fuel' H H' A. destruct (fit_parts _ _ _ F) as (_ & W & _), (fit_parts _ _ _ F') as (_ & W' & _).
  apply (accepts_meant re_ok orc all fuel g n d m F M V H). apply (accepts_meant re_ok orc all' fuel' g' n d' m' F' M' V' H') in A.
  eapply meant_holds; eauto. exists d, d'. destruct M, M'. auto.
Qed.
Print Assumptions evolve_across.

(** C55: if the rules of each cover those of the other, they agree. *)
Theorem agree_across : forall re_ok orc g g', fit_program re_ok orc g -> fit_program re_ok orc g' ->
  covered orc (g_sc0 g) (g_sc0 g') -> covered orc (g_sc0 g') (g_sc0 g) ->
  forall n d d' m m', message (g_sc0 g) n d m -> message (g_sc0 g') n d' m' -> fit_message orc g n m -> fit_message orc g' n m' ->
  sees (g_sc0 g) d m m' -> sees (g_sc0 g') d' m' m ->
  forall all all' fuel fuel', mheight m < fuel -> mheight m' < fuel' -> (accepts orc all fuel g n m <-> accepts orc all' fuel' g' n m').
Proof. intros. split; eapply evolve_across; eauto. Qed.
Print Assumptions agree_across.

(** C56: nor does the order of the declarations make a difference. *)
Theorem order_across : forall re_ok orc g g', fit_program re_ok orc g -> fit_program re_ok orc g' -> reordered (g_sc0 g) (g_sc0 g') ->
  forall n d d' m m', message (g_sc0 g) n d m -> message (g_sc0 g') n d' m' -> fit_message orc g n m -> fit_message orc g' n m' ->
  sees (g_sc0 g) d m m' -> sees (g_sc0 g') d' m' m ->
  forall all all' fuel fuel', mheight m < fuel -> mheight m' < fuel' -> (accepts orc all fuel g n m <-> accepts orc all' fuel' g' n m').
Proof.
  intros re_ok orc g g' F F' R. destruct (fit_parts _ _ _ F) as (C & _), (fit_parts _ _ _ F') as (C' & _).
  apply (agree_across re_ok orc g g' F F'); [eapply reordered_covered; eauto|]. eapply reordered_covered; eauto. now apply reordered_back.
Qed.
Print Assumptions order_across.

(** A Python program with an older schema and a C++ program with a newer one. *)
Definition tag1 : msgdesc := mkMsg "Tag" [mkField "Label" (FOne TString) (s_rules (min_len 1))] [] false MBoth.
Definition tag2 : msgdesc := mkMsg "Tag"
  [mkField "Weight" (FOne (TNum KInt32)) (FR None (Some (RNum KInt32 (mkNumRules None (Some (NI 9)) None None None [] [] None))));
   mkField "Label" (FOne TString) (s_rules (min_len 2))] [] false MBoth.
Definition tags1 : schema := mkSchema [tag1] [] ["Tag"%string].
Definition tags2 : schema := mkSchema [tag2] [] ["Tag"%string].
Definition said1 : msgval := MV [("Label"%string, VStr (bs "abc"))] [].
Definition said2 : msgval := MV [("Weight"%string, VNum (NI 3)); ("Label"%string, VStr (bs "abc"))] [].
Definition py_old : program := mkProgram LPython tags1 tags1 ex_jl ex_cl ex_pl ex_pn (fun _ => false).
Definition cc_new : program := mkProgram LCc tags2 tags2 ex_jl ex_cl ex_pl ex_pn (fun _ => false).

Lemma tags1_setting : common_setting re_any tags1 tags1 ex_orc ex_pl ex_pn.
Proof.
  assert (P : package re_any tags1 tags1) by (apply packageb_sound; vm_compute; reflexivity). destruct P. constructor; auto using ex_orc_ok.
  split; [intros e []|]. intros d Hd. in_fields Hd. split; [reflexivity|]. split; [|split; [discriminate|split; [|intros o f mr r []]]].
  - apply Forall_forall. intros f Hf. in_fields Hf. co_field.
  - apply Forall_forall. intros f Hf. apply enum_knownb_sound. in_fields Hf; vm_compute; reflexivity.
Qed.
Lemma tags2_setting : common_setting re_any tags2 tags2 ex_orc ex_pl ex_pn.
Proof.
  assert (P : package re_any tags2 tags2) by (apply packageb_sound; vm_compute; reflexivity). destruct P. constructor; auto using ex_orc_ok.
  split; [intros e []|]. intros d Hd. in_fields Hd. split; [reflexivity|]. split; [|split; [discriminate|split; [|intros o f mr r []]]].
  - apply Forall_forall. intros f Hf. in_fields Hf; co_field.
  - apply Forall_forall. intros f Hf. apply enum_knownb_sound. in_fields Hf; vm_compute; reflexivity.
Qed.
Lemma said1_values : common_values tags1 "Tag" said1.
Proof.
  apply ev_active with tag1; [reflexivity| |intros o f v []]. intros f v Hf Hv. in_fields Hf; vm_compute in Hv; injection Hv as <-. apply ev_one, ev_leaf; [co_val|discriminate].
Qed.
Lemma said2_values : common_values tags2 "Tag" said2.
Proof.
  apply ev_active with tag2; [reflexivity| |intros o f v []]. intros f v Hf Hv. in_fields Hf; vm_compute in Hv; injection Hv as <-; (apply ev_one, ev_leaf; [co_val|discriminate]).
Qed.
Lemma tags_covered : covered ex_orc tags1 tags2.
Proof.
  split; [|intros e z (d & E & _); discriminate E]. intros n d E. unfold find_msg in E. cbn in E. destruct (String.eqb_spec n "Tag") as [->|]; [|discriminate].
  injection E as <-. exists tag2. split; [reflexivity|]. split; [discriminate|]. intros _. split; [reflexivity|]. split; [|constructor].
  constructor; [|constructor]. left. eexists. split; [right; left; reflexivity|]. split; [reflexivity|]. split; [reflexivity|]. apply min_more. discriminate.
Qed.
Example evolve_across_ex : accepts ex_orc false 2 cc_new "Tag" said2 /\ accepts ex_orc false 2 py_old "Tag" said1.
Proof.
  assert (A : accepts ex_orc false 2 cc_new "Tag" said2) by (vm_compute; reflexivity). split; [exact A|].
  assert (V1 := co_values _ _ _ _ _ _ tags1_setting _ _ said1_values ex_jl ex_cl). assert (V2 := co_values _ _ _ _ _ _ tags2_setting _ _ said2_values ex_jl ex_cl).
  refine (evolve_across re_any ex_orc py_old cc_new _ _ tags_covered "Tag" tag1 tag2 said1 said2 _ _ _ _ _ false false 2 2 _ _ A).
  - exact (co_py _ _ _ _ _ _ tags1_setting).
  - exact (co_cc _ _ _ _ _ _ tags2_setting ex_cl).
  - constructor; [reflexivity|reflexivity|]. apply (wt_msgb_sound _ 3). vm_compute. reflexivity.
  - constructor; [reflexivity|reflexivity|]. apply (wt_msgb_sound _ 3). vm_compute. reflexivity.
  - apply V1.
  - apply V2.
  - constructor; [|intros o f v []|intros o []]. intros f v [<-|[]] [= <-]. left. eexists. split; [reflexivity|]. constructor. constructor.
  - vm_compute. repeat constructor.
  - vm_compute. repeat constructor.
Qed.
