(** A schema, libraries and messages that meet the assumptions of the theorems about Java. *)
From Coq Require Import Floats.SpecFloat Lia.
From Verif Require Import Base Utf8 Num Rules Types Time Iface Checker GoIR GoGen Regex Known GoSem Spec SpecErr
  Meaning LitSpec Values Outcome Wt WtDec KnownFacts Setting Example Java JavaSpec.

(** Example.v's Person without [no_sparse]. *)
Definition ex2_person : msgdesc := person_of None.
Definition ex2_schema : schema := schema_of None.
Definition ex2_checked : schema := match check_schema re_any ex2_schema with Some s => s | None => mkSchema [] [] [] end.

Lemma ex2_setting : setting re_any ex2_schema ex2_checked ex_orc.
Proof.
  constructor; [vm_compute; reflexivity|apply wf_schemab_sound; vm_compute; reflexivity|
    apply supportedb_sound; vm_compute; reflexivity|exact ex_orc_ok].
Qed.

(** On ASCII, Java's strings are Go's. *)
Definition ex_jl : java_libs := mkJavaLibs
  (fun p s => o_match ex_orc p s) (fun s => contains s [64%N]) (fun _ => true)
  (fun _ => true) (fun _ => true) (fun _ => true)
  (fun s => if contains s (bs ":") then Some true else None)
  (fun s => s) 1600000000000%Z.

Lemma ascii_utf8 s : forallb (fun c => (c <? 128)%N) s = true -> valid_utf8 s.
Proof.
  intros H. exists s. rewrite forallb_forall in H. split.
  - apply Forall_forall. intros c Hc. apply H in Hc. apply N.ltb_lt in Hc. unfold scalar_value. lia.
  - induction s as [|c t IH]; [reflexivity|]. cbn [map List.concat].
    rewrite <- IH by (intros x Hx; apply H; right; exact Hx). unfold utf8_bytes.
    rewrite (H c (or_introl eq_refl)). reflexivity.
Qed.

Ltac in_cases H := cbn [In] in H; repeat destruct H as [H|H]; try discriminate H; try contradiction H.
Ltac some_cases :=
  let x := fresh "x" in let H := fresh "H" in
  intros x H; cbn in H; in_cases H; first [injection H as <-|subst x].

Ltac j_text := split; [apply ascii_utf8; reflexivity|let c := fresh in let H := fresh in let K := fresh in
  intros c H K; vm_compute in K; cbn [In] in H; intuition (subst; discriminate)].
Ltac j_str := split; [some_cases; j_text|repeat (apply Forall_cons; [intros ? [= <-]; reflexivity|]); try apply Forall_nil].
Ltac j_num := some_cases; (split; [reflexivity|cbn -[Z.pow]; first [exact I|reflexivity|right; eauto]]).

Ltac j_field := cbn -[Nat.pow N.pow Z.pow]; repeat match goal with
  | |- _ /\ _ => split
  | |- _ -> _ => intro
  | H : _ /\ _ |- _ => destruct H
  | H : ?x <> ?x |- _ => now destruct H
  | |- java_str _ => j_str
  | |- java_num _ _ => j_num
  | |- ~ _ => intros [? ?]; discriminate
  | |- java_counts _ _ => split; [discriminate|split; intros ? [= <-]; reflexivity]
  | |- java_dur _ => some_cases; (split; [discriminate|reflexivity])
  | |- java_enum _ _ _ _ => split; [intros ? H; cbn in H; in_cases H|discriminate]
  | |- java_any _ => some_cases; j_text
  | |- java_ts _ => split; [intros ? H; cbn in H; in_cases H|intros H; now destruct H]
  | |- _ => discriminate
  | |- _ => reflexivity
  end.

Lemma ex2_java : java_schema ex2_checked (fun _ => false).
Proof.
  intros d Hd _. 
  assert (G : Forall (fun d => Forall (java_field ex2_checked (fun _ => false)) (all_fields d)) (sc_msgs ex2_checked)).
  2: { rewrite Forall_forall in G. apply G. exact Hd. }
  clear d Hd.
  let l := eval vm_compute in (map all_fields (sc_msgs ex2_checked)) in
  assert (E : map all_fields (sc_msgs ex2_checked) = l) by (vm_compute; reflexivity).
  apply Forall_map. rewrite E. clear E.
  repeat (apply Forall_cons; [repeat (apply Forall_cons; [j_field|]); try apply Forall_nil|]); try apply Forall_nil.
Qed.

Lemma ex2_good_wt : wt_msg ex2_schema ex2_person ex_good.
Proof.
  wt_person. intros f v [= <- <-]. eexists. split; [|split; [right; left; reflexivity|]]; [reflexivity|repeat constructor].
Qed.
Lemma ex2_bad_wt : wt_msg ex2_schema ex2_person ex_bad.
Proof. wt_person. Qed.
Lemma ex2_good_msg : message ex2_schema "Person" ex2_person ex_good.
Proof. constructor; [reflexivity|reflexivity|exact ex2_good_wt]. Qed.
Lemma ex2_bad_msg : message ex2_schema "Person" ex2_person ex_bad.
Proof. constructor; [reflexivity|reflexivity|exact ex2_bad_wt]. Qed.

Definition ex2_desc (n : string) : msgdesc :=
  match find_msg ex2_checked n with Some d => d | None => ex_location end.

Lemma ex_mail_agrees : formats_agree ex_orc ex_jl (WEmail true) (bs "ann@example.org").
Proof.
  exists (bs "ann@example.org"). split.
  - left. split; auto. rewrite <- BaseFacts.has_suffix_spec. vm_compute. discriminate.
  - split; intros _; [|vm_compute; reflexivity]. apply validate_email_spec. vm_compute. reflexivity.
Qed.
Lemma ex_uri_agrees : formats_agree ex_orc ex_jl (WUri true) (bs "http://example.org").
Proof. split; intros _; vm_compute; reflexivity. Qed.

Ltac in_fields H := vm_compute in H; repeat destruct H as [H|H]; try contradiction H; subst.
Ltac j_val :=
  split; [first [discriminate|intros _; exact I|intros _; eexists; reflexivity|intros _; discriminate]|];
  split; [first [discriminate|intros _; first [exact I|apply ascii_utf8; reflexivity]]|];
  intros ? ? [= <- <-]; first
  [ exact I
  | split; [apply ascii_utf8; vm_compute; reflexivity|];
    split; [intros ? [= <-]; vm_compute; reflexivity|];
    intros ? [= <-] ? ?; first [exact ex_mail_agrees|exact ex_uri_agrees|match goal with H : forall k, WRegex ?x <> WRegex k |- _ => now destruct (H x) end]
  | apply ascii_utf8; vm_compute; reflexivity
  | reflexivity
  | split; discriminate
  | split; [split; cbn; lia|split; [intros _; split; [reflexivity|cbn; lia]|intros H; now destruct H]]
  | repeat split; cbn; lia
  | idtac ].

Lemma place_java a b : java_number KDouble a -> java_number KDouble b ->
  all_values ex2_checked (java_value ex2_checked ex_orc ex_jl) "Location" (place a b).
Proof.
  intros Ha Hb. apply ev_active with (ex2_desc "Location"); [vm_compute; reflexivity| |intros o f v []].
  intros f v Hf Hv. in_fields Hf; vm_compute in Hv; injection Hv as <-.
  all: apply ev_one, ev_leaf; [|discriminate]; j_val; assumption.
Qed.

Ltac j_embeds := first [discriminate|intros ? ? [= <-] [= <-] _; apply place_java; split; discriminate].
Ltac j_leaf := apply ev_leaf; [j_val|j_embeds].
Ltac j_all := first
  [ apply ev_one; j_leaf
  | apply ev_rep; let x := fresh in let H := fresh in intros x H; in_fields H; j_leaf
  | apply ev_map; let x := fresh in let y := fresh in let H := fresh in
      intros x y H; in_fields H; injection H as <- <-; split; j_leaf ].

Lemma ex2_good_java : all_values ex2_checked (java_value ex2_checked ex_orc ex_jl) "Person" ex_good.
Proof.
  apply ev_active with (ex2_desc "Person"); [vm_compute; reflexivity| |].
  - intros f v Hf Hv. in_fields Hf; vm_compute in Hv; injection Hv as <-; cbn [f_type f_rules]. all: j_all.
  - intros o f v Ho Hf Hv. in_fields Ho. in_fields Hf; vm_compute in Hv; try discriminate Hv; injection Hv as <-; cbn [f_type f_rules]; j_all.
Qed.
Lemma ex2_bad_java : all_values ex2_checked (java_value ex2_checked ex_orc ex_jl) "Person" ex_bad.
Proof.
  apply ev_active with (ex2_desc "Person"); [vm_compute; reflexivity| |].
  - intros f v Hf Hv. in_fields Hf; vm_compute in Hv; injection Hv as <-; cbn [f_type f_rules]. all: j_all.
  - intros o f v Ho Hf Hv. in_fields Ho. in_fields Hf; vm_compute in Hv; try discriminate Hv; injection Hv as <-; cbn [f_type f_rules]; j_all.
Qed.

(** ** Messages with one field, for the deviations *)
Definition one_field (t : ftype) (fr : field_rules) : msgdesc := mkMsg "M" [mkField "F" t fr] [] false MBoth.
Definition no_methods (n : string) : msgdesc := mkMsg n [] [] false MNone.
Definition one_schema (t : ftype) (fr : field_rules) : schema :=
  mkSchema [one_field t fr; no_methods "Ignored"] [mkEnum "Color" [0; 1; 2]%Z] ["M"; "Ignored"]%string.
Definition one_value (v : value) : msgval := MV [("F"%string, v)] [].

(** Both plugins accept the schema whose only message has a field "F" of the type [t] with the rules [fr], the
    generated Go code is meaningful, and on the value [v] of that field Go's Validate returns nil if and only if [go],
    while the Java validator ends with [o]. *)
Definition deviates (ignored : string -> bool) (jl : java_libs) (t : ftype) (fr : field_rules) (v : value) (go : bool) (o : outcome) : Prop :=
  exists sc, setting re_any (one_schema t fr) sc ex_orc /\
    message (one_schema t fr) "M" (one_field t fr) (one_value v) /\
    (if go then validate sc ex_orc false "M" (one_value v) = VNil else exists e, validate sc ex_orc false "M" (one_value v) = VErr e) /\
    assert_valid_f jl sc ignored 5 "M" (one_value v) = o.

Lemma deviates_by ignored jl t fr v go o sc : check_schema re_any (one_schema t fr) = Some sc ->
  wf_schemab (one_schema t fr) = true -> supportedb sc = true -> wt_field (one_schema t fr) t v ->
  match validate sc ex_orc false "M" (one_value v) with VNil => go = true | VErr _ => go = false | _ => False end ->
  assert_valid_f jl sc ignored 5 "M" (one_value v) = o -> deviates ignored jl t fr v go o.
Proof.
  intros C W S T G J. exists sc. split; [|split; [|split; [|exact J]]].
  - constructor; [exact C|now apply wf_schemab_sound|now apply supportedb_sound|exact ex_orc_ok].
  - constructor; [reflexivity|reflexivity|]. constructor; [|constructor]. repeat constructor. exact T.
  - destruct (validate sc ex_orc false "M" (one_value v)); try contradiction; subst go; eauto.
Qed.
