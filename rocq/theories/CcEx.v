(** A schema, libraries and messages that meet the assumptions of the theorems about C++. *)
From Coq Require Import Floats.SpecFloat Lia.
From Verif Require Import Base Utf8 Num Rules Types Time Iface Checker GoIR GoGen Regex Known GoSem Spec SpecErr
  Meaning LitSpec Values Outcome BaseFacts Wt WtDec WtMsgDec KnownFacts Setting Example JavaEx Cc CcSpec.

(** 0.5f and 0.25f. *)
Definition f_half : spec_float := S754_finite false 8388608 (-24).
Definition f_quarter : spec_float := S754_finite false 8388608 (-25).

Definition ex3_account : msgdesc := mkMsg "Account"
  [mkField "Id" (FOne (TNum KUInt64)) (FR None (Some (RNum KUInt64 (mkNumRules None None None (Some (NI 999)) None [] [NI 1234] None))));
   mkField "Host" (FOne TString) (s_rules (with_wk (WHostname true)));
   mkField "Name" (FOne TString) (s_rules (with_pattern (bs "x")));
   mkField "Header" (FOne TString) (s_rules (with_wk (WRegex KRHeaderValue)));
   mkField "Ratio" (FOne (TNum KFloat)) (FR None (Some (RNum KFloat (mkNumRules None None (Some (NF f_half)) None None [] [NF f_quarter] None))));
   mkField "Blob" (FOne TBytes) (FR None (Some (RBytes (mkBytesRules None None (Some 2%N) None None (Some [1; 255]%N) None None [] [] None None))));
   mkField "Home" (FOne (TMsg "Location")) (FR (Some (mkMessageRules None (Some true))) None);
   mkField "Tags" (FRep TString) (FR None (Some (RRepeated (mkRepRules None (Some 3%N) (Some true) (Some (s_rules (min_len 1))) None))));
   mkField "Places" (FMap TString (TMsg "Location"))
     (FR None (Some (RMap (mkMapRules (Some 1%N) None None (Some (s_rules (min_len 1))) None None))));
   mkField "Age" (FOne (TWrap WkInt32)) (FR None (Some (RNum KInt32 (mkNumRules None (Some (NI 150)) None None (Some (NI 0)) [] [] None))));
   mkField "Timeout" (FOne TDur) (FR None (Some (RDuration (mkDurationRules None None (Some (mkSN 60 0)) None (Some (mkSN 0 0)) None [] []))));
   mkField "Color" (FOne (TEnum "Color")) (FR None (Some (REnum (mkEnumRules None (Some true) [] [0%Z]))));
   mkField "Extra" (FOne TAny) (FR None (Some (RAny (mkAnyRules None [bs "type.example/Foo"] []))))]
  [mkOneof "Contact"
     [mkField "Phone" (FOne TString) (s_rules (with_prefix (bs "+")));
      mkField "Visit" (FOne (TMsg "Location")) fr_none] (Some true)]
  false MBoth.
Definition ex3_schema : schema :=
  mkSchema [ex3_account; ex_location] [mkEnum "Color" [0; 1; 2]%Z] ["Account"; "Location"]%string.
Definition ex3_checked : schema := match check_schema re_any ex3_schema with Some s => s | None => mkSchema [] [] [] end.

Lemma ex3_setting : setting re_any ex3_schema ex3_checked ex_orc.
Proof.
  constructor; [vm_compute; reflexivity|apply wf_schemab_sound; vm_compute; reflexivity|
    apply supportedb_sound; vm_compute; reflexivity|exact ex_orc_ok].
Qed.

Definition ex_cl : cc_libs := mkCcLibs (fun p s => o_match ex_orc p s) (fun s => bytes_eqb s (bs "127.0.0.1")) (fun _ => false) widen.

Definition account (id : Z) (host name header : bytes) (ratio : spec_float) (blob : bytes) (home : option msgval) (tags : list bytes)
    (places : list (value * value)) (age : Z) (timeout : Z) (color : Z) (extra : bytes)
    (contact : option (string * value)) : msgval :=
  MV [("Id", VNum (NI id)); ("Host", VStr host); ("Name", VStr name); ("Header", VStr header);
      ("Ratio", VNum (NF ratio)); ("Blob", VByt blob);
      ("Home", VMsg home); ("Tags", VList (map VStr tags)); ("Places", VMap places);
      ("Age", VWrap (Some (VNum (NI age)))); ("Timeout", VDur (Some (mkSN timeout 0)));
      ("Color", VEnum color); ("Extra", VAny (Some extra))]%string
     [("Contact"%string, contact)].
Definition ex3_good : msgval :=
  account 1000 (bs "www.example.org") (bs "xy") (bs "text/html") f_half [1; 255; 0]%N (Some (place f_one f_one)) [bs "a"; bs "b"]
    [entry "work" f_one f_one; entry "gym" (f90 true) (f90 false)] 30 1 2 (bs "type.example/Foo")
    (Some ("Visit"%string, VMsg (Some (place f_one f_one)))).
(** Invalid in many ways. *)
Definition ex3_bad : msgval :=
  account 1234 (bs "-www.example.org") (bs "xy") [10%N] f_quarter [] None [bs "a"; bs "a"]
    [entry "work" f_big f_one; entry "" f_big f_one] 30 60 0 (bs "type.example/Foo") None.

Lemma ex3_good_msg : message ex3_schema "Account" ex3_account ex3_good.
Proof. constructor; [reflexivity|reflexivity|]. apply (wt_msgb_sound _ 3). vm_compute. reflexivity. Qed.
Lemma ex3_bad_msg : message ex3_schema "Account" ex3_account ex3_bad.
Proof. constructor; [reflexivity|reflexivity|]. apply (wt_msgb_sound _ 3). vm_compute. reflexivity. Qed.

(** ** The fragment *)
Definition hex_escapedb (c : N) : bool := ((c <? 7) || ((13 <? c) && (c <? 32)) || (c =? 127))%N.
Definition hex_digitb (c : N) : bool := (((48 <=? c) && (c <=? 57)) || ((65 <=? c) && (c <=? 70)) || ((97 <=? c) && (c <=? 102)))%N.
Fixpoint no_munch (s : bytes) : bool :=
  match s with
  | c :: ((d :: _) as t) => negb (hex_escapedb c && hex_digitb d) && no_munch t
  | _ => true
  end.
Definition cc_literalb (s : bytes) : bool :=
  forallb (fun c => (c <? 128)%N) s && no_munch s && negb (cc_contains s (bs "??")).

Lemma no_munch_sound s : no_munch s = true -> forall a c d b, s = a ++ c :: d :: b -> hex_escaped c -> ~ hex_digit d.
Proof.
  intros H a. revert s H. induction a as [|x a IH]; intros s H c d b -> Hc Hd.
  - cbn [app no_munch] in H. apply andb_true_iff in H. destruct H as [H _]. apply negb_true_iff in H.
    unfold hex_escaped, hex_digit, hex_escapedb, hex_digitb in *. lia.
  - apply (IH (a ++ c :: d :: b)) with c d b; auto. clear - H. cbn [app] in H. destruct a as [|y a]; cbn [app] in *; cbn [no_munch] in H; rewrite !andb_true_iff in H; cbn [no_munch].
    + rewrite andb_true_iff. tauto.
    + destruct (a ++ c :: d :: b) eqn:E; [destruct a; discriminate|]. tauto.
Qed.
Lemma cc_contains_has s p : cc_contains s p = false -> ~ has_inside s p.
Proof.
  intros H (a & b & E). revert s H E. induction a as [|x a IH]; intros s H E; cbn [app] in E.
  - rewrite E in H. destruct (p ++ b) as [|y t] eqn:Q; cbn [cc_contains] in H; apply orb_false_iff in H; destruct H as [H _];
      unfold cc_is_prefix in H; rewrite <- Q, firstn_app, Nat.sub_diag, firstn_O, app_nil_r, firstn_all, (proj2 (bytes_eqb_eq p p) eq_refl) in H; discriminate.
  - subst s. cbn [cc_contains] in H. apply orb_false_iff in H. destruct H as [_ H]. exact (IH _ H eq_refl).
Qed.
Lemma cc_literalb_sound s : cc_literalb s = true -> cc_literal s.
Proof.
  unfold cc_literalb. rewrite !andb_true_iff. intros [[A B] C]. split; [now apply ascii_utf8|]. split; [now apply no_munch_sound|].
  apply cc_contains_has. now apply negb_true_iff.
Qed.
Lemma cc_textb_sound s : cc_literalb s && forallb (fun c => negb (c =? 0)%N) s = true -> cc_text s.
Proof.
  rewrite andb_true_iff. intros [A B]. split; [now apply cc_literalb_sound|]. intros I. rewrite forallb_forall in B. specialize (B _ I). discriminate.
Qed.

Ltac c_text := apply cc_textb_sound; vm_compute; reflexivity.
Ltac c_lit := some_cases; apply cc_literalb_sound; vm_compute; reflexivity.
Ltac c_sizes := repeat (apply Forall_cons; [intros ? [= <-]; reflexivity|]); try apply Forall_nil.
Ltac c_str := split; [some_cases; c_text|split; [c_lit|split; [c_sizes|repeat split; discriminate]]].
Ltac c_byt := split; [some_cases; intros H; cbn [In] in H; repeat destruct H as [H|H]; discriminate || contradiction
  |split; [c_lit|split; [c_sizes|repeat split; discriminate]]].
Ltac c_num := split; [some_cases; (split; [reflexivity|cbn -[Z.pow]; first [lia|right; do 3 eexists; reflexivity|left; eexists; reflexivity]])
  |split; [intros K; first [discriminate K|intros ? H; cbn in H; in_cases H; injection H as <-; vm_compute; reflexivity]
          |intros K; first [discriminate K|intros ? H; cbn in H; in_cases H; injection H as <-; vm_compute; reflexivity]]].
Ltac c_rule := split; [cbn; intros H; first [contradiction H|exact I|exfalso; destruct H as [H|H]; now apply H]|]; split; [exact I|];
  cbn -[Z.pow N.pow]; first [exact I|split; [reflexivity|c_num]|c_str|c_byt|(some_cases; c_text)|(some_cases; split; vm_compute; reflexivity)].
Ltac c_elem := cbn [cc_elem_ok inner]; first [exact I|split; [reflexivity|c_rule]|c_rule].
Ltac c_field := cbn [cc_field_ok f_type f_rules fr_typ]; first
  [ exact I
  | cbn [r_min r_max r_unique r_items]; split; [intros ? [= <-]; reflexivity|split; [intros ? [= <-]; reflexivity|split; [intros _; split; [reflexivity|discriminate]|c_elem]]]
  | cbn [p_min p_max p_no_sparse p_keys p_values]; split; [intros ? [= <-]; reflexivity|split; [intros ? [= <-]; reflexivity|split; [discriminate|split; [intros [H _]; now apply H|split; c_elem]]]]
  | c_elem ].

Lemma ex3_cc : cc_schema ex_cl ex3_checked.
Proof.
  intros d Hd _.
  assert (G : Forall (fun d => Forall (cc_field_ok ex_cl) (all_fields d)) (sc_msgs ex3_checked)).
  2: { rewrite Forall_forall in G. apply G. exact Hd. }
  clear d Hd.
  let l := eval vm_compute in (map all_fields (sc_msgs ex3_checked)) in
  assert (E : map all_fields (sc_msgs ex3_checked) = l) by (vm_compute; reflexivity).
  apply Forall_map. rewrite E. clear E.
  repeat (apply Forall_cons; [repeat (apply Forall_cons; [c_field|]); try apply Forall_nil|]); try apply Forall_nil.
Qed.

(** ** The values *)
Definition ex3_desc (n : string) : msgdesc :=
  match find_msg ex3_checked n with Some d => d | None => ex_location end.

Ltac c_val :=
  split; [first [discriminate|intros _; exact I|intros _; discriminate]|];
  intros ? ? [= <- <-]; first
  [ exact I
  | intros ?; discriminate
  | (intros K; now destruct K as [K|K])
  | split; [intros _; apply ascii_utf8; vm_compute; reflexivity|];
    split; [intros ? [= <-]; vm_compute; reflexivity|];
    intros ? [= <-]; first [exact I|(cbn; repeat (apply Forall_cons; [reflexivity|]); apply Forall_nil)]
  | (cbn; lia)
  | (intros ? [= <-]; vm_compute; reflexivity) ].

Lemma place_cc a b :
  all_values ex3_checked (cc_value ex_cl ex_orc) "Location" (place a b).
Proof.
  apply ev_active with (ex3_desc "Location"); [vm_compute; reflexivity| |intros o f v []].
  intros f v Hf Hv. in_fields Hf; vm_compute in Hv; injection Hv as <-.
  all: apply ev_one, ev_leaf; [|discriminate]; (split; [discriminate|]); intros ? ? [= <- <-]; intros K; now destruct K as [K|K].
Qed.

Ltac c_embeds := first [discriminate|intros ? ? [= <-] [= <-] _; apply place_cc].
Ltac c_leaf := apply ev_leaf; [c_val|c_embeds].
Ltac c_all := first
  [ apply ev_one; c_leaf
  | apply ev_rep; let x := fresh in let H := fresh in intros x H; in_fields H; c_leaf
  | apply ev_map; let x := fresh in let y := fresh in let H := fresh in
      intros x y H; in_fields H; injection H as <- <-; split; c_leaf ].

Lemma ex3_good_cc : cc_values ex3_checked ex_orc ex_cl "Account" ex3_good.
Proof.
  apply ev_active with (ex3_desc "Account"); [vm_compute; reflexivity| |].
  - intros f v Hf Hv. in_fields Hf; vm_compute in Hv; injection Hv as <-; cbn [f_type f_rules]. all: c_all.
  - intros o f v Ho Hf Hv. in_fields Ho. in_fields Hf; vm_compute in Hv; try discriminate Hv; injection Hv as <-; cbn [f_type f_rules]; c_all.
Qed.
Lemma ex3_bad_cc : cc_values ex3_checked ex_orc ex_cl "Account" ex3_bad.
Proof.
  apply ev_active with (ex3_desc "Account"); [vm_compute; reflexivity| |].
  - intros f v Hf Hv. in_fields Hf; vm_compute in Hv; injection Hv as <-; cbn [f_type f_rules]. all: c_all.
  - intros o f v Ho Hf Hv. in_fields Ho. in_fields Hf; vm_compute in Hv; try discriminate Hv; injection Hv as <-; cbn [f_type f_rules]; c_all.
Qed.

(** ** Deviations *)

(** As [deviates] in JavaEx.v, for C++. *)
Definition cc_deviates (cl : cc_libs) (t : ftype) (fr : field_rules) (v : value) (go : bool) (o : outcome) : Prop :=
  exists sc, setting re_any (one_schema t fr) sc ex_orc /\
    message (one_schema t fr) "M" (one_field t fr) (one_value v) /\
    (if go then validate sc ex_orc false "M" (one_value v) = VNil else exists e, validate sc ex_orc false "M" (one_value v) = VErr e) /\
    cc_validate_f cl sc 5 "M" (one_value v) = o.

Lemma cc_deviates_by cl t fr v go o sc : check_schema re_any (one_schema t fr) = Some sc ->
  wf_schemab (one_schema t fr) = true -> supportedb sc = true -> wt_fieldb (one_schema t fr) (fun _ _ => false) t v = true ->
  match validate sc ex_orc false "M" (one_value v) with VNil => go = true | VErr _ => go = false | _ => False end ->
  cc_validate_f cl sc 5 "M" (one_value v) = o -> cc_deviates cl t fr v go o.
Proof.
  intros C W S T G J. exists sc. split; [|split; [|split; [|exact J]]].
  - constructor; [exact C|now apply wf_schemab_sound|now apply supportedb_sound|exact ex_orc_ok].
  - constructor; [reflexivity|reflexivity|]. constructor; [|constructor]. repeat constructor. eapply wt_fieldb_sound; [|exact T]. discriminate.
  - destruct (validate sc ex_orc false "M" (one_value v)); try contradiction; subst go; eauto.
Qed.
Ltac cc_dev t fr := apply (cc_deviates_by _ _ _ _ _ _ (match check_schema re_any (one_schema t fr) with Some s => s | None => mkSchema [] [] [] end));
  vm_compute; reflexivity.
