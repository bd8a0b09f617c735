(** A schema, libraries and messages that meet the assumptions of the theorems about Python. *)
From Coq Require Import Floats.SpecFloat Lia.
From Verif Require Import Base Utf8 Num Rules Types Time Iface Checker GoIR GoGen Regex Known GoSem Spec SpecErr
  Meaning LitSpec Values Outcome BaseFacts Wt WtDec WtMsgDec KnownFacts Setting Example JavaEx CcEx Py PySpec PyFacts.

Definition with_ignore_empty (r : string_rules) : string_rules :=
  mkStringRules (s_const r) (s_len r) (s_min_len r) (s_max_len r) (s_len_bytes r) (s_min_bytes r) (s_max_bytes r)
    (s_pattern r) (s_prefix r) (s_suffix r) (s_contains r) (s_not_contains r) (s_in r) (s_not_in r) (s_wk r) (s_strict r) (Some true).

(** A message type with the validation methods disabled. *)
Definition ex4_note : msgdesc := mkMsg "Note"
  [mkField "Text" (FOne TString) fr_none; mkField "Next" (FOne (TMsg "Note")) fr_none] [] false MNone.
Definition ex4_account : msgdesc := mkMsg "Account"
  [mkField "Id" (FOne (TNum KUInt64)) (FR None (Some (RNum KUInt64 (mkNumRules None None None (Some (NI 999)) None [] [NI 1234] None))));
   mkField "Host" (FOne TString) (s_rules (with_wk (WHostname true)));
   mkField "Name" (FOne TString) (s_rules (with_pattern (bs "x")));
   mkField "Nick" (FOne TString) (s_rules (fun r => with_ignore_empty (min_len 3 r)));
   mkField "Header" (FOne TString) (s_rules (with_wk (WRegex KRHeaderValue)));
   mkField "Ratio" (FOne (TNum KFloat)) (FR None (Some (RNum KFloat (mkNumRules None None (Some (NF f_half)) None None [] [NF f_quarter] None))));
   mkField "Blob" (FOne TBytes) (FR None (Some (RBytes (mkBytesRules None None (Some 2%N) None None (Some [1; 255]%N) None None [] [] None None))));
   mkField "Home" (FOne (TMsg "Location")) (FR (Some (mkMessageRules None (Some true))) None);
   mkField "Note" (FOne (TMsg "Note")) fr_none;
   mkField "Tags" (FRep TString) (FR None (Some (RRepeated (mkRepRules None (Some 3%N) (Some true) (Some (s_rules (min_len 1))) None))));
   mkField "Places" (FMap TString (TMsg "Location"))
     (FR None (Some (RMap (mkMapRules (Some 1%N) None (Some true) None None None))));
   mkField "Age" (FOne (TWrap WkInt32)) (FR None (Some (RNum KInt32 (mkNumRules None (Some (NI 150)) None None (Some (NI 0)) [] [] None))));
   mkField "Timeout" (FOne TDur) (FR None (Some (RDuration (mkDurationRules None None (Some (mkSN 60 0)) None (Some (mkSN 0 0)) None [] []))));
   mkField "Color" (FOne (TEnum "Color")) (FR None (Some (REnum (mkEnumRules None (Some true) [] [0%Z]))));
   mkField "Extra" (FOne TAny) (FR None (Some (RAny (mkAnyRules None [bs "type.example/Foo"] []))))]
  [mkOneof "Contact"
     [mkField "Phone" (FOne TString) (s_rules (with_prefix (bs "+")));
      mkField "Visit" (FOne (TMsg "Location")) fr_none] (Some true)]
  false MBoth.
Definition ex4_schema : schema :=
  mkSchema [ex4_account; ex_location; ex4_note] [mkEnum "Color" [0; 1; 2]%Z] ["Account"; "Location"; "Note"]%string.
Definition ex4_checked : schema := match check_schema re_any ex4_schema with Some s => s | None => mkSchema [] [] [] end.

Lemma ex4_setting : setting re_any ex4_schema ex4_checked ex_orc.
Proof.
  constructor; [vm_compute; reflexivity|apply wf_schemab_sound; vm_compute; reflexivity|
    apply supportedb_sound; vm_compute; reflexivity|exact ex_orc_ok].
Qed.

Definition encoded (s : list N) : bytes := List.concat (map utf8_bytes s).
Definition ex_pl : py_libs := mkPyLibs
  (fun p s => o_match ex_orc p (encoded s)) (fun p s => o_match ex_orc p s)
  (fun s => bytes_eqb s (bs "127.0.0.1")) (fun _ => false)
  (fun s => contains s [64%N]) (fun s => Some (mkPyUrl (contains s (bs ":")) true true false))
  (fun _ => true) (of_int 1600000000).
Definition ex_pn : py_names := mkPyNames (fun n => String.append "example." n) (fun _ => false) (fun _ => false).

Definition account4 (id : Z) (host name nick header : bytes) (ratio : spec_float) (blob : bytes) (home : option msgval)
    (note : option msgval) (tags : list bytes)
    (places : list (value * value)) (age : Z) (timeout : Z) (color : Z) (extra : bytes)
    (contact : option (string * value)) : msgval :=
  MV [("Id", VNum (NI id)); ("Host", VStr host); ("Name", VStr name); ("Nick", VStr nick); ("Header", VStr header);
      ("Ratio", VNum (NF ratio)); ("Blob", VByt blob);
      ("Home", VMsg home); ("Note", VMsg note); ("Tags", VList (map VStr tags)); ("Places", VMap places);
      ("Age", VWrap (Some (VNum (NI age)))); ("Timeout", VDur (Some (mkSN timeout 0)));
      ("Color", VEnum color); ("Extra", VAny (Some extra))]%string
     [("Contact"%string, contact)].
Definition note (s : bytes) (next : option msgval) : msgval := MV [("Text", VStr s); ("Next", VMsg next)]%string [].
Definition ex4_good : msgval :=
  account4 1000 (bs "www.example.org") (bs "xy") [] (bs "text/html") f_half [1; 255; 0]%N (Some (place f_one f_one))
    (Some (note (bs "a") (Some (note (bs "b") None)))) [bs "a"; bs "b"]
    [entry "work" f_one f_one; entry "gym" (f90 true) (f90 false)] 30 1 2 (bs "type.example/Foo")
    (Some ("Visit"%string, VMsg (Some (place f_one f_one)))).
(** Invalid in many ways. *)
Definition ex4_bad : msgval :=
  account4 1234 (bs "-www.example.org") (bs "xy") (bs "ab") (bs "a" ++ [127%N]) f_quarter [] None None [bs "a"; bs "a"]
    [entry "work" f_big f_one] 30 60 0 (bs "type.example/Foo") None.

Lemma ex4_good_msg : message ex4_schema "Account" ex4_account ex4_good.
Proof. constructor; [reflexivity|reflexivity|]. apply (wt_msgb_sound _ 4). vm_compute. reflexivity. Qed.
Lemma ex4_bad_msg : message ex4_schema "Account" ex4_account ex4_bad.
Proof. constructor; [reflexivity|reflexivity|]. apply (wt_msgb_sound _ 4). vm_compute. reflexivity. Qed.

(** ** The fragment *)
Definition py_textb (s : bytes) : bool := forallb (fun c => (31 <? c) && (c <? 127) && negb (c =? 34) && negb (c =? 39) && negb (c =? 92))%N s.
Lemma py_textb_all s : py_textb s = true -> Forall (fun c => 31 < c < 127 /\ c <> 34 /\ c <> 39 /\ c <> 92)%N s.
Proof.
  unfold py_textb. intros H. rewrite forallb_forall in H. apply Forall_forall. intros c I. specialize (H c I).
  rewrite !andb_true_iff, !negb_true_iff, !N.ltb_lt, !N.eqb_neq in H. lia.
Qed.
Lemma not_break c : (31 < c < 127)%N -> ~ line_break c.
Proof. intros H I. unfold line_break in I. cbn [In] in I. repeat destruct I as [I|I]; lia. Qed.
Lemma py_textb_runes s : py_textb s = true -> runes s = s.
Proof. intros H. apply ascii_runes. apply py_textb_all in H. eapply Forall_impl; [|exact H]. cbn. lia. Qed.
Lemma py_textb_utf8 s : py_textb s = true -> valid_utf8 s.
Proof.
  intros H. apply ascii_utf8. apply forallb_forall. intros c I. apply py_textb_all in H. rewrite Forall_forall in H.
  specialize (H c I). apply N.ltb_lt. lia.
Qed.
Lemma py_textb_sound s : py_textb s = true -> py_text s.
Proof.
  intros H. split; [now apply py_textb_utf8|]. rewrite (py_textb_runes s H). apply py_textb_all in H.
  eapply Forall_impl; [|exact H]. cbn. intros c K. repeat split; try lia; try (apply not_break; lia).
Qed.
Lemma py_quotedb_sound s : py_textb s = true -> py_quoted s.
Proof.
  intros H. split; [now apply py_textb_utf8|]. apply py_textb_all in H. rewrite Forall_forall in H.
  split; intros I; specialize (H _ I); lia.
Qed.
Lemma py_regexb_sound s : py_textb s = true -> py_regex s.
Proof.
  intros H. split; [now apply py_textb_utf8|]. rewrite (py_textb_runes s H). apply py_textb_all in H. split.
  - eapply Forall_impl; [|exact H]. cbn. intros c K. repeat split; try lia; try (apply not_break; lia).
  - intros a b ->. apply Forall_app in H. destruct H as [_ H]. inversion_clear H. lia.
Qed.

Ltac p_const := some_cases; (split; [reflexivity|split; [intros ?; discriminate|discriminate]]).
Ltac p_str :=
  split; [some_cases; apply py_textb_sound; vm_compute; reflexivity|];
  split; [let x := fresh in let H := fresh in intros x H; cbn in H; in_cases H; subst; apply py_quotedb_sound; vm_compute; reflexivity|];
  split; [let N := fresh in intros N; first [exfalso; apply N; right; reflexivity|
           let p := fresh in let K := fresh in intros p K; cbn in K; first [discriminate K|injection K as <-; split; [discriminate|apply py_regexb_sound; vm_compute; reflexivity]]]|];
  repeat split; discriminate.
Ltac p_byt :=
  split; [some_cases; split; let H := fresh in intros H; cbn [In] in H; repeat destruct H as [H|H]; discriminate || contradiction|];
  split; [discriminate|split; [discriminate|split; [discriminate|split; [discriminate|intros K; now destruct K]]]].
Ltac p_rule := lazymatch goal with
  | |- py_rule_ok (RNum _ _) => split; [p_const|discriminate]
  | |- py_rule_ok (RString _) => p_str
  | |- py_rule_ok (RBytes _) => p_byt
  | |- py_rule_ok (REnum _) => discriminate
  | |- py_rule_ok (RAny _) => let x := fresh in let H := fresh in intros x H; cbn in H; in_cases H; subst; apply py_quotedb_sound; vm_compute; reflexivity
  | |- py_rule_ok (RDuration _) => cbn [py_rule_ok]; some_cases; (split; [split; reflexivity|split; vm_compute; reflexivity])
  end.
Ltac p_field := cbn [py_field_ok f_type f_rules]; lazymatch goal with
  | |- py_rule_ok _ => p_rule
  | |- True => exact I
  | |- _ /\ _ /\ _ => cbn [r_max r_unique r_items p_max p_no_sparse p_keys p_values inner];
      split; [discriminate|first
        [ split; [intros _; reflexivity|split; [p_rule|exact I]]
        | split; [exact I|split; [exact I|intros _ _; reflexivity]] ]]
  end.
Ltac p_idle := let A := fresh in let B := fresh in intros [A B]; cbn in A, B; first
  [ exact (A eq_refl) | discriminate A | exact A
  | solve [decompose [and] B; clear B; repeat match goal with H : Forall _ (_ :: _) |- _ => inversion_clear H end;
      match goal with H : no_size (Some _) |- _ => destruct H as [H|H]; discriminate H end] ].
Ltac p_apart := first [exact I | cbn; left; repeat split; reflexivity | cbn; right; left; split; reflexivity
  | cbn; right; right; eexists; eexists; (split; [auto|]); (split; [auto|]); (split; [split; [reflexivity|vm_compute; auto]|]); (split; [split; [reflexivity|vm_compute; auto]|]); reflexivity].
Ltac p_shape := cbn [py_shape f_type f_rules]; first
  [ exact I
  | (right; discriminate)
  | split; [first [reflexivity|exact I]|split; [discriminate|split; [p_idle|p_apart]]]
  | split; [reflexivity|split; [discriminate|let H := fresh in intros H; cbn in H; decompose [and] H; discriminate]]
  | split; [discriminate|split; [discriminate|split; [exact I|split; [reflexivity|split; [p_idle|split; [cbn; first [discriminate|tauto]|p_apart]]]]]]
  | split; [discriminate|split; [discriminate|split; exact I]] ].

Ltac per_field P tac :=
  assert (G : Forall (fun d => Forall P (all_fields d)) (sc_msgs ex4_checked));
  [ clear; let l := eval vm_compute in (map all_fields (sc_msgs ex4_checked)) in
    assert (E : map all_fields (sc_msgs ex4_checked) = l) by (vm_compute; reflexivity);
    apply Forall_map; rewrite E; clear E;
    repeat (apply Forall_cons; [repeat (apply Forall_cons; [tac|]); try apply Forall_nil|]); try apply Forall_nil
  | rewrite Forall_forall in G ].

Lemma ex4_py : py_setting re_any ex4_schema ex4_checked ex_orc ex_pl ex_pn.
Proof.
  constructor.
  - exact (set_checked _ _ _ _ ex4_setting).
  - exact (set_wf _ _ _ _ ex4_setting).
  - exact ex_orc_ok.
  - reflexivity.
  - per_field py_shape p_shape. exact G.
  - intros d o Hd Ho. apply Forall_forall. intros f Hf. in_fields Hd; in_fields Ho; in_fields Hf; first [exact I|discriminate].
  - intros d Hd _. per_field (py_field_ok ex_pn) p_field. exact (G d Hd).
  - discriminate.
  - intros d Hd M _. in_fields Hd; try discriminate M. split; [|constructor].
    repeat (apply Forall_cons; [split; [reflexivity|]|]); [| |constructor].
    + intros m K. cbn in K. destruct K as [K|[K|[? K]]]; discriminate K.
    + intros m [K|[K|[? K]]]; try discriminate K. injection K as <-. split; [reflexivity|]. eexists. split; vm_compute; reflexivity.
  - intros n _. reflexivity.
Qed.

(** ** The values *)
Definition ex4_desc (n : string) : msgdesc :=
  match find_msg ex4_checked n with Some d => d | None => ex_location end.

Ltac p_val :=
  split; [first [discriminate|intros _; exact I|intros _; discriminate]|];
  split; [first [discriminate|let s := fresh in let K := fresh in intros s _ K; first [discriminate K|injection K as <-; apply ascii_utf8; vm_compute; reflexivity]]|];
  intros ? ? [= <- <-]; first
  [ exact I
  | split; [apply ascii_utf8; vm_compute; reflexivity|];
    split; [let N := fresh in let p := fresh in let K := fresh in intros N p K; first [discriminate K|(exfalso; apply N; right; reflexivity)|injection K as <-; vm_compute; reflexivity]|];
    let w := fresh in let K := fresh in intros w K; first [discriminate K|injection K as <-; cbn; first [exact I|(repeat (apply Forall_cons; [reflexivity|]); apply Forall_nil)|rewrite <- BaseFacts.has_suffix_spec; vm_compute; discriminate]]
  | split; [discriminate|let K := fresh in intros K; now destruct K]
  | apply ascii_utf8; vm_compute; reflexivity
  | intros _; split; [split; cbn; lia|reflexivity] ].

Lemma place_py a b :
  all_values ex4_checked (py_value ex_pl ex_orc) "Location" (place a b).
Proof.
  apply ev_active with (ex4_desc "Location"); [vm_compute; reflexivity| |intros o f v []].
  intros f v Hf Hv. in_fields Hf; vm_compute in Hv; injection Hv as <-.
  all: apply ev_one, ev_leaf; [|discriminate]; p_val.
Qed.

Lemma note_py m : all_values ex4_checked (py_value ex_pl ex_orc) "Note" m.
Proof. apply ev_inactive with (ex4_desc "Note"); vm_compute; reflexivity. Qed.

Ltac p_embeds := first [discriminate|intros ? ? [= <-] [= <-] K; first [discriminate K|apply place_py|apply note_py]].
Ltac p_leaf := apply ev_leaf; [p_val|p_embeds].
Ltac p_all := first
  [ apply ev_one; p_leaf
  | apply ev_rep; let x := fresh in let H := fresh in intros x H; in_fields H; p_leaf
  | apply ev_map; let x := fresh in let y := fresh in let H := fresh in
      intros x y H; in_fields H; injection H as <- <-; split; p_leaf ].

Lemma ex4_good_py : py_values ex4_checked ex_orc ex_pl "Account" ex4_good.
Proof.
  apply ev_active with (ex4_desc "Account"); [vm_compute; reflexivity| |].
  - intros f v Hf Hv. in_fields Hf; vm_compute in Hv; injection Hv as <-; cbn [f_type f_rules]. all: p_all.
  - intros o f v Ho Hf Hv. in_fields Ho. in_fields Hf; vm_compute in Hv; try discriminate Hv; injection Hv as <-; cbn [f_type f_rules]; p_all.
Qed.
Lemma ex4_bad_py : py_values ex4_checked ex_orc ex_pl "Account" ex4_bad.
Proof.
  apply ev_active with (ex4_desc "Account"); [vm_compute; reflexivity| |].
  - intros f v Hf Hv. in_fields Hf; vm_compute in Hv; injection Hv as <-; cbn [f_type f_rules]. all: p_all.
  - intros o f v Ho Hf Hv. in_fields Ho. in_fields Hf; vm_compute in Hv; try discriminate Hv; injection Hv as <-; cbn [f_type f_rules]; p_all.
Qed.

(** ** Deviations *)

(** The plugin accepts the schema, the generated Go code is meaningful, and on the message [m] Go's Validate returns nil if
    and only if [go], while Python's validate ends with [o]. *)
Definition py_differs (pl : py_libs) (pn : py_names) (sc0 : schema) (n : string) (m : msgval) (go : bool) (o : outcome) : Prop :=
  exists sc d, setting re_any sc0 sc ex_orc /\ message sc0 n d m /\
    (if go then validate sc ex_orc false n m = VNil else exists e, validate sc ex_orc false n m = VErr e) /\
    py_validate_f pl pn sc0 5 n m = o.
(** As [deviates] in JavaEx.v, for Python. *)
Definition py_deviates (pl : py_libs) (t : ftype) (fr : field_rules) (v : value) (go : bool) (o : outcome) : Prop :=
  py_differs pl ex_pn (one_schema t fr) "M" (one_value v) go o.

Lemma py_differs_by pl pn sc0 n m go o sc d : check_schema re_any sc0 = Some sc ->
  wf_schemab sc0 = true -> supportedb sc = true -> find_msg sc0 n = Some d -> has_methods d = true -> wt_msgb sc0 4 d m = true ->
  match validate sc ex_orc false n m with VNil => go = true | VErr _ => go = false | _ => False end ->
  py_validate_f pl pn sc0 5 n m = o -> py_differs pl pn sc0 n m go o.
Proof.
  intros C W S F H T G J. exists sc, d. split; [|split; [|split; [|exact J]]].
  - constructor; [exact C|now apply wf_schemab_sound|now apply supportedb_sound|exact ex_orc_ok].
  - constructor; auto. eapply wt_msgb_sound; exact T.
  - destruct (validate sc ex_orc false n m); try contradiction; subst go; eauto.
Qed.
Ltac py_dif sc0 n := apply (py_differs_by _ _ _ _ _ _ _ (match check_schema re_any sc0 with Some s => s | None => mkSchema [] [] [] end)
    (match find_msg sc0 n with Some d => d | None => ex_location end));
  vm_compute; reflexivity.
