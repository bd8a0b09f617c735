(** A concrete schema, standard library and messages that meet the assumptions of the
    theorems about generated Go code. *)
From Coq Require Import Floats.SpecFloat Sorting.Permutation Lia.
From Verif Require Import Base Utf8 Num Rules Types Time Iface Checker GoIR GoGen Regex Known GoSem Spec SpecErr
  BaseFacts RegexFacts KnownFacts Utf8Facts Wt WtDec.

Definition ex_orc : oracles := mkOracles
  (fun p s =>
     if bytes_eqb p re_header_name then rmatch header_name_re (runes s)
     else if bytes_eqb p re_header_value then rmatch header_value_re (runes s)
     else if bytes_eqb p re_header_string then rmatch header_string_re (runes s)
     else contains s (bs "x"))
  (fun s => if bytes_eqb s (bs "127.0.0.1") then Some (repeat 0 10 ++ [255; 255; 127; 0; 0; 1])%N else None)
  (fun s => if contains s [64%N] then Some s else None)
  (fun s => if contains s (bs ":") then Some true else None)
  1600000000000000000%Z.

Lemma ex_orc_ok : oracle_ok ex_orc.
Proof.
  constructor.
  - intros s. cbn [o_match ex_orc]. replace (bytes_eqb re_header_name re_header_name) with true by reflexivity.
    rewrite rmatch_spec, lang_header_name. split.
    + intros H. exists (runes s). split; auto. now apply decodes_iff.
    + intros (l & D & H). apply decodes_iff in D. now subst.
  - intros s. cbn [o_match ex_orc]. replace (bytes_eqb re_header_value re_header_name) with false by reflexivity.
    replace (bytes_eqb re_header_value re_header_value) with true by reflexivity.
    rewrite rmatch_spec, lang_header_value. split.
    + intros H. exists (runes s). split; auto. now apply decodes_iff.
    + intros (l & D & H). apply decodes_iff in D. now subst.
  - intros s. cbn [o_match ex_orc]. replace (bytes_eqb re_header_string re_header_name) with false by reflexivity.
    replace (bytes_eqb re_header_string re_header_value) with false by reflexivity.
    replace (bytes_eqb re_header_string re_header_string) with true by reflexivity.
    rewrite rmatch_spec, lang_header_string. split.
    + intros H. exists (runes s). split; auto. now apply decodes_iff.
    + intros (l & D & H). apply decodes_iff in D. now subst.
  - intros s a. cbn [o_mail ex_orc]. destruct (contains s [64%N]) eqn:E; [|discriminate]. intros [= <-].
    apply contains_spec in E. destruct E as (x & y & ->). apply in_app_iff. right. left. reflexivity.
Qed.

(** The README's Person, enlarged. *)
Definition f90 (neg : bool) : num := NF (S754_finite neg 6333186975989760 (-46)).
Definition f12 : num := NF (S754_finite false 6755399441055744 (-49)).

Definition deg_rules : field_rules :=
  FR None (Some (RNum KDouble (mkNumRules None None (Some (f90 false)) None (Some (f90 true)) [] [] None))).

Definition ex_location : msgdesc := mkMsg "Location"
  [mkField "Lat" (FOne (TNum KDouble)) deg_rules;
   mkField "Lng" (FOne (TNum KDouble)) deg_rules] [] false MBoth.

Definition s_rules (f : string_rules -> string_rules) : field_rules := FR None (Some (RString (f str_none))).
Definition min_len (n : N) (r : string_rules) : string_rules :=
  mkStringRules (s_const r) (s_len r) (Some n) (s_max_len r) (s_len_bytes r) (s_min_bytes r) (s_max_bytes r)
    (s_pattern r) (s_prefix r) (s_suffix r) (s_contains r) (s_not_contains r) (s_in r) (s_not_in r) (s_wk r) (s_strict r) (s_ignore_empty r).
Definition with_wk (w : str_wk) (r : string_rules) : string_rules :=
  mkStringRules (s_const r) (s_len r) (s_min_len r) (s_max_len r) (s_len_bytes r) (s_min_bytes r) (s_max_bytes r)
    (s_pattern r) (s_prefix r) (s_suffix r) (s_contains r) (s_not_contains r) (s_in r) (s_not_in r) (Some w) (s_strict r) (s_ignore_empty r).
Definition with_pattern (p : bytes) (r : string_rules) : string_rules :=
  mkStringRules (s_const r) (s_len r) (s_min_len r) (s_max_len r) (s_len_bytes r) (s_min_bytes r) (Some 256%N)
    (Some p) (s_prefix r) (s_suffix r) (s_contains r) (s_not_contains r) (s_in r) (s_not_in r) (s_wk r) (s_strict r) (s_ignore_empty r).
Definition with_prefix (p : bytes) (r : string_rules) : string_rules :=
  mkStringRules (s_const r) (s_len r) (s_min_len r) (s_max_len r) (s_len_bytes r) (s_min_bytes r) (s_max_bytes r)
    (s_pattern r) (Some p) (s_suffix r) (s_contains r) (s_not_contains r) (s_in r) (s_not_in r) (s_wk r) (s_strict r) (s_ignore_empty r).

Definition person_of (no_sparse : option bool) : msgdesc := mkMsg "Person"
  [mkField "Id" (FOne (TNum KUInt64)) (FR None (Some (RNum KUInt64 (mkNumRules None None None (Some (NI 999)) None [] [NI 1234] None))));
   mkField "Email" (FOne TString) (s_rules (with_wk (WEmail true)));
   mkField "Name" (FOne TString) (s_rules (with_pattern (bs "x")));
   mkField "Header" (FOne TString) (s_rules (with_wk (WRegex KRHeaderValue)));
   mkField "Home" (FOne (TMsg "Location")) (FR (Some (mkMessageRules None (Some true))) None);
   mkField "Tags" (FRep TString) (FR None (Some (RRepeated (mkRepRules None (Some 3%N) (Some true) (Some (s_rules (min_len 1))) None))));
   mkField "Places" (FMap TString (TMsg "Location"))
     (FR None (Some (RMap (mkMapRules (Some 1%N) None no_sparse (Some (s_rules (min_len 1))) None None))));
   mkField "Age" (FOne (TWrap WkInt32)) (FR None (Some (RNum KInt32 (mkNumRules None (Some (NI 150)) None None (Some (NI 0)) [] [] None))));
   mkField "Born" (FOne TTs) (FR None (Some (RTimestamp (mkTimestampRules (Some true) None None None None None (Some true) None None))));
   mkField "Timeout" (FOne TDur) (FR None (Some (RDuration (mkDurationRules None None None None (Some (mkSN 0 0)) None [] []))));
   mkField "Color" (FOne (TEnum "Color")) (FR None (Some (REnum (mkEnumRules None (Some true) [] []))));
   mkField "Extra" (FOne TAny) (FR None (Some (RAny (mkAnyRules None [bs "type.example/Foo"] []))))]
  [mkOneof "Contact"
     [mkField "Phone" (FOne TString) (s_rules (with_prefix (bs "+")));
      mkField "Site" (FOne TString) (s_rules (with_wk (WUri true)));
      mkField "Visit" (FOne (TMsg "Location")) fr_none] (Some true)]
  false MBoth.

Definition schema_of (no_sparse : option bool) : schema :=
  mkSchema [person_of no_sparse; ex_location] [mkEnum "Color" [0; 1; 2]%Z] ["Person"; "Location"]%string.

Definition ex_person : msgdesc := person_of (Some true).
Definition ex_schema : schema := schema_of (Some true).

(** The checked schema: the pattern of "Header" is filled in. *)
Definition re_any : bytes -> bool := fun _ => true.
Definition ex_checked : schema :=
  match check_schema re_any ex_schema with Some s => s | None => mkSchema [] [] [] end.

Lemma ex_check : check_schema re_any ex_schema = Some ex_checked.
Proof. vm_compute. reflexivity. Qed.

Lemma ex_wf : wf_schema ex_schema.
Proof. apply wf_schemab_sound. vm_compute. reflexivity. Qed.

Lemma ex_sup : supported ex_checked.
Proof. apply supportedb_sound. vm_compute. reflexivity. Qed.

(** A valid message, in two iteration orders of its map, and an invalid one. *)
Definition f_one : num := NF (S754_finite false 4503599627370496 (-52)).
Definition f_big : num := NF (S754_finite false 4503599627370496 (-43)).
Definition place (a b : num) : msgval := MV [("Lat", VNum a); ("Lng", VNum b)]%string [].

Definition person (id : Z) (email name header : bytes) (home : option msgval) (tags : list bytes)
    (places : list (value * value)) (age : Z) (born timeout : Z) (color : Z) (extra : bytes)
    (contact : option (string * value)) : msgval :=
  MV [("Id", VNum (NI id)); ("Email", VStr email); ("Name", VStr name); ("Header", VStr header);
      ("Home", VMsg home); ("Tags", VList (map VStr tags)); ("Places", VMap places);
      ("Age", VWrap (Some (VNum (NI age)))); ("Born", VTs (Some (mkSN born 5))); ("Timeout", VDur (Some (mkSN timeout 0)));
      ("Color", VEnum color); ("Extra", VAny (Some extra))]%string
     [("Contact"%string, contact)].

Definition entry (k : string) (a b : num) : value * value := (VStr (bs k), VMsg (Some (place a b))).

Definition ex_good : msgval :=
  person 1000 (bs "ann@example.org") (bs "xy") (bs "text/html") (Some (place f_one f_one)) [bs "a"; bs "b"]
    [entry "work" f_one f_one; entry "gym" (f90 true) (f90 false)] 30 1500000000 1 2 (bs "type.example/Foo")
    (Some ("Site"%string, VStr (bs "http://example.org"))).
Definition ex_good' : msgval :=
  person 1000 (bs "ann@example.org") (bs "xy") (bs "text/html") (Some (place f_one f_one)) [bs "a"; bs "b"]
    [entry "gym" (f90 true) (f90 false); entry "work" f_one f_one] 30 1500000000 1 2 (bs "type.example/Foo")
    (Some ("Site"%string, VStr (bs "http://example.org"))).

(** Nine violations: id, header, nothing at home, a duplicate tag, an empty map key, two latitudes,
    birth in the future, and the oneof. *)
Definition ex_bad : msgval :=
  person 1234 (bs "ann@example.org") (bs "xy") [10%N] None [bs "a"; bs "a"]
    [entry "work" f_big f_one; entry "" f_big f_one] 30 1700000000 1 2 (bs "type.example/Foo") None.
Definition ex_bad' : msgval :=
  person 1234 (bs "ann@example.org") (bs "xy") [10%N] None [bs "a"; bs "a"]
    [entry "" f_big f_one; entry "work" f_big f_one] 30 1700000000 1 2 (bs "type.example/Foo") None.

Lemma place_wt ns a b : num_of_kind KDouble a = true -> num_of_kind KDouble b = true -> wt_msg (schema_of ns) ex_location (place a b).
Proof. intros. repeat constructor; auto. Qed.

Lemma entry_wt ns k a b : is_bytes (bs k) = true -> num_of_kind KDouble a = true -> num_of_kind KDouble b = true ->
  wt_elem (schema_of ns) TString (fst (entry k a b)) /\ wt_elem (schema_of ns) (TMsg "Location") (snd (entry k a b)).
Proof. intros. split; [constructor; auto|]. econstructor; [reflexivity|]. now apply place_wt. Qed.

Lemma person_wt ns id email name header home tags places age born timeout color extra contact :
  num_of_kind KUInt64 (NI id) = true -> is_bytes email = true -> is_bytes name = true -> is_bytes header = true ->
  (forall h, home = Some h -> wt_msg (schema_of ns) ex_location h) -> Forall (fun t => is_bytes t = true) tags ->
  Forall (fun p => wt_elem (schema_of ns) TString (fst p) /\ wt_elem (schema_of ns) (TMsg "Location") (snd p)) places ->
  num_of_kind KInt32 (NI age) = true -> is_sn (mkSN born 5) -> is_sn (mkSN timeout 0) ->
  (forall f v, contact = Some (f, v) -> exists fd, f = f_name fd /\
     In fd (flat_map o_fields (md_oneofs (person_of ns))) /\ wt_field (schema_of ns) (f_type fd) v) ->
  wt_msg (schema_of ns) (person_of ns) (person id email name header home tags places age born timeout color extra contact).
Proof.
  intros Hid He Hn Hh Hhome Ht Hp Ha Hb Hto Hc. unfold person, person_of. constructor.
  - cbn [md_fields]. repeat match goal with |- Forall2 _ (mkField ?n ?t ?r :: _) _ =>
      constructor; [apply (wt_nm (schema_of ns) (mkField n t r)); cbn [f_type]; first [apply wt_one|apply wt_rep|apply wt_map]|] end.
    all: try (constructor; auto; fail).
    + destruct home as [h|]; [econstructor; [reflexivity|auto]|constructor].
    + induction Ht; constructor; auto. now constructor.
    + auto.
    + constructor. constructor. auto.
  - constructor; [|constructor]. destruct contact as [[f v]|]; [|apply (wt_unset (schema_of ns) (mkOneof "Contact" _ _))].
    destruct (Hc f v eq_refl) as (fd & -> & Hin & Hv). cbn [md_oneofs person_of flat_map] in Hin. rewrite app_nil_r in Hin.
    eapply (wt_set (schema_of ns) (mkOneof "Contact" _ _)); eauto.
Qed.

Ltac wt_person :=
  apply person_wt; try reflexivity; try (intros ? [= <-]; apply place_wt; reflexivity); try discriminate;
    try (repeat constructor; cbn; lia);
    try (repeat (apply Forall_cons; [first [reflexivity|apply entry_wt; reflexivity]|]); apply Forall_nil).

Lemma ex_good_wt : wt_msg ex_schema ex_person ex_good.
Proof.
  wt_person. intros f v [= <- <-]. eexists. split; [|split; [right; left; reflexivity|]]; [reflexivity|repeat constructor].
Qed.
Lemma ex_good_wt' : wt_msg ex_schema ex_person ex_good'.
Proof.
  wt_person. intros f v [= <- <-]. eexists. split; [|split; [right; left; reflexivity|]]; [reflexivity|repeat constructor].
Qed.
Lemma ex_bad_wt : wt_msg ex_schema ex_person ex_bad.
Proof. wt_person. Qed.
Lemma ex_bad_wt' : wt_msg ex_schema ex_person ex_bad'.
Proof. wt_person. Qed.

Lemma same_person id email name header home tags p q age born timeout color extra contact :
  Permutation p q ->
  same_msg (person id email name header home tags p age born timeout color extra contact)
           (person id email name header home tags q age born timeout color extra contact).
Proof.
  intros H. unfold person. constructor.
  - repeat (constructor; [constructor; try apply same_refl|]); try constructor.
    apply same_map with q; auto. clear. induction q as [|[k v] t IH]; constructor; auto. constructor. apply same_refl.
  - constructor; [|constructor]. destruct contact as [[f v]|]; constructor. apply same_refl.
Qed.

Lemma ex_good_same : same_msg ex_good ex_good'.
Proof. apply same_person. apply perm_swap. Qed.
Lemma ex_bad_same : same_msg ex_bad ex_bad'.
Proof. apply same_person. apply perm_swap. Qed.
