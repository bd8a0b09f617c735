(** C28: what the errors tell.

    [error_text sprint ix_text plain_text e] is [e.Error()], where [sprint] prints a reason, [ix_text] an
    index or map key, and [plain_text] the errors of the standard library. *)
From Verif Require Import Base Num Rules Types Iface Checker GoSem Spec SpecErr ErrText ErrTextFacts Setting Wt WtDec RuleFacts Example.

(** Key() is never true, in no error at any depth; the errors of Validate contain no list of errors. *)
Theorem go_error_key_never_set : forall re_ok sc0 sc orc, setting re_ok sc0 sc orc ->
  forall all n d m e, message sc0 n d m -> validate sc orc all n m = VErr e -> keyless e.
Proof. intros re_ok sc0 sc orc st all n d m e M R. exact (proj1 (run_shape re_ok sc0 sc orc st all n d m e M R)). Qed.
Print Assumptions go_error_key_never_set.
Theorem go_validate_error_chain : forall re_ok sc0 sc orc, setting re_ok sc0 sc orc ->
  forall n d m e, message sc0 n d m -> validate sc orc false n m = VErr e -> chain e.
Proof. intros re_ok sc0 sc orc st n d m e M R. exact (proj2 (run_shape re_ok sc0 sc orc st false n d m e M R) eq_refl). Qed.
Print Assumptions go_validate_error_chain.
(** A map whose key violates its rule: the error names the entry, without marking the key. *)
Definition ex_keys : schema := mkSchema [mkMsg "M" [mkField "P" (FMap TString (TNum KInt32)) (FR None (Some (RMap
    (mkMapRules None None None (Some (s_rules (min_len 1))) None None))))] [] false MBoth] [] ["M"%string].
Example go_error_key_never_set_ex :
  setting re_any ex_keys (checked_of' ex_keys) ex_orc /\
  validate (checked_of' ex_keys) ex_orc false "M" (MV [("P"%string, VMap [(VStr [], VNum (NI 1))])] []) =
    VErr (GErr "M" "P" (Some (IxV (VStr []))) [PStr "value length must be at least "; PNat 1; PStr " runes"] None false).
Proof. split; [in_setting'|vm_compute; reflexivity]. Qed.

(** Two errors with the same text name the same message type and the same field, and both or none
    name an element. *)
Theorem error_text_names_field : forall sprint ix_text plain_text m f ix r c k m' f' ix' r' c' k',
  ident m -> ident f -> ident m' -> ident f' ->
  error_text sprint ix_text plain_text (GErr m f ix r c k) = error_text sprint ix_text plain_text (GErr m' f' ix' r' c' k') ->
  m = m' /\ f = f' /\ k = k' /\ (ix = None <-> ix' = None).
Proof. exact text_head. Qed.
Print Assumptions error_text_names_field.
Example error_text_names_field_ex : ident "Person" /\ ident "Home" /\ ~ ident "Home[0]".
Proof.
  split; [|split].
  - apply ident_dec. vm_compute. reflexivity.
  - apply ident_dec. vm_compute. reflexivity.
  - intros H. unfold ident in H. do 4 (apply Forall_inv_tail in H). apply Forall_inv in H. unfold ident_char in H. cbn in H. Lia.lia.
Qed.

(** The text of an error of Validate determines, at every level of causes, the message type, the field, the
    index, the reason and the library error, provided the texts do not contain the separators. *)
Theorem error_text_injective : forall sprint ix_text plain_text e e',
  ordinary_error sprint ix_text plain_text e -> ordinary_error sprint ix_text plain_text e' ->
  error_text sprint ix_text plain_text e = error_text sprint ix_text plain_text e' ->
  levels sprint ix_text plain_text e = levels sprint ix_text plain_text e'.
Proof. exact text_injective. Qed.
Print Assumptions error_text_injective.
(** A printer for the example: strings as they are, nothing else. *)
Definition ex_sprint (l : list piece) : bytes := flat_map (fun p => match p with PStr s => bs s | _ => [] end) l.
Example error_text_injective_ex :
  let e := GErr "Person" "Places" (Some (IxN 3)) [PStr "embedded message failed validation"]
    (Some (GErr "Location" "Lat" None [PStr "value must be inside range"] None false)) false in
  ordinary_error ex_sprint (fun _ => bs "3") (fun _ => bs "invalid uuid format") e /\
  error_text ex_sprint (fun _ => bs "3") (fun _ => bs "invalid uuid format") e =
    bs "invalid Person.Places[3]: embedded message failed validation | caused by: invalid Location.Lat: value must be inside range".
Proof.
  split; [|vm_compute; reflexivity].
  apply oe_err.
  - apply ident_dec. vm_compute. reflexivity.
  - apply ident_dec. vm_compute. reflexivity.
  - intros i _. apply absent_dec. vm_compute. reflexivity.
  - apply absent_dec. vm_compute. reflexivity.
  - intros e [= <-]. apply oe_err.
    + apply ident_dec. vm_compute. reflexivity.
    + apply ident_dec. vm_compute. reflexivity.
    + discriminate.
    + apply absent_dec. vm_compute. reflexivity.
    + discriminate.
Qed.

(** For ValidateAll the text does not show the nesting: two messages, one with a bad item of its own and one
    with two bad items in its embedded message, give the same text whatever the printers do. *)
Theorem error_text_all_refuted : exists sc0 sc n m1 m2 e1 e2,
  setting re_any sc0 sc ex_orc /\
  validate sc ex_orc true n m1 = VErr e1 /\ validate sc ex_orc true n m2 = VErr e2 /\ e1 <> e2 /\
  forall sprint ix_text plain_text, error_text sprint ix_text plain_text e1 = error_text sprint ix_text plain_text e2.
Proof. exact multi_ambiguous. Qed.
Print Assumptions error_text_all_refuted.

(** The text of the error of ValidateAll determines the texts of the errors in its list, one by one, if
    none of them contains a semicolon. *)
Theorem error_text_multi : forall sprint ix_text plain_text n n' es es', es <> [] -> es' <> [] ->
  (forall e, In e es \/ In e es' -> ~ In 59%N (error_text sprint ix_text plain_text e)) ->
  error_text sprint ix_text plain_text (GMulti n es) = error_text sprint ix_text plain_text (GMulti n' es') ->
  map (error_text sprint ix_text plain_text) es = map (error_text sprint ix_text plain_text) es'.
Proof. exact multi_text. Qed.
Print Assumptions error_text_multi.
Example error_text_multi_ex :
  let e1 := GErr "Person" "Age" None [PStr "value must be greater than"] None false in
  let e2 := GErr "Person" "Name" None [PStr "value is too long"] None false in
  ~ In 59%N (error_text ex_sprint (fun _ => []) (fun _ => []) e1) /\
  error_text ex_sprint (fun _ => []) (fun _ => []) (GMulti "Person" [e1; e2]) =
    bs "invalid Person.Age: value must be greater than; invalid Person.Name: value is too long".
Proof. split; [apply absent_dec|]; vm_compute; reflexivity. Qed.
