(** C54, C55, C56: what becomes of the verdicts when a schema is changed. *)
From Coq Require Import Lia Floats.SpecFloat Sorting.Permutation.
From Verif Require Import Base Num Rules Types Iface Checker GoGen GoSem Spec Meaning Wt Setting WtDec WtMsgDec FieldFacts RuleFacts Example EvolveSpec EvolveFacts.

(** * Two versions of a schema *)

(** The rules of the second ask for more, and it has more fields. *)
Definition num_range (lt gte : option num) : field_rules := FR None (Some (RNum KInt32 (mkNumRules None lt None None gte [] [] None))).
Definition tags (mx : option N) : field_rules := FR None (Some (RRepeated (mkRepRules None mx None None None))).
Definition old_tag : msgdesc := mkMsg "Tag" [mkField "Label" (FOne TString) (s_rules (min_len 1))] [] false MBoth.
Definition new_tag : msgdesc := mkMsg "Tag"
  [mkField "Color" (FOne TString) fr_none; mkField "Label" (FOne TString) (s_rules (min_len 2))] [] false MBoth.
Definition old_account : msgdesc := mkMsg "Account"
  [mkField "Age" (FOne (TNum KInt32)) (num_range (Some (NI 200)) None); mkField "Tags" (FRep (TMsg "Tag")) fr_none]
  [mkOneof "Contact" [mkField "Phone" (FOne TString) (s_rules (min_len 3))] None] false MBoth.
Definition new_account : msgdesc := mkMsg "Account"
  [mkField "Age" (FOne (TNum KInt32)) (num_range (Some (NI 150)) (Some (NI 0))); mkField "Tags" (FRep (TMsg "Tag")) (tags (Some 5%N));
   mkField "Mail" (FOne TString) (s_rules (with_wk (WEmail true)))]
  [mkOneof "Contact" [mkField "Fax" (FOne TString) fr_none; mkField "Phone" (FOne TString) (s_rules (min_len 3))] None] false MBoth.
Definition old_schema : schema := mkSchema [old_account; old_tag] [] ["Account"; "Tag"]%string.
Definition new_schema : schema := mkSchema [new_tag; new_account] [] ["Tag"; "Account"]%string.

(** A message of the new schema, and what a program with the old schema makes of it. *)
Definition sent : msgval :=
  MV [("Age", VNum (NI 30)); ("Tags", VList [VMsg (Some (MV [("Color", VStr (bs "red")); ("Label", VStr (bs "ab"))] []))]);
      ("Mail", VStr (bs "a@b"))]%string [("Contact", Some ("Fax", VStr (bs "1")))]%string.
Definition received : msgval :=
  MV [("Age", VNum (NI 30)); ("Tags", VList [VMsg (Some (MV [("Label", VStr (bs "ab"))] []))])]%string [("Contact", None)]%string.

Lemma old_setting : setting re_any old_schema (checked_of' old_schema) ex_orc.
Proof. in_setting'. Qed.
Lemma new_setting : setting re_any new_schema (checked_of' new_schema) ex_orc.
Proof. in_setting'. Qed.
Lemma sent_msg : message new_schema "Account" new_account sent.
Proof. constructor; [reflexivity|reflexivity|]. apply (wt_msgb_sound _ 5). vm_compute. reflexivity. Qed.
Lemma received_msg : message old_schema "Account" old_account received.
Proof. constructor; [reflexivity|reflexivity|]. apply (wt_msgb_sound _ 5). vm_compute. reflexivity. Qed.

Ltac pick := repeat (first [left; reflexivity | right]).
Lemma str_same r : elem_kept TString (s_rules r) (s_rules r).
Proof. apply elem_refl. Qed.
Lemma min_more n n' : (n <= n')%N -> elem_kept TString (s_rules (min_len n)) (s_rules (min_len n')).
Proof.
  intros L. split; [auto|]. split; [auto|]. cbn. unfold str_kept. cbn.
  repeat match goal with |- _ /\ _ => split end; try (left; reflexivity); try (intros H; exact H); try (intros k; discriminate); try (split; [intros H; now elim H|intros x []]).
  intros k [= <-]. eauto.
Qed.
Lemma new_covers : covered ex_orc old_schema new_schema.
Proof.
  split.
  - intros n d E. unfold find_msg in E. cbn in E. destruct (String.eqb_spec n "Account") as [->|N1].
    + injection E as <-. exists new_account. split; [reflexivity|]. split; [discriminate|]. intros _. split; [reflexivity|]. split.
      * constructor; [|constructor; [|constructor]].
        -- left. eexists. split; [left; reflexivity|]. split; [reflexivity|]. split; [reflexivity|]. split; [auto|]. split; [auto|]. cbn. split; [reflexivity|].
           split; [intros H; exact H|]. split; [left; reflexivity|]. split; [|split; [intros H; now elim H|intros x []]].
           right. right. split; [|split].
           ++ intros u [= <-]. eexists. split; [reflexivity|]. right. left. vm_compute. reflexivity.
           ++ discriminate.
           ++ intros u l [= <-] [= <-]. vm_compute. reflexivity.
        -- left. eexists. split; [right; left; reflexivity|]. split; [reflexivity|]. split; [reflexivity|]. cbn.
           split; [intros H; exact H|]. split; [discriminate|]. split; [discriminate|]. split; [discriminate|]. split; [discriminate|]. apply elem_refl.
      * constructor; [|constructor]. left. eexists. split; [left; reflexivity|]. split; [reflexivity|]. split; [discriminate|].
        intros f [<-|[]]. left. eexists. split; [right; left; reflexivity|]. split; [reflexivity|]. split; [reflexivity|]. apply elem_refl.
    + destruct (String.eqb_spec n "Tag") as [->|N2]; [|discriminate].
      injection E as <-. exists new_tag. split; [reflexivity|]. split; [discriminate|]. intros _. split; [reflexivity|]. split; [|constructor].
      constructor; [|constructor]. left. eexists. split; [right; left; reflexivity|]. split; [reflexivity|]. split; [reflexivity|]. apply min_more. discriminate.
  - intros e z (d & E & _). discriminate E.
Qed.
Lemma received_sent : sees old_schema old_account received sent.
Proof.
  constructor.
  - intros f v [<-|[<-|[]]] [= <-]; left; eexists; (split; [reflexivity|]); constructor; [constructor|].
    constructor; [|constructor]. apply (sees_emb _ "Tag" old_tag); [reflexivity|]. constructor.
    + intros f v [<-|[]] [= <-]. left. eexists. split; [reflexivity|]. constructor. constructor.
    + intros o f v [].
    + intros o [].
  - intros o f v [<-|[]] _ E. discriminate E.
  - intros o [<-|[]] _. right. right. do 2 eexists. split; [reflexivity|]. intros [E|[]]. discriminate E.
Qed.

(** * C54: rules that are added or made stronger *)

(** If each rule of the schema of a program is also in the schema of another one, there as strong or stronger, or is about a field that
    the other does not have and whose default it admits, then the program accepts whatever it is sent by the other and the other accepts.
    Both may use Validate or ValidateAll. *)
Theorem evolve_accepts : forall re_ok sc0 sc sc0' sc' orc, setting re_ok sc0 sc orc -> setting re_ok sc0' sc' orc -> covered orc sc0 sc0' ->
  forall all all' n d d' m m', message sc0 n d m -> message sc0' n d' m' -> sees sc0 d m m' ->
    validate sc' orc all' n m' = VNil -> validate sc orc all n m = VNil.
Proof. intros re_ok sc0 sc sc0' sc' orc st st' C. exact (run_evolve re_ok sc0 sc orc st sc0' sc' st' C). Qed.
Print Assumptions evolve_accepts.
Example evolve_accepts_ex :
  validate (checked_of' new_schema) ex_orc true "Account" sent = VNil /\ validate (checked_of' old_schema) ex_orc false "Account" received = VNil.
Proof.
  assert (H : validate (checked_of' new_schema) ex_orc true "Account" sent = VNil) by (vm_compute; reflexivity). split; [exact H|].
  exact (evolve_accepts _ _ _ _ _ _ old_setting new_setting new_covers false true _ _ _ _ _ received_msg sent_msg received_sent H).
Qed.

(** In particular, adding rules or making them stronger never makes a message valid that was not. *)
Theorem stronger_rules_accept_less : forall re_ok sc0 sc sc0' sc' orc, setting re_ok sc0 sc orc -> setting re_ok sc0' sc' orc -> covered orc sc0 sc0' ->
  forall all all' n d d' m, message sc0 n d m -> message sc0' n d' m -> validate sc' orc all' n m = VNil -> validate sc orc all n m = VNil.
Proof. intros re_ok sc0 sc sc0' sc' orc st st' C. exact (run_same re_ok sc0 sc orc st sc0' sc' st' C). Qed.
Print Assumptions stronger_rules_accept_less.

Definition age (lt gte : option num) : schema := with_field [] [] [] (FOne (TNum KInt32)) (num_range lt gte).
Lemma age_covered : covered ex_orc (age (Some (NI 200)) None) (age (Some (NI 150)) (Some (NI 0))).
Proof.
  split.
  - intros n d E. unfold find_msg in E. cbn in E. destruct (String.eqb_spec n "M") as [->|N1]; [|discriminate].
    injection E as <-. eexists. split; [reflexivity|]. split; [discriminate|]. intros _. split; [reflexivity|]. split; [|constructor].
    constructor; [|constructor].
    left. eexists. split; [left; reflexivity|]. split; [reflexivity|]. split; [reflexivity|]. split; [auto|]. split; [auto|]. cbn. split; [reflexivity|].
    split; [intros H; exact H|]. split; [left; reflexivity|]. split; [|split; [intros H; now elim H|intros x []]].
    right. right. split; [|split].
    + intros u [= <-]. eexists. split; [reflexivity|]. right. left. vm_compute. reflexivity.
    + discriminate.
    + intros u l [= <-] [= <-]. vm_compute. reflexivity.
  - intros e z (d & E & _). discriminate E.
Qed.
Example stronger_rules_accept_less_ex : forall all all' z, (-2147483648 <= z <= 2147483647)%Z ->
  validate (checked_of' (age (Some (NI 150)) (Some (NI 0)))) ex_orc all' "M" (one (VNum (NI z))) = VNil ->
  validate (checked_of' (age (Some (NI 200)) None)) ex_orc all "M" (one (VNum (NI z))) = VNil.
Proof.
  intros all all' z R. assert (S1 : setting re_any (age (Some (NI 200)) None) (checked_of' (age (Some (NI 200)) None)) ex_orc) by in_setting'.
  assert (S2 : setting re_any (age (Some (NI 150)) (Some (NI 0))) (checked_of' (age (Some (NI 150)) (Some (NI 0)))) ex_orc) by in_setting'.
  assert (W : forall s, wt_field s (FOne (TNum KInt32)) (VNum (NI z))).
  { intros s. constructor. constructor. cbn. apply andb_true_intro. split; [apply Z.leb_le|apply Z.ltb_lt]; lia. }
  exact (stronger_rules_accept_less _ _ _ _ _ _ S1 S2 age_covered all all' _ _ _ _ (one_message _ _ _ _ _ _ (W _)) (one_message _ _ _ _ _ _ (W _))).
Qed.

(** ** Where it fails: rules whose addition makes Go accept more *)

(** With the rules [fr'] instead of [fr] on a field, a value is accepted that was not. *)
Definition gains (t : ftype) (fr fr' : field_rules) : Prop := exists v,
  setting re_any (with_field [] [] [] t fr) (checked_of' (with_field [] [] [] t fr)) ex_orc /\
  setting re_any (with_field [] [] [] t fr') (checked_of' (with_field [] [] [] t fr')) ex_orc /\
  wt_field (with_field [] [] [] t fr) t v /\ wt_field (with_field [] [] [] t fr') t v /\
  validate (checked_of' (with_field [] [] [] t fr)) ex_orc false "M" (one v) <> VNil /\
  validate (checked_of' (with_field [] [] [] t fr')) ex_orc false "M" (one v) = VNil.
Ltac gained v := exists v; split; [in_setting'|]; split; [in_setting'|]; split; [repeat constructor|]; split; [repeat constructor|];
  split; [vm_compute; discriminate|vm_compute; reflexivity].

(** [gt: 10] beside [lt: 5]: the limits are the wrong way round, and mean that one of the two is enough. *)
Theorem adding_gt_refuted :
  gains (FOne (TNum KInt32)) (FR None (Some (RNum KInt32 (mkNumRules None (Some (NI 5)) None None None [] [] None))))
                             (FR None (Some (RNum KInt32 (mkNumRules None (Some (NI 5)) None (Some (NI 10)) None [] [] None)))).
Proof. gained (VNum (NI 20)). Qed.
Print Assumptions adding_gt_refuted.

(** [len: 3] beside [max_len: 2], on bytes: [max_len] is not looked at any more. *)
Theorem adding_len_refuted :
  gains (FOne TBytes) (FR None (Some (RBytes (mkBytesRules None None None (Some 2%N) None None None None [] [] None None))))
                      (FR None (Some (RBytes (mkBytesRules None (Some 3%N) None (Some 2%N) None None None None [] [] None None)))).
Proof. gained (VByt [1; 2; 3]%N). Qed.
Print Assumptions adding_len_refuted.

(** [lt_now] beside [within]: the end of the interval is now inside. *)
Theorem adding_lt_now_refuted :
  gains (FOne TTs) (FR None (Some (RTimestamp (mkTimestampRules None None None None None None None None (Some (mkSN 60 0))))))
                   (FR None (Some (RTimestamp (mkTimestampRules None None None None None None (Some true) None (Some (mkSN 60 0)))))).
Proof.
  exists (VTs (Some (mkSN 1599999940 0))). split; [in_setting'|]. split; [in_setting'|].
  assert (W : forall s, wt_field s (FOne TTs) (VTs (Some (mkSN 1599999940 0)))).
  { intros s. constructor. constructor. unfold is_sn. cbn. lia. }
  split; [apply W|]. split; [apply W|]. split; [vm_compute; discriminate|vm_compute; reflexivity].
Qed.
Print Assumptions adding_lt_now_refuted.

(** * C55: fields that are added *)

(** If each version of the schema covers the other, the verdicts are the same. *)
Theorem added_fields_agree : forall re_ok sc0 sc sc0' sc' orc, setting re_ok sc0 sc orc -> setting re_ok sc0' sc' orc ->
  covered orc sc0 sc0' -> covered orc sc0' sc0 ->
  forall all all' n d d' m m', message sc0 n d m -> message sc0' n d' m' -> sees sc0 d m m' -> sees sc0' d' m' m ->
    (validate sc orc all n m = VNil <-> validate sc' orc all' n m' = VNil).
Proof.
  intros re_ok sc0 sc sc0' sc' orc st st' C C' all all' n d d' m m' M M' S S'. split; eapply run_evolve; eauto.
Qed.
Print Assumptions added_fields_agree.

(** The mail address of an account is added; it may be empty. *)
Definition mail_rules (ignore : option bool) : field_rules :=
  FR None (Some (RString (mkStringRules None None None None None None None None None None None None [] [] (Some (WEmail true)) None ignore))).
Definition tag_only : schema := mkSchema [old_tag] [] ["Tag"%string].
Definition tag_mail (ignore : option bool) : schema := mkSchema
  [mkMsg "Tag" [mkField "Label" (FOne TString) (s_rules (min_len 1)); mkField "Mail" (FOne TString) (mail_rules ignore)] [] false MBoth] [] ["Tag"%string].
Definition label (s : string) : msgval := MV [("Label"%string, VStr (bs s))] [].
Definition label_mail (s : string) : msgval := MV [("Label"%string, VStr (bs s)); ("Mail"%string, VStr [])] [].
Lemma mail_covered : covered ex_orc tag_only (tag_mail (Some true)) /\ covered ex_orc (tag_mail (Some true)) tag_only.
Proof.
  split.
  - split; [|intros e z (d & E & _); discriminate E]. intros n d E. unfold find_msg in E. cbn in E. destruct (String.eqb_spec n "Tag") as [->|]; [|discriminate].
    injection E as <-. eexists. split; [reflexivity|]. split; [discriminate|]. intros _. split; [reflexivity|]. split; [|constructor].
    constructor; [|constructor]. left. eexists. split; [left; reflexivity|]. split; [reflexivity|]. split; [reflexivity|]. apply elem_refl.
  - split; [|intros e z (d & E & _); discriminate E]. intros n d E. unfold find_msg in E. cbn in E. destruct (String.eqb_spec n "Tag") as [->|]; [|discriminate].
    injection E as <-. eexists. split; [reflexivity|]. split; [discriminate|]. intros _. split; [reflexivity|]. split; [|constructor].
    constructor; [|constructor; [|constructor]].
    + left. eexists. split; [left; reflexivity|]. split; [reflexivity|]. split; [reflexivity|]. apply elem_refl.
    + right. split; [intros [E|[]]; discriminate E|]. apply default_str. reflexivity.
Qed.
Lemma label_sees s i : sees tag_only old_tag (label s) (label_mail s) /\ sees (tag_mail i) (hd old_tag (sc_msgs (tag_mail i))) (label_mail s) (label s).
Proof.
  split; constructor; try (intros o f v []; fail); try (intros o []; fail).
  - intros f v [<-|[]] [= <-]. left. eexists. split; [reflexivity|]. constructor. constructor.
  - intros f v [<-|[<-|[]]] [= <-]; [left|right; split; reflexivity]. eexists. split; [reflexivity|]. constructor. constructor.
Qed.
Lemma label_messages s i : is_bytes (bs s) = true ->
  message tag_only "Tag" old_tag (label s) /\ message (tag_mail i) "Tag" (hd old_tag (sc_msgs (tag_mail i))) (label_mail s).
Proof.
  intros B. split; (constructor; [reflexivity|reflexivity|]); constructor; try constructor.
  - apply (wt_nm _ (mkField "Label" (FOne TString) (s_rules (min_len 1)))). constructor. constructor. exact B.
  - constructor.
  - apply (wt_nm _ (mkField "Label" (FOne TString) (s_rules (min_len 1)))). constructor. constructor. exact B.
  - constructor; [|constructor]. apply (wt_nm _ (mkField "Mail" (FOne TString) (mail_rules i))). constructor. constructor. reflexivity.
Qed.
Example added_fields_agree_ex : forall all all' s, is_bytes (bs s) = true ->
  (validate (checked_of' tag_only) ex_orc all "Tag" (label s) = VNil <-> validate (checked_of' (tag_mail (Some true))) ex_orc all' "Tag" (label_mail s) = VNil).
Proof.
  intros all all' s B. destruct (label_messages s (Some true) B) as [M M'], (label_sees s (Some true)) as [S S'], mail_covered as [C C'].
  assert (S1 : setting re_any tag_only (checked_of' tag_only) ex_orc) by in_setting'.
  assert (S2 : setting re_any (tag_mail (Some true)) (checked_of' (tag_mail (Some true))) ex_orc) by in_setting'.
  exact (added_fields_agree _ _ _ _ _ _ S1 S2 C C' all all' _ _ _ _ _ M M' S S').
Qed.

(** A new field whose rules do not admit its default: every message of a sender without the field is rejected. *)
Theorem new_field_rejects : forall re_ok sc0 sc orc, setting re_ok sc0 sc orc -> forall all n d m m' f,
  message sc0 n d m -> md_disabled d = false -> In f (md_fields d) -> sees sc0 d m m' -> assoc (f_name f) (mv_fields m') = None ->
  ~ field_meaning orc sc0 f (default (f_type f)) -> validate sc orc all n m <> VNil.
Proof. exact run_new_field. Qed.
Print Assumptions new_field_rejects.
Example new_field_rejects_ex : forall all s, is_bytes (bs s) = true -> validate (checked_of' (tag_mail None)) ex_orc all "Tag" (label_mail s) <> VNil.
Proof.
  intros all s B. destruct (label_messages s None B) as [_ M'], (label_sees s None) as [_ S'].
  assert (S2 : setting re_any (tag_mail None) (checked_of' (tag_mail None)) ex_orc) by in_setting'.
  refine (new_field_rejects _ _ _ _ S2 all _ _ _ _ (mkField "Mail" (FOne TString) (mail_rules None)) M' eq_refl (or_intror (or_introl eq_refl)) S' eq_refl _).
  intros H. assert (X := proj2 (run_plain re_any [] [] [] _ ex_orc false (FOne TString) (mail_rules None) (VStr []) eq_refl ltac:(in_setting') ltac:(repeat constructor))).
  assert (Y : validate (checked_of' (with_field [] [] [] (FOne TString) (mail_rules None))) ex_orc false "M" (one (VStr [])) <> VNil) by (vm_compute; discriminate).
  exact (Y (X H)).
Qed.

(** Which defaults are admitted. *)
Theorem default_of_messages : forall orc sc x e mr, is_embed e = true ->
  (field_meaning orc sc (mkField x (FOne e) (FR mr None)) (default (FOne e)) <-> required mr = false).
Proof. exact default_message. Qed.
Print Assumptions default_of_messages.
Theorem default_of_wrappers : forall orc sc x w mr r,
  field_meaning orc sc (mkField x (FOne (TWrap w)) (FR mr (Some r))) (default (FOne (TWrap w))) <-> required mr = false.
Proof. exact default_wrapper. Qed.
Print Assumptions default_of_wrappers.
Theorem default_of_known_types : forall orc sc x mr a d t,
  (field_meaning orc sc (mkField x (FOne TAny) (FR mr (Some (RAny a)))) (default (FOne TAny)) <-> a_required a <> Some true) /\
  (field_meaning orc sc (mkField x (FOne TDur) (FR mr (Some (RDuration d)))) (default (FOne TDur)) <-> d_required d <> Some true) /\
  (field_meaning orc sc (mkField x (FOne TTs) (FR mr (Some (RTimestamp t)))) (default (FOne TTs)) <-> t_required t <> Some true).
Proof. intros. split; [apply default_any|]. split; [apply default_dur|apply default_ts]. Qed.
Print Assumptions default_of_known_types.
Theorem default_of_lists : forall orc sc x k e mr r p,
  (field_meaning orc sc (mkField x (FRep e) (FR mr (Some (RRepeated r)))) (default (FRep e)) <->
     r_ignore_empty r = Some true \/ (forall n, r_min r = Some n -> n = 0%N)) /\
  (field_meaning orc sc (mkField x (FMap k e) (FR mr (Some (RMap p)))) (default (FMap k e)) <->
     p_ignore_empty p = Some true \/ (forall n, p_min p = Some n -> n = 0%N)).
Proof. intros. split; [apply default_rep|apply default_map]. Qed.
Print Assumptions default_of_lists.
Theorem default_ignored : forall orc sc x k mr n s b,
  (n_ignore_empty n = Some true -> field_meaning orc sc (mkField x (FOne (TNum k)) (FR mr (Some (RNum k n)))) (default (FOne (TNum k)))) /\
  (s_ignore_empty s = Some true -> field_meaning orc sc (mkField x (FOne TString) (FR mr (Some (RString s)))) (default (FOne TString))) /\
  (b_ignore_empty b = Some true -> field_meaning orc sc (mkField x (FOne TBytes) (FR mr (Some (RBytes b)))) (default (FOne TBytes))).
Proof. intros. split; [apply default_num|]. split; [apply default_str|apply default_byt]. Qed.
Print Assumptions default_ignored.

(** A new member of a required oneof: programs that do not know it reject each message that uses it. *)
Theorem new_member_rejected : forall re_ok sc0 sc orc, setting re_ok sc0 sc orc -> forall all n d m m' o g v,
  message sc0 n d m -> md_disabled d = false -> In o (md_oneofs d) -> o_required o = Some true -> sees sc0 d m m' ->
  assoc (o_name o) (mv_oneofs m') = Some (Some (g, v)) -> ~ In g (map f_name (o_fields o)) -> validate sc orc all n m <> VNil.
Proof. exact run_new_member. Qed.
Print Assumptions new_member_rejected.
Definition contact : schema := with_oneof [] [] [] [mkField "Phone" (FOne TString) fr_none] (Some true).
Example new_member_rejected_ex : forall all, validate (checked_of' contact) ex_orc all "M" (choice None) <> VNil.
Proof.
  intros all. assert (S : setting re_any contact (checked_of' contact) ex_orc) by in_setting'.
  refine (new_member_rejected _ _ _ _ S all _ _ _ (choice (Some ("Fax"%string, VStr []))) _ "Fax"%string (VStr [])
            (choice_message [] [] [] _ _ None I) eq_refl (or_introl eq_refl) eq_refl _ eq_refl _).
  - constructor; [intros f v []|intros o f v [<-|[]] _ E; discriminate E|]. intros o [<-|[]] _. right. right. do 2 eexists. split; [reflexivity|].
    intros [E|[]]. discriminate E.
  - intros [E|[]]. discriminate E.
Qed.

(** * C56: the order of declarations *)

Theorem order_does_not_matter : forall re_ok sc0 sc sc0' sc' orc, setting re_ok sc0 sc orc -> setting re_ok sc0' sc' orc -> reordered sc0 sc0' ->
  forall all all' n d d' m m', message sc0 n d m -> message sc0' n d' m' -> sees sc0 d m m' -> sees sc0' d' m' m ->
    (validate sc orc all n m = VNil <-> validate sc' orc all' n m' = VNil).
Proof. exact run_reordered. Qed.
Print Assumptions order_does_not_matter.
Definition turned : schema := mkSchema
  [mkMsg "Tag" (rev (md_fields new_tag)) [] false MBoth;
   mkMsg "Account" (rev (md_fields new_account)) [mkOneof "Contact" (flat_map (fun o => rev (o_fields o)) (md_oneofs new_account)) None] false MBoth] [] [].
Definition sent' : msgval :=
  MV [("Mail", VStr (bs "a@b")); ("Tags", VList [VMsg (Some (MV [("Label", VStr (bs "ab")); ("Color", VStr (bs "red"))] []))]);
      ("Age", VNum (NI 30))]%string [("Contact", Some ("Fax", VStr (bs "1")))]%string.
Lemma turned_reordered : reordered new_schema turned.
Proof.
  split; [|intros e z; split; intros (d & E & _); discriminate E]. intros n. unfold find_msg. cbn. destruct (String.eqb n "Tag").
  - split; [reflexivity|]. split; [reflexivity|]. split; [apply (Permutation_rev (md_fields new_tag))|]. exists []. split; constructor.
  - destruct (String.eqb n "Account"); [|exact I].
    split; [reflexivity|]. split; [reflexivity|]. split; [apply (Permutation_rev (md_fields new_account))|]. eexists. split; [|apply Permutation_refl].
    constructor; [|constructor]. split; [reflexivity|]. split; [reflexivity|]. cbn. apply perm_swap.
Qed.
Example order_does_not_matter_ex : validate (checked_of' turned) ex_orc false "Account" sent' = VNil.
Proof.
  assert (S : setting re_any turned (checked_of' turned) ex_orc) by in_setting'.
  assert (M : message turned "Account" (nth 1 (sc_msgs turned) old_tag) sent').
  { constructor; [reflexivity|reflexivity|]. apply (wt_msgb_sound _ 5). vm_compute. reflexivity. }
  refine (proj1 (order_does_not_matter _ _ _ _ _ _ new_setting S turned_reordered true false _ _ _ _ _ sent_msg M _ _) _); [| |vm_compute; reflexivity].
  - constructor.
    + intros f v [<-|[<-|[<-|[]]]] [= <-]; left; eexists; (split; [reflexivity|]); constructor; try constructor; [|constructor].
      apply (sees_emb _ "Tag" new_tag); [reflexivity|]. constructor; [|intros o f v []|intros o []].
      intros f v [<-|[<-|[]]] [= <-]; left; eexists; (split; [reflexivity|]); constructor; constructor.
    + intros o f v [<-|[]] [<-|[<-|[]]] [= <-]. eexists. split; [reflexivity|]. constructor. constructor.
    + intros o [<-|[]] E. discriminate E.
  - constructor.
    + intros f v [<-|[<-|[<-|[]]]] [= <-]; left; eexists; (split; [reflexivity|]); constructor; try constructor; [|constructor].
      apply (sees_emb _ "Tag" (nth 0 (sc_msgs turned) old_tag)); [reflexivity|]. constructor; [|intros o f v []|intros o []].
      intros f v [<-|[<-|[]]] [= <-]; left; eexists; (split; [reflexivity|]); constructor; constructor.
    + intros o f v [<-|[]] [<-|[<-|[]]] [= <-]. eexists. split; [reflexivity|]. constructor. constructor.
    + intros o [<-|[]] E. discriminate E.
Qed.
