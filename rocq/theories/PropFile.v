(** Generated Go files and the packages of the enum types they name. *)
From Verif Require Import Base Num Rules Types Iface Checker Wt WtDec Spec Example GoFile GoFileSpec GoFileFacts.
Local Open Scope string_scope.

(** [msgs]: the messages of one file among those that the checker accepted. *)
Definition file_of (re_ok : bytes -> bool) (sc0 : schema) (msgs : list msgdesc) : Prop :=
  exists sc, check_schema re_ok sc0 = Some sc /\ wf_schema sc0 /\ incl msgs (sc_msgs sc) /\
    forall d f, In d msgs -> md_disabled d = true -> In f (all_fields d) -> placed f.
Lemma file_placed re_ok sc0 msgs : file_of re_ok sc0 msgs -> forall d f, In d msgs -> In f (all_fields d) -> placed f.
Proof. intros (sc & K & W & I & D) d f Hd Hf. destruct (md_disabled d) eqn:E; [eauto|]. eapply checked_placed; eauto. Qed.

(** C53: the generated file names packages correctly if every enum type that a rule needs is in the package of the file or in one that is imported
    because a singular field has a type of it, and the names of the packages are free and different. *)
Theorem file_imports_enough re_ok sc0 loc here msgs : file_of re_ok sc0 msgs -> coherent loc here -> outside loc here ->
  (forall e, needed msgs e -> reachable loc here msgs e) ->
  (forall e, foreign loc here msgs e -> usable (pl_pkg (loc e))) ->
  (forall e e', foreign loc here msgs e -> foreign loc here msgs e' -> pl_pkg (loc e) = pl_pkg (loc e') -> pl_path (loc e) = pl_path (loc e')) ->
  names_ok loc here msgs.
Proof. intros F. exact (sufficient loc here msgs (file_placed _ _ _ F)). Qed.

(** C53: and otherwise it does not compile. *)
Theorem file_imports_needed re_ok sc0 loc here msgs : file_of re_ok sc0 msgs -> outside loc here -> names_ok loc here msgs ->
  (forall e, needed msgs e -> reachable loc here msgs e) /\
  (forall e, foreign loc here msgs e -> ~ In (pl_pkg (loc e)) (map fst fixed_imports) /\ ~ In (pl_pkg (loc e)) predeclared) /\
  (forall e e', foreign loc here msgs e -> foreign loc here msgs e' -> pl_pkg (loc e) = pl_pkg (loc e') -> pl_path (loc e) = pl_path (loc e')).
Proof.
  intros F O K. split; [|split].
  - intros e. exact (necessary loc here msgs (file_placed _ _ _ F) e O K).
  - intros e H. split; [exact (not_fixed loc here msgs e O K H)|exact (proj1 (names_needed loc here msgs e K H))].
  - intros e e' H. exact (proj2 (names_needed loc here msgs e K H) e').
Qed.

(** C53: no import is left unused, whatever the packages are. *)
Theorem file_imports_used loc here msgs i : In i (imports loc here msgs) ->
  In i fixed_imports \/ exists e, foreign loc here msgs e /\ i = (pl_pkg (loc e), pl_path (loc e)).
Proof. exact (import_from loc here msgs i). Qed.

(** C53: a file that only has enums of its own package imports nothing, and its names are right. *)
Theorem file_own_enums re_ok sc0 loc here msgs : file_of re_ok sc0 msgs -> coherent loc here -> outside loc here ->
  (forall d f e, In d msgs -> In f (all_fields d) -> (f_type f = FOne (TEnum e) \/ f_type f = FRep (TEnum e) \/ exists k, f_type f = FMap k (TEnum e)) ->
     pl_path (loc e) = pl_path here) ->
  imports loc here msgs = fixed_imports /\ names_ok loc here msgs.
Proof.
  intros F C O A.
  assert (N : forall e, ~ foreign loc here msgs e).
  { intros e ((d & f & Hd & Hf & T) & _ & P). apply P. apply (proj2 C). eapply A; eauto. }
  split.
  - unfold imports. destruct (external_enums loc here msgs) as [|e l] eqn:E; [reflexivity|]. exfalso. apply (N e). apply external_is. rewrite E. now left.
  - apply (file_imports_enough re_ok sc0); auto; try (intros e H; exfalso; exact (N e H)).
    + intros e (d & f & Hd & _ & Hf & H). left. apply (A d f e Hd Hf). destruct H as [r _ [[H _]|[(q & m & H & _)|(k & q & m & H & _)]] _|r [[H _]|[(q & m & H & _)|(k & q & m & H & _)]] _ _|q _ H _ _]; eauto.
    + intros e e' H. exfalso. exact (N e H).
Qed.

(** * A file with enums from elsewhere *)

Definition only_defined : field_rules := FR None (Some (REnum (mkEnumRules None (Some true) [] []))).
Definition items_defined : field_rules := FR None (Some (RRepeated (mkRepRules None None (Some true) (Some only_defined) None))).
Definition f_shape := mkField "Shape" (FOne (TEnum "Shape")) only_defined.
Definition f_shapes := mkField "Shapes" (FRep (TEnum "Shape")) items_defined.
Definition f_sizes := mkField "Sizes" (FMap TString (TEnum "Size")) (FR None (Some (RMap (mkMapRules None None None None (Some only_defined) None)))).
Definition file_schema (fs : list field) : schema :=
  mkSchema [mkMsg "Doc" fs [] false MBoth] [mkEnum "Shape" [0%Z; 1%Z]; mkEnum "Size" [0%Z]; mkEnum "Own" [0%Z]] [].
Definition file_msgs (fs : list field) : list msgdesc :=
  match check_schema re_any (file_schema fs) with Some sc => sc_msgs sc | None => [] end.
Definition doc_here : place := Place "example.com/docs" "docs" "docs".
Definition geo : place := Place "example.com/geo" "geo" "geo".
Definition in_geo (e : string) : place := if String.eqb e "Own" then doc_here else geo.

Lemma geo_coherent : coherent in_geo doc_here.
Proof. split; intros; unfold in_geo in *; repeat destruct (String.eqb _ _); cbn in *; congruence. Qed.
Lemma geo_outside : outside in_geo doc_here.
Proof. split; [cbn; intuition discriminate|]. intros e. unfold in_geo. destruct (String.eqb _ _); cbn; intuition discriminate. Qed.

Ltac use_name := unfold usable; cbn; repeat (split; [intuition discriminate|]); reflexivity.
Ltac a_file := eexists; split; [vm_compute; reflexivity|]; split; [apply wf_schemab_sound; vm_compute; reflexivity|]; split;
  [vm_compute; intros ? H; exact H|vm_compute; intros ? ? [<-|[]]; discriminate].
Example geo_file : file_of re_any (file_schema [f_shape; f_shapes; f_sizes]) (file_msgs [f_shape; f_shapes; f_sizes]).
Proof. a_file. Qed.
(** The hypotheses of the theorems hold of it: the singular field imports the package for the others. *)
Example geo_names : names_ok in_geo doc_here (file_msgs [f_shape; f_shapes; f_sizes]).
Proof.
  apply (file_imports_enough _ _ _ _ _ geo_file geo_coherent geo_outside).
  - intros e _. destruct (String.eqb_spec e "Own") as [->|E]; [left; reflexivity|]. right. exists "Shape". split.
    + split; [|split; discriminate]. vm_compute. do 2 eexists. split; [left; reflexivity|]. split; [left; reflexivity|reflexivity].
    + unfold in_geo. apply String.eqb_neq in E. rewrite E. reflexivity.
  - intros e (_ & P & _). unfold in_geo in *. destruct (String.eqb e "Own"); [now elim P|]. use_name.
  - intros e e' (_ & P & _) (_ & Q & _) _. unfold in_geo in *. destruct (String.eqb e "Own"), (String.eqb e' "Own"); auto; [now elim P|now elim Q].
Qed.
Example geo_needs : needed (file_msgs [f_shape; f_shapes; f_sizes]) "Size" /\ foreign in_geo doc_here (file_msgs [f_shape; f_shapes; f_sizes]) "Shape".
Proof.
  split.
  - vm_compute. do 2 eexists. split; [left; reflexivity|]. split; [discriminate|]. split; [right; right; left; reflexivity|].
    eapply by_defined_only; [reflexivity| |]; [right; right; do 3 eexists; repeat split; reflexivity|reflexivity].
  - split; [|split; discriminate]. vm_compute. do 2 eexists. split; [left; reflexivity|]. split; [left; reflexivity|reflexivity].
Qed.

(** * Files that do not compile

    Each is one message that the checker accepts, in packages that exist and have usable names. *)
Ltac no_type K := apply types_found in K; vm_compute in K; repeat (match goal with K : Forall _ (_ :: _) |- _ => inversion K; clear K; subst end); try discriminate.

(** C53 (refuted): the enum of another package is used in a list only. *)
Theorem file_repeated_refuted : exists re_ok sc0 loc here msgs, file_of re_ok sc0 msgs /\ coherent loc here /\ outside loc here /\
  (forall e, usable (pl_pkg (loc e))) /\ needed msgs "Shape" /\ ~ names_ok loc here msgs.
Proof.
  exists re_any, (file_schema [f_shapes]), in_geo, doc_here, (file_msgs [f_shapes]). split; [a_file|]. split; [apply geo_coherent|]. split; [apply geo_outside|]. split; [|split].
  - intros e. unfold in_geo. destruct (String.eqb e "Own"); use_name.
  - vm_compute. do 2 eexists. split; [left; reflexivity|]. split; [discriminate|]. split; [left; reflexivity|]. eapply by_unique; reflexivity.
  - intros K. no_type K.
Qed.
(** C53 (refuted): the same for the values of a map. *)
Theorem file_map_refuted : exists re_ok sc0 loc here msgs, file_of re_ok sc0 msgs /\ coherent loc here /\ outside loc here /\
  (forall e, usable (pl_pkg (loc e))) /\ needed msgs "Size" /\ ~ names_ok loc here msgs.
Proof.
  exists re_any, (file_schema [f_sizes]), in_geo, doc_here, (file_msgs [f_sizes]). split; [a_file|]. split; [apply geo_coherent|]. split; [apply geo_outside|]. split; [|split].
  - intros e. unfold in_geo. destruct (String.eqb e "Own"); use_name.
  - vm_compute. do 2 eexists. split; [left; reflexivity|]. split; [discriminate|]. split; [left; reflexivity|].
    eapply by_defined_only; [reflexivity| |]; [right; right; do 3 eexists; repeat split; reflexivity|reflexivity].
  - intros K. no_type K.
Qed.

(** One enum, in a package [p]. *)
Definition at_place (p : place) (_ : string) : place := p.
Lemma at_coherent p here : pl_path p <> pl_path here -> coherent (at_place p) here.
Proof. intros N. split; intros; unfold at_place in *; congruence. Qed.
Lemma at_outside p here : ~ In (pl_path p) (map snd fixed_imports) -> ~ In (pl_path here) (map snd fixed_imports) -> outside (at_place p) here.
Proof. split; auto. Qed.

(** C53 (refuted): the Go packages have one name (.../v1 and .../v1, say) but different paths and proto packages. *)
Theorem file_same_name_refuted : exists re_ok sc0 loc here msgs, file_of re_ok sc0 msgs /\ coherent loc here /\ outside loc here /\
  (forall e, usable (pl_pkg (loc e)) /\ pl_path (loc e) <> pl_path here /\ pl_proto (loc e) <> pl_proto here) /\ ~ names_ok loc here msgs.
Proof.
  exists re_any, (file_schema [f_shape]), (at_place (Place "example.com/geo/v1" "v1" "geo.v1")), (Place "example.com/docs/v1" "v1" "docs.v1"), (file_msgs [f_shape]).
  split; [a_file|]. split; [apply at_coherent; discriminate|]. split; [apply at_outside; cbn; intuition discriminate|]. split.
  - intros e. split; [use_name|split; discriminate].
  - intros K. no_type K.
Qed.
(** C53 (refuted): two Go packages for one proto package. *)
Theorem file_same_proto_refuted : exists re_ok sc0 loc here msgs, file_of re_ok sc0 msgs /\ coherent loc here /\ outside loc here /\
  (forall e, usable (pl_pkg (loc e)) /\ pl_path (loc e) <> pl_path here /\ pl_pkg (loc e) <> pl_pkg here) /\ ~ names_ok loc here msgs.
Proof.
  exists re_any, (file_schema [f_shape]), (at_place (Place "example.com/geo" "geo" "acme")), (Place "example.com/docs" "docs" "acme"), (file_msgs [f_shape]).
  split; [a_file|]. split; [apply at_coherent; discriminate|]. split; [apply at_outside; cbn; intuition discriminate|]. split.
  - intros e. split; [use_name|split; discriminate].
  - intros K. no_type K.
Qed.
(** C53 (refuted): two packages of one name are both imported. *)
Definition f_size := mkField "Size" (FOne (TEnum "Size")) only_defined.
Definition two_v1 (e : string) : place := if String.eqb e "Shape" then Place "example.com/geo/v1" "v1" "geo.v1" else Place "example.com/shop/v1" "v1" "shop.v1".
Theorem file_redeclared_refuted : exists re_ok sc0 loc here msgs, file_of re_ok sc0 msgs /\ coherent loc here /\ outside loc here /\
  (forall e, usable (pl_pkg (loc e))) /\ (forall e, needed msgs e -> foreign loc here msgs e) /\ ~ names_ok loc here msgs.
Proof.
  exists re_any, (file_schema [f_shape; f_size]), two_v1, doc_here, (file_msgs [f_shape; f_size]). split; [a_file|]. split; [|split; [|split; [|split]]].
  - split; intros; unfold two_v1 in *; repeat destruct (String.eqb _ _); cbn in *; congruence.
  - split; [cbn; intuition discriminate|]. intros e. unfold two_v1. destruct (String.eqb _ _); cbn; intuition discriminate.
  - intros e. unfold two_v1. destruct (String.eqb e "Shape"); use_name.
  - intros e (d & f & Hd & _ & Hf & N). split; [|unfold two_v1; destruct (String.eqb e "Shape"); split; discriminate]. exists d, f. split; auto. split; auto.
    vm_compute in Hd. destruct Hd as [<-|[]]. vm_compute in Hf. destruct Hf as [<-|[<-|[]]];
    destruct N as [r _ [[H _]|[(q & m & H & _)|(k & q & m & H & _)]] _|r [[H _]|[(q & m & H & _)|(k & q & m & H & _)]] _ _|q _ H _ _]; try discriminate; exact H.
  - intros K. apply no_redeclared in K. vm_compute in K. repeat (match goal with K : NoDup (_ :: _) |- _ => inversion K; clear K; subst end). cbn in *. tauto.
Qed.
(** C53 (refuted): the package is called like one that every file imports. *)
Theorem file_library_name_refuted : exists re_ok sc0 loc here msgs, file_of re_ok sc0 msgs /\ coherent loc here /\ outside loc here /\
  (forall e, needed msgs e -> foreign loc here msgs e) /\ (forall e, pl_pkg (loc e) = "url") /\ ~ names_ok loc here msgs.
Proof.
  exists re_any, (file_schema [f_shape]), (at_place (Place "example.com/url" "url" "url")), doc_here, (file_msgs [f_shape]).
  split; [a_file|]. split; [apply at_coherent; discriminate|]. split; [apply at_outside; cbn; intuition discriminate|]. split; [|split; [reflexivity|]].
  - intros e (d & f & Hd & _ & Hf & N). split; [|split; discriminate]. exists d, f. split; auto. split; auto.
    vm_compute in Hd. destruct Hd as [<-|[]]. vm_compute in Hf. destruct Hf as [<-|[]].
    destruct N as [r _ [[H _]|[(q & m & H & _)|(k & q & m & H & _)]] _|r [[H _]|[(q & m & H & _)|(k & q & m & H & _)]] _ _|q _ H _ _]; try discriminate; exact H.
  - intros K. apply no_redeclared in K. vm_compute in K. repeat (match goal with K : NoDup (_ :: _) |- _ => inversion K; clear K; subst end). cbn in *. intuition.
Qed.
(** C53 (refuted): the package is called like a variable of the generated code. *)
Theorem file_local_name_refuted : exists re_ok sc0 loc here msgs, file_of re_ok sc0 msgs /\ coherent loc here /\ outside loc here /\
  (forall e, needed msgs e -> foreign loc here msgs e) /\ (forall e, pl_pkg (loc e) = "item") /\ ~ names_ok loc here msgs.
Proof.
  exists re_any, (file_schema [mkField "Shape" (FOne (TEnum "Shape")) (FR None None); f_shapes]), (at_place (Place "example.com/item" "item" "item")), doc_here,
    (file_msgs [mkField "Shape" (FOne (TEnum "Shape")) (FR None None); f_shapes]).
  split; [a_file|]. split; [apply at_coherent; discriminate|]. split; [apply at_outside; cbn; intuition discriminate|]. split; [|split; [reflexivity|]].
  - intros e (d & f & Hd & _ & Hf & N). split; [|split; discriminate].
    vm_compute in Hd. destruct Hd as [<-|[]]. eexists; eexists. vm_compute. split; [left; reflexivity|]. split; [left; reflexivity|].
    vm_compute in Hf. destruct Hf as [<-|[<-|[]]];
    destruct N as [r _ [[H _]|[(q & m & H & _)|(k & q & m & H & _)]] _|r [[H _]|[(q & m & H & _)|(k & q & m & H & _)]] _ _|q _ H _ _]; try discriminate; injection H as <-; reflexivity.
  - intros K. no_type K.
Qed.

Print Assumptions file_imports_enough.
Print Assumptions file_imports_needed.
Print Assumptions file_imports_used.
Print Assumptions file_own_enums.
Print Assumptions file_repeated_refuted.
Print Assumptions file_map_refuted.
Print Assumptions file_same_name_refuted.
Print Assumptions file_same_proto_refuted.
Print Assumptions file_redeclared_refuted.
Print Assumptions file_library_name_refuted.
Print Assumptions file_local_name_refuted.
