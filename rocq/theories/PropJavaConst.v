(** C60: the constants in generated Java. *)
From Verif Require Import Base BaseFacts Num Rules Types JavaName JavaNameSpec JavaNameEx JavaConst JavaConstSpec JavaConstFacts.
Local Open Scope N_scope.

Definition s_one (l : list string) : rule_type :=
  RString (mkStringRules None None None None None None None None None None None None (map bs l) [] None None None).
Definition fr_of (r : rule_type) : field_rules := FR None (Some r).
Definition within_day : timestamp_rules := mkTimestampRules None None None None None None None None (Some (mkSN 86400 0)).
Definition e_one (l : list Z) : rule_type := REnum (mkEnumRules None None l []).
(** map<string, int64> foo = 1 with rules for keys and values; string foo_key = 2; repeated Color foo_value = 3;
    oneof o { StringValue foo1 = 4; Timestamp at = 5; } *)
Definition ex_const : msgdesc := mkMsg "M"
  [mkField "foo" (FMap TString (TNum KInt64)) (fr_of (RMap (mkMapRules None None None (Some (fr_of (s_one ["a"]%string)))
     (Some (fr_of (RNum KInt64 (mkNumRules None (Some (NI 9)) None (Some (NI 1)) None [] [] None)))) None)));
   mkField "foo_key" (FOne TString) (fr_of (s_one ["b"]%string));
   mkField "foo_value" (FRep (TEnum "Color")) (fr_of (RRepeated (mkRepRules None None None (Some (fr_of (e_one [1; 2]%Z))) None)))]
  [mkOneof "o" [mkField "foo1" (FOne (TWrap WkString)) (fr_of (s_one ["c"]%string)); mkField "at" (FOne TTs) (fr_of (RTimestamp within_day))] None]
  false MBoth.

(** Names that protoc accepts in proto3 give each constant of a validator a name of its own, which is a Java identifier. *)
Theorem constants_declared_once d ds : proto3_names d -> constants d = Some ds -> NoDup (map fst ds).
Proof. exact (constants_once d ds). Qed.
Print Assumptions constants_declared_once.
Theorem constants_are_identifiers d ds n x : proto3_names d -> constants d = Some ds -> In (n, x) ds -> identifier n = true.
Proof. intros P C H. exact (constants_identifiers d ds n x P C H). Qed.
Print Assumptions constants_are_identifiers.

(** Each constant that the code refers to is declared, with the value of the rule and the type of the values that it is compared with. *)
Theorem constants_resolve d ds n p e r c : constants d = Some ds -> rules_for d -> no_enum_values d -> In (n, (p, e, r, c)) (references d) ->
  exists t v, In (n, (t, v)) ds /\ type_fits e c t /\ holds_value e r c v.
Proof. exact (references_declared d ds n p e r c). Qed.
Print Assumptions constants_resolve.
(** The numbers of enum rules become values of the type of the field. *)
Theorem enum_constants_typed d f t n : no_enum_values d -> In f (md_fields d ++ flat_map o_fields (md_oneofs d)) -> In (t, n) (enum_types f) ->
  t = JEnum n.
Proof. exact (enum_types_right d f t n). Qed.
Print Assumptions enum_constants_typed.

Example ex_const_proto3 : proto3_names ex_const.
Proof.
  split; [apply nodupb_sound; vm_compute; reflexivity|]. assert (A : forallb identifier (names ex_const) = true) by (vm_compute; reflexivity).
  now apply forallb_forall.
Qed.
Example ex_const_rules : rules_for ex_const.
Proof.
  intros f p e r F P.
  repeat (destruct F as [<-|F]; [vm_compute in P; repeat (destruct P as [P|P]; [injection P as <- <- <-; cbn; eauto|]); destruct P|]). destruct F.
Qed.
Example ex_const_enum : no_enum_values ex_const.
Proof. intros f F (k & v & T). repeat (destruct F as [<-|F]; [try discriminate T; reflexivity|]). destruct F. Qed.
Example constants_declared_once_met : exists ds, proto3_names ex_const /\ rules_for ex_const /\ no_enum_values ex_const /\ constants ex_const = Some ds /\
  ds = [(bs "FOO_KEY_IN", (JArray JString, KStrings [bs "a"])); (bs "FOO_VALUE_LT", (JLong, KNum (NI 9))); (bs "FOO_VALUE_GT", (JLong, KNum (NI 1)));
        (bs "FOO_KEY__IN", (JArray JString, KStrings [bs "b"])); (bs "FOO_VALUE__IN", (JArray (JEnum "Color"), KEnums (JEnum "Color") [1; 2]%Z));
        (bs "FOO_1___IN", (JArray JObject, KStrings [bs "c"])); (bs "AT__WITHIN", (JDuration, KSn (mkSN 86400 0)))] /\
  map fst (references ex_const) = map fst ds.
Proof.
  eexists. refine (conj ex_const_proto3 (conj ex_const_rules (conj ex_const_enum _))). vm_compute. auto.
Qed.
Example enum_constants_typed_met : map enum_types (md_fields ex_const) = [[]; []; [(JEnum "Color", "Color"%string)]].
Proof. reflexivity. Qed.

(** The generator fails on rules for the values in wrappers that are items of lists or values of maps, and on no others. *)
Theorem generation_fails d : constants d = None <-> exists f, In f (md_fields d ++ flat_map o_fields (md_oneofs d)) /\ wrapper_elements f.
Proof. exact (constants_none d). Qed.
Print Assumptions generation_fails.
(** So there is no Java for, for example, [repeated google.protobuf.StringValue], which is checked in the other languages. *)
Definition ex_wrapper_items : msgdesc := mkMsg "M"
  [mkField "names" (FRep (TWrap WkString)) (fr_of (RRepeated (mkRepRules None None None (Some (fr_of (s_one ["a"]%string))) None)))] [] false MBoth.
Theorem java_wrapper_items_refuted : rules_for ex_wrapper_items /\ proto3_names ex_wrapper_items /\ constants ex_wrapper_items = None.
Proof.
  split; [|split; [split|reflexivity]].
  - intros f p e r [<-|[]] P. vm_compute in P. destruct P as [P|[]]. injection P as <- <- <-. cbn. auto.
  - apply nodupb_sound. reflexivity.
  - now intros n [<-|[]].
Qed.
Print Assumptions java_wrapper_items_refuted.

(** In proto2, where protoc only warns, two fields may give constants of the same name, and the Java does not compile. *)
Definition ex_twice : msgdesc := mkMsg "M"
  [mkField "fooBar" (FOne TString) (fr_of (s_one ["a"]%string)); mkField "foo_bar" (FOne TString) (fr_of (s_one ["b"]%string))] [] false MBoth.
Theorem constants_twice_refuted : exists ds, NoDup (names ex_twice) /\ (forall n, In n (names ex_twice) -> identifier n = true) /\
  constants ex_twice = Some ds /\ map fst ds = [bs "FOO_BAR__IN"; bs "FOO_BAR__IN"].
Proof.
  eexists. split; [apply nodupb_sound; vm_compute; reflexivity|]. split; [intros n [<-|[<-|[]]]; reflexivity|]. split; [reflexivity|]. vm_compute. reflexivity.
Qed.
Print Assumptions constants_twice_refuted.

(** For the enum values of a map, the numbers are turned into values of Object, which has no such method. *)
Definition ex_enum_values : msgdesc := mkMsg "M"
  [mkField "colors" (FMap TString (TEnum "Color")) (fr_of (RMap (mkMapRules None None None None (Some (fr_of (e_one [1]%Z))) None)))] [] false MBoth.
Theorem enum_map_values_refuted : proto3_names ex_enum_values /\ rules_for ex_enum_values /\
  constants ex_enum_values = Some [(bs "COLORS_VALUE_IN", (JArray JObject, KEnums JObject [1]%Z))] /\
  map enum_types (md_fields ex_enum_values) = [[(JObject, "Color"%string)]].
Proof.
  split; [split; [apply nodupb_sound; reflexivity|now intros n [<-|[]]]|]. split; [|split; reflexivity].
  intros f p e r [<-|[]] P. vm_compute in P. destruct P as [P|[]]. injection P as <- <- <-. cbn. eauto.
Qed.
Print Assumptions enum_map_values_refuted.
