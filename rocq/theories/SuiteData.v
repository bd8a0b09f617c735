(** The conformance suite of the repository: the messages of tests/harness/cases/*.proto and
    the test cases of tests/harness/executor/cases.go, as printed by tools/cases.py, which parses
    these files.  Several .proto files make up one schema here; a message of another Go package is
    qualified by its name.  The time at which the suite is run ([time.Now().Unix()] and
    [timestamppb.Now()], its nanoseconds left out) is the parameter [now].  *)
From Coq Require Import Floats.SpecFloat.
From Verif Require Import Base Num Rules Types.
Local Open Scope string_scope.
Local Open Scope list_scope.
Local Open Scope Z_scope.

(** tests/harness/cases/*.proto *)
Definition suite_schema : schema := mkSchema [
  (* bool.proto:7 *) mkMsg "BoolNone" [mkField "Val" (FOne TBool) fr_none] [] false MBoth;
  (* bool.proto:8 *) mkMsg "BoolConstTrue" [mkField "Val" (FOne TBool) (FR None (Some (RBool (Some true))))] [] false MBoth;
  (* bool.proto:9 *) mkMsg "BoolConstFalse" [mkField "Val" (FOne TBool) (FR None (Some (RBool (Some false))))] [] false MBoth;
  (* bytes.proto:7 *) mkMsg "BytesNone" [mkField "Val" (FOne TBytes) fr_none] [] false MBoth;
  (* bytes.proto:8 *) mkMsg "BytesConst" [mkField "Val" (FOne TBytes) (FR None (Some (RBytes (mkBytesRules (Some (bs "foo")) None None None None None None None [] [] None None))))] [] false MBoth;
  (* bytes.proto:9 *) mkMsg "BytesIn" [mkField "Val" (FOne TBytes) (FR None (Some (RBytes (mkBytesRules None None None None None None None None [(bs "bar"); (bs "baz")] [] None None))))] [] false MBoth;
  (* bytes.proto:10 *) mkMsg "BytesNotIn" [mkField "Val" (FOne TBytes) (FR None (Some (RBytes (mkBytesRules None None None None None None None None [] [(bs "fizz"); (bs "buzz")] None None))))] [] false MBoth;
  (* bytes.proto:11 *) mkMsg "BytesLen" [mkField "Val" (FOne TBytes) (FR None (Some (RBytes (mkBytesRules None (Some 3%N) None None None None None None [] [] None None))))] [] false MBoth;
  (* bytes.proto:12 *) mkMsg "BytesMinLen" [mkField "Val" (FOne TBytes) (FR None (Some (RBytes (mkBytesRules None None (Some 3%N) None None None None None [] [] None None))))] [] false MBoth;
  (* bytes.proto:13 *) mkMsg "BytesMaxLen" [mkField "Val" (FOne TBytes) (FR None (Some (RBytes (mkBytesRules None None None (Some 5%N) None None None None [] [] None None))))] [] false MBoth;
  (* bytes.proto:14 *) mkMsg "BytesMinMaxLen" [mkField "Val" (FOne TBytes) (FR None (Some (RBytes (mkBytesRules None None (Some 3%N) (Some 5%N) None None None None [] [] None None))))] [] false MBoth;
  (* bytes.proto:15 *) mkMsg "BytesEqualMinMaxLen" [mkField "Val" (FOne TBytes) (FR None (Some (RBytes (mkBytesRules None None (Some 5%N) (Some 5%N) None None None None [] [] None None))))] [] false MBoth;
  (* bytes.proto:16 *) mkMsg "BytesPattern" [mkField "Val" (FOne TBytes) (FR None (Some (RBytes (mkBytesRules None None None None (Some [94;91;0;45;127;93;43;36]%N) None None None [] [] None None))))] [] false MBoth;
  (* bytes.proto:17 *) mkMsg "BytesPrefix" [mkField "Val" (FOne TBytes) (FR None (Some (RBytes (mkBytesRules None None None None None (Some [153]%N) None None [] [] None None))))] [] false MBoth;
  (* bytes.proto:18 *) mkMsg "BytesContains" [mkField "Val" (FOne TBytes) (FR None (Some (RBytes (mkBytesRules None None None None None None None (Some (bs "bar")) [] [] None None))))] [] false MBoth;
  (* bytes.proto:19 *) mkMsg "BytesSuffix" [mkField "Val" (FOne TBytes) (FR None (Some (RBytes (mkBytesRules None None None None None None (Some (bs "buzz")) None [] [] None None))))] [] false MBoth;
  (* bytes.proto:20 *) mkMsg "BytesIP" [mkField "Val" (FOne TBytes) (FR None (Some (RBytes (mkBytesRules None None None None None None None None [] [] (Some (BIp true)) None))))] [] false MBoth;
  (* bytes.proto:21 *) mkMsg "BytesIPv4" [mkField "Val" (FOne TBytes) (FR None (Some (RBytes (mkBytesRules None None None None None None None None [] [] (Some (BIpv4 true)) None))))] [] false MBoth;
  (* bytes.proto:22 *) mkMsg "BytesIPv6" [mkField "Val" (FOne TBytes) (FR None (Some (RBytes (mkBytesRules None None None None None None None None [] [] (Some (BIpv6 true)) None))))] [] false MBoth;
  (* bytes.proto:23 *) mkMsg "BytesIPv6Ignore" [mkField "Val" (FOne TBytes) (FR None (Some (RBytes (mkBytesRules None None None None None None None None [] [] (Some (BIpv6 true)) (Some true)))))] [] false MBoth;
  (* enums.proto:26 *) mkMsg "EnumNone" [mkField "Val" (FOne (TEnum "TestEnum")) fr_none] [] false MBoth;
  (* enums.proto:28 *) mkMsg "EnumConst" [mkField "Val" (FOne (TEnum "TestEnum")) (FR None (Some (REnum (mkEnumRules (Some 2) None [] []))))] [] false MBoth;
  (* enums.proto:29 *) mkMsg "EnumAliasConst" [mkField "Val" (FOne (TEnum "TestEnumAlias")) (FR None (Some (REnum (mkEnumRules (Some 2) None [] []))))] [] false MBoth;
  (* enums.proto:31 *) mkMsg "EnumDefined" [mkField "Val" (FOne (TEnum "TestEnum")) (FR None (Some (REnum (mkEnumRules None (Some true) [] []))))] [] false MBoth;
  (* enums.proto:32 *) mkMsg "EnumAliasDefined" [mkField "Val" (FOne (TEnum "TestEnumAlias")) (FR None (Some (REnum (mkEnumRules None (Some true) [] []))))] [] false MBoth;
  (* enums.proto:34 *) mkMsg "EnumIn" [mkField "Val" (FOne (TEnum "TestEnum")) (FR None (Some (REnum (mkEnumRules None None [0; 2] []))))] [] false MBoth;
  (* enums.proto:35 *) mkMsg "EnumAliasIn" [mkField "Val" (FOne (TEnum "TestEnumAlias")) (FR None (Some (REnum (mkEnumRules None None [0; 2] []))))] [] false MBoth;
  (* enums.proto:37 *) mkMsg "EnumNotIn" [mkField "Val" (FOne (TEnum "TestEnum")) (FR None (Some (REnum (mkEnumRules None None [] [1]))))] [] false MBoth;
  (* enums.proto:38 *) mkMsg "EnumAliasNotIn" [mkField "Val" (FOne (TEnum "TestEnumAlias")) (FR None (Some (REnum (mkEnumRules None None [] [1]))))] [] false MBoth;
  (* enums.proto:40 *) mkMsg "EnumExternal" [mkField "Val" (FOne (TEnum "other_package.Embed_Enumerated")) (FR None (Some (REnum (mkEnumRules None (Some true) [] []))))] [] false MBoth;
  (* enums.proto:42 *) mkMsg "RepeatedEnumDefined" [mkField "Val" (FRep (TEnum "TestEnum")) (FR None (Some (RRepeated (mkRepRules None None None (Some (FR None (Some (REnum (mkEnumRules None (Some true) [] []))))) None))))] [] false MBoth;
  (* enums.proto:43 *) mkMsg "RepeatedExternalEnumDefined" [mkField "Val" (FRep (TEnum "other_package.Embed_Enumerated")) (FR None (Some (RRepeated (mkRepRules None None None (Some (FR None (Some (REnum (mkEnumRules None (Some true) [] []))))) None))))] [] false MBoth;
  (* enums.proto:45 *) mkMsg "MapEnumDefined" [mkField "Val" (FMap TString (TEnum "TestEnum")) (FR None (Some (RMap (mkMapRules None None None None (Some (FR None (Some (REnum (mkEnumRules None (Some true) [] []))))) None))))] [] false MBoth;
  (* enums.proto:46 *) mkMsg "MapExternalEnumDefined" [mkField "Val" (FMap TString (TEnum "other_package.Embed_Enumerated")) (FR None (Some (RMap (mkMapRules None None None None (Some (FR None (Some (REnum (mkEnumRules None (Some true) [] []))))) None))))] [] false MBoth;
  (* kitchen_sink.proto:18 *) mkMsg "ComplexTestMsg" [mkField "Const" (FOne TString) (FR None (Some (RString (mkStringRules (Some (bs "abcd")) None None None None None None None None None None None [] [] None None None)))); mkField "Nested" (FOne (TMsg "ComplexTestMsg")) fr_none; mkField "IntConst" (FOne (TNum KInt32)) (FR None (Some (RNum KInt32 (mkNumRules (Some (NI 5)) None None None None [] [] None)))); mkField "BoolConst" (FOne TBool) (FR None (Some (RBool (Some false)))); mkField "FloatVal" (FOne (TWrap WkFloat)) (FR None (Some (RNum KFloat (mkNumRules None None None (Some (NF (S754_zero false))) None [] [] None)))); mkField "DurVal" (FOne TDur) (FR None (Some (RDuration (mkDurationRules (Some true) None (Some (mkSN 17 0)) None None None [] [])))); mkField "TsVal" (FOne TTs) (FR None (Some (RTimestamp (mkTimestampRules None None None None (Some (mkSN 7 0)) None None None None)))); mkField "Another" (FOne (TMsg "ComplexTestMsg")) fr_none; mkField "FloatConst" (FOne (TNum KFloat)) (FR None (Some (RNum KFloat (mkNumRules None (Some (NF (S754_finite false 8388608 (-20)))) None None None [] [] None)))); mkField "DoubleIn" (FOne (TNum KDouble)) (FR None (Some (RNum KDouble (mkNumRules None None None None None [(NF (S754_finite false 8035917071042740 (-44))); (NF (S754_finite false 8655355533852672 (-46)))] [] None)))); mkField "EnumConst" (FOne (TEnum "ComplexTestEnum")) (FR None (Some (REnum (mkEnumRules (Some 2) None [] [])))); mkField "AnyVal" (FOne TAny) (FR None (Some (RAny (mkAnyRules None [(bs "type.googleapis.com/google.protobuf.Duration")] [])))); mkField "RepTsVal" (FRep TTs) (FR None (Some (RRepeated (mkRepRules None None None (Some (FR None (Some (RTimestamp (mkTimestampRules None None None None None (Some (mkSN 0 1000000)) None None None))))) None)))); mkField "MapVal" (FMap (TNum KSInt32) TString) (FR None (Some (RMap (mkMapRules None None None (Some (FR None (Some (RNum KSInt32 (mkNumRules None (Some (NI 0)) None None None [] [] None))))) None None)))); mkField "BytesVal" (FOne TBytes) (FR None (Some (RBytes (mkBytesRules (Some [0;153]%N) None None None None None None None [] [] None None))))] [mkOneof "O" [mkField "X" (FOne TString) fr_none; mkField "Y" (FOne (TNum KInt32)) fr_none] (Some true)] false MBoth;
  (* kitchen_sink.proto:42 *) mkMsg "KitchenSinkMessage" [mkField "Val" (FOne (TMsg "ComplexTestMsg")) fr_none] [] false MBoth;
  (* maps.proto:7 *) mkMsg "MapNone" [mkField "Val" (FMap (TNum KUInt32) TBool) fr_none] [] false MBoth;
  (* maps.proto:9 *) mkMsg "MapMin" [mkField "Val" (FMap (TNum KInt32) (TNum KFloat)) (FR None (Some (RMap (mkMapRules (Some 2%N) None None None None None))))] [] false MBoth;
  (* maps.proto:10 *) mkMsg "MapMax" [mkField "Val" (FMap (TNum KInt64) (TNum KDouble)) (FR None (Some (RMap (mkMapRules None (Some 3%N) None None None None))))] [] false MBoth;
  (* maps.proto:11 *) mkMsg "MapMinMax" [mkField "Val" (FMap TString TBool) (FR None (Some (RMap (mkMapRules (Some 2%N) (Some 4%N) None None None None))))] [] false MBoth;
  (* maps.proto:12 *) mkMsg "MapExact" [mkField "Val" (FMap (TNum KUInt64) TString) (FR None (Some (RMap (mkMapRules (Some 3%N) (Some 3%N) None None None None))))] [] false MBoth;
  (* maps.proto:14 *) mkMsg "MapNoSparse" [mkField "Val" (FMap (TNum KUInt32) (TMsg "MapNoSparse_Msg")) (FR None (Some (RMap (mkMapRules None None (Some true) None None None))))] [] false MBoth;
  (* maps.proto:16 *) mkMsg "MapNoSparse_Msg" [] [] false MBoth;
  (* maps.proto:19 *) mkMsg "MapKeys" [mkField "Val" (FMap (TNum KSInt64) TString) (FR None (Some (RMap (mkMapRules None None None (Some (FR None (Some (RNum KSInt64 (mkNumRules None (Some (NI 0)) None None None [] [] None))))) None None))))] [] false MBoth;
  (* maps.proto:20 *) mkMsg "MapValues" [mkField "Val" (FMap TString TString) (FR None (Some (RMap (mkMapRules None None None None (Some (FR None (Some (RString (mkStringRules None None (Some 3%N) None None None None None None None None None [] [] None None None))))) None))))] [] false MBoth;
  (* maps.proto:22 *) mkMsg "MapKeysPattern" [mkField "Val" (FMap TString TString) (FR None (Some (RMap (mkMapRules None None None (Some (FR None (Some (RString (mkStringRules None None None None None None None (Some (bs "(?i)^[a-z0-9]+$")) None None None None [] [] None None None))))) None None))))] [] false MBoth;
  (* maps.proto:23 *) mkMsg "MapValuesPattern" [mkField "Val" (FMap TString TString) (FR None (Some (RMap (mkMapRules None None None None (Some (FR None (Some (RString (mkStringRules None None None None None None None (Some (bs "(?i)^[a-z0-9]+$")) None None None None [] [] None None None))))) None))))] [] false MBoth;
  (* maps.proto:25 *) mkMsg "MapRecursive" [mkField "Val" (FMap (TNum KUInt32) (TMsg "MapRecursive_Msg")) fr_none] [] false MBoth;
  (* maps.proto:27 *) mkMsg "MapRecursive_Msg" [mkField "Val" (FOne TString) (FR None (Some (RString (mkStringRules None None (Some 3%N) None None None None None None None None None [] [] None None None))))] [] false MBoth;
  (* maps.proto:32 *) mkMsg "MapExactIgnore" [mkField "Val" (FMap (TNum KUInt64) TString) (FR None (Some (RMap (mkMapRules (Some 3%N) (Some 3%N) None None None (Some true)))))] [] false MBoth;
  (* messages.proto:9 *) mkMsg "TestMsg" [mkField "Const" (FOne TString) (FR None (Some (RString (mkStringRules (Some (bs "foo")) None None None None None None None None None None None [] [] None None None)))); mkField "Nested" (FOne (TMsg "TestMsg")) fr_none] [] false MBoth;
  (* messages.proto:14 *) mkMsg "MessageNone" [mkField "Val" (FOne (TMsg "MessageNone_NoneMsg")) fr_none] [] false MBoth;
  (* messages.proto:16 *) mkMsg "MessageNone_NoneMsg" [] [] false MBoth;
  (* messages.proto:19 *) mkMsg "MessageDisabled" [mkField "Val" (FOne (TNum KUInt64)) (FR None (Some (RNum KUInt64 (mkNumRules None None None (Some (NI 123)) None [] [] None))))] [] true MBoth;
  (* messages.proto:24 *) mkMsg "MessageIgnored" [mkField "Val" (FOne (TNum KUInt64)) (FR None (Some (RNum KUInt64 (mkNumRules None None None (Some (NI 123)) None [] [] None))))] [] false MNone;
  (* messages.proto:29 *) mkMsg "Message" [mkField "Val" (FOne (TMsg "TestMsg")) fr_none] [] false MBoth;
  (* messages.proto:30 *) mkMsg "MessageCrossPackage" [mkField "Val" (FOne (TMsg "other_package.Embed")) fr_none] [] false MBoth;
  (* messages.proto:31 *) mkMsg "MessageSkip" [mkField "Val" (FOne (TMsg "TestMsg")) (FR (Some (mkMessageRules (Some true) None)) None)] [] false MBoth;
  (* messages.proto:32 *) mkMsg "MessageRequired" [mkField "Val" (FOne (TMsg "TestMsg")) (FR (Some (mkMessageRules None (Some true))) None)] [] false MBoth;
  (* messages.proto:34 *) mkMsg "MessageRequiredOneof" [] [mkOneof "One" [mkField "Val" (FOne (TMsg "TestMsg")) (FR (Some (mkMessageRules None (Some true))) None)] (Some true)] false MBoth;
  (* messages.proto:41 *) mkMsg "MessageWith3dInside" [] [] false MBoth;
  (* numbers.proto:7 *) mkMsg "FloatNone" [mkField "Val" (FOne (TNum KFloat)) fr_none] [] false MBoth;
  (* numbers.proto:8 *) mkMsg "FloatConst" [mkField "Val" (FOne (TNum KFloat)) (FR None (Some (RNum KFloat (mkNumRules (Some (NF (S754_finite false 10317988 (-23)))) None None None None [] [] None))))] [] false MBoth;
  (* numbers.proto:9 *) mkMsg "FloatIn" [mkField "Val" (FOne (TNum KFloat)) (FR None (Some (RNum KFloat (mkNumRules None None None None None [(NF (S754_finite false 9563013 (-21))); (NF (S754_finite false 16546529 (-21)))] [] None))))] [] false MBoth;
  (* numbers.proto:10 *) mkMsg "FloatNotIn" [mkField "Val" (FOne (TNum KFloat)) (FR None (Some (RNum KFloat (mkNumRules None None None None None [] [(NF (S754_zero false))] None))))] [] false MBoth;
  (* numbers.proto:11 *) mkMsg "FloatLT" [mkField "Val" (FOne (TNum KFloat)) (FR None (Some (RNum KFloat (mkNumRules None (Some (NF (S754_zero false))) None None None [] [] None))))] [] false MBoth;
  (* numbers.proto:12 *) mkMsg "FloatLTE" [mkField "Val" (FOne (TNum KFloat)) (FR None (Some (RNum KFloat (mkNumRules None None (Some (NF (S754_finite false 8388608 (-17)))) None None [] [] None))))] [] false MBoth;
  (* numbers.proto:13 *) mkMsg "FloatGT" [mkField "Val" (FOne (TNum KFloat)) (FR None (Some (RNum KFloat (mkNumRules None None None (Some (NF (S754_finite false 8388608 (-19)))) None [] [] None))))] [] false MBoth;
  (* numbers.proto:14 *) mkMsg "FloatGTE" [mkField "Val" (FOne (TNum KFloat)) (FR None (Some (RNum KFloat (mkNumRules None None None None (Some (NF (S754_finite false 8388608 (-20)))) [] [] None))))] [] false MBoth;
  (* numbers.proto:15 *) mkMsg "FloatGTLT" [mkField "Val" (FOne (TNum KFloat)) (FR None (Some (RNum KFloat (mkNumRules None (Some (NF (S754_finite false 10485760 (-20)))) None (Some (NF (S754_zero false))) None [] [] None))))] [] false MBoth;
  (* numbers.proto:16 *) mkMsg "FloatExLTGT" [mkField "Val" (FOne (TNum KFloat)) (FR None (Some (RNum KFloat (mkNumRules None (Some (NF (S754_zero false))) None (Some (NF (S754_finite false 10485760 (-20)))) None [] [] None))))] [] false MBoth;
  (* numbers.proto:17 *) mkMsg "FloatGTELTE" [mkField "Val" (FOne (TNum KFloat)) (FR None (Some (RNum KFloat (mkNumRules None None (Some (NF (S754_finite false 8388608 (-15)))) None (Some (NF (S754_finite false 8388608 (-16)))) [] [] None))))] [] false MBoth;
  (* numbers.proto:18 *) mkMsg "FloatExGTELTE" [mkField "Val" (FOne (TNum KFloat)) (FR None (Some (RNum KFloat (mkNumRules None None (Some (NF (S754_finite false 8388608 (-16)))) None (Some (NF (S754_finite false 8388608 (-15)))) [] [] None))))] [] false MBoth;
  (* numbers.proto:19 *) mkMsg "FloatIgnore" [mkField "Val" (FOne (TNum KFloat)) (FR None (Some (RNum KFloat (mkNumRules None None (Some (NF (S754_finite false 8388608 (-15)))) None (Some (NF (S754_finite false 8388608 (-16)))) [] [] (Some true)))))] [] false MBoth;
  (* numbers.proto:21 *) mkMsg "DoubleNone" [mkField "Val" (FOne (TNum KDouble)) fr_none] [] false MBoth;
  (* numbers.proto:22 *) mkMsg "DoubleConst" [mkField "Val" (FOne (TNum KDouble)) (FR None (Some (RNum KDouble (mkNumRules (Some (NF (S754_finite false 5539427541665710 (-52)))) None None None None [] [] None))))] [] false MBoth;
  (* numbers.proto:23 *) mkMsg "DoubleIn" [mkField "Val" (FOne (TNum KDouble)) (FR None (Some (RNum KDouble (mkNumRules None None None None None [(NF (S754_finite false 5134103575202365 (-50))); (NF (S754_finite false 8883350264988303 (-50)))] [] None))))] [] false MBoth;
  (* numbers.proto:24 *) mkMsg "DoubleNotIn" [mkField "Val" (FOne (TNum KDouble)) (FR None (Some (RNum KDouble (mkNumRules None None None None None [] [(NF (S754_zero false))] None))))] [] false MBoth;
  (* numbers.proto:25 *) mkMsg "DoubleLT" [mkField "Val" (FOne (TNum KDouble)) (FR None (Some (RNum KDouble (mkNumRules None (Some (NF (S754_zero false))) None None None [] [] None))))] [] false MBoth;
  (* numbers.proto:26 *) mkMsg "DoubleLTE" [mkField "Val" (FOne (TNum KDouble)) (FR None (Some (RNum KDouble (mkNumRules None None (Some (NF (S754_finite false 4503599627370496 (-46)))) None None [] [] None))))] [] false MBoth;
  (* numbers.proto:27 *) mkMsg "DoubleGT" [mkField "Val" (FOne (TNum KDouble)) (FR None (Some (RNum KDouble (mkNumRules None None None (Some (NF (S754_finite false 4503599627370496 (-48)))) None [] [] None))))] [] false MBoth;
  (* numbers.proto:28 *) mkMsg "DoubleGTE" [mkField "Val" (FOne (TNum KDouble)) (FR None (Some (RNum KDouble (mkNumRules None None None None (Some (NF (S754_finite false 4503599627370496 (-49)))) [] [] None))))] [] false MBoth;
  (* numbers.proto:29 *) mkMsg "DoubleGTLT" [mkField "Val" (FOne (TNum KDouble)) (FR None (Some (RNum KDouble (mkNumRules None (Some (NF (S754_finite false 5629499534213120 (-49)))) None (Some (NF (S754_zero false))) None [] [] None))))] [] false MBoth;
  (* numbers.proto:30 *) mkMsg "DoubleExLTGT" [mkField "Val" (FOne (TNum KDouble)) (FR None (Some (RNum KDouble (mkNumRules None (Some (NF (S754_zero false))) None (Some (NF (S754_finite false 5629499534213120 (-49)))) None [] [] None))))] [] false MBoth;
  (* numbers.proto:31 *) mkMsg "DoubleGTELTE" [mkField "Val" (FOne (TNum KDouble)) (FR None (Some (RNum KDouble (mkNumRules None None (Some (NF (S754_finite false 4503599627370496 (-44)))) None (Some (NF (S754_finite false 4503599627370496 (-45)))) [] [] None))))] [] false MBoth;
  (* numbers.proto:32 *) mkMsg "DoubleExGTELTE" [mkField "Val" (FOne (TNum KDouble)) (FR None (Some (RNum KDouble (mkNumRules None None (Some (NF (S754_finite false 4503599627370496 (-45)))) None (Some (NF (S754_finite false 4503599627370496 (-44)))) [] [] None))))] [] false MBoth;
  (* numbers.proto:33 *) mkMsg "DoubleIgnore" [mkField "Val" (FOne (TNum KDouble)) (FR None (Some (RNum KDouble (mkNumRules None None (Some (NF (S754_finite false 4503599627370496 (-45)))) None (Some (NF (S754_finite false 4503599627370496 (-44)))) [] [] (Some true)))))] [] false MBoth;
  (* numbers.proto:35 *) mkMsg "Int32None" [mkField "Val" (FOne (TNum KInt32)) fr_none] [] false MBoth;
  (* numbers.proto:36 *) mkMsg "Int32Const" [mkField "Val" (FOne (TNum KInt32)) (FR None (Some (RNum KInt32 (mkNumRules (Some (NI 1)) None None None None [] [] None))))] [] false MBoth;
  (* numbers.proto:37 *) mkMsg "Int32In" [mkField "Val" (FOne (TNum KInt32)) (FR None (Some (RNum KInt32 (mkNumRules None None None None None [(NI 2); (NI 3)] [] None))))] [] false MBoth;
  (* numbers.proto:38 *) mkMsg "Int32NotIn" [mkField "Val" (FOne (TNum KInt32)) (FR None (Some (RNum KInt32 (mkNumRules None None None None None [] [(NI 0)] None))))] [] false MBoth;
  (* numbers.proto:39 *) mkMsg "Int32LT" [mkField "Val" (FOne (TNum KInt32)) (FR None (Some (RNum KInt32 (mkNumRules None (Some (NI 0)) None None None [] [] None))))] [] false MBoth;
  (* numbers.proto:40 *) mkMsg "Int32LTE" [mkField "Val" (FOne (TNum KInt32)) (FR None (Some (RNum KInt32 (mkNumRules None None (Some (NI 64)) None None [] [] None))))] [] false MBoth;
  (* numbers.proto:41 *) mkMsg "Int32GT" [mkField "Val" (FOne (TNum KInt32)) (FR None (Some (RNum KInt32 (mkNumRules None None None (Some (NI 16)) None [] [] None))))] [] false MBoth;
  (* numbers.proto:42 *) mkMsg "Int32GTE" [mkField "Val" (FOne (TNum KInt32)) (FR None (Some (RNum KInt32 (mkNumRules None None None None (Some (NI 8)) [] [] None))))] [] false MBoth;
  (* numbers.proto:43 *) mkMsg "Int32GTLT" [mkField "Val" (FOne (TNum KInt32)) (FR None (Some (RNum KInt32 (mkNumRules None (Some (NI 10)) None (Some (NI 0)) None [] [] None))))] [] false MBoth;
  (* numbers.proto:44 *) mkMsg "Int32ExLTGT" [mkField "Val" (FOne (TNum KInt32)) (FR None (Some (RNum KInt32 (mkNumRules None (Some (NI 0)) None (Some (NI 10)) None [] [] None))))] [] false MBoth;
  (* numbers.proto:45 *) mkMsg "Int32GTELTE" [mkField "Val" (FOne (TNum KInt32)) (FR None (Some (RNum KInt32 (mkNumRules None None (Some (NI 256)) None (Some (NI 128)) [] [] None))))] [] false MBoth;
  (* numbers.proto:46 *) mkMsg "Int32ExGTELTE" [mkField "Val" (FOne (TNum KInt32)) (FR None (Some (RNum KInt32 (mkNumRules None None (Some (NI 128)) None (Some (NI 256)) [] [] None))))] [] false MBoth;
  (* numbers.proto:47 *) mkMsg "Int32Ignore" [mkField "Val" (FOne (TNum KInt32)) (FR None (Some (RNum KInt32 (mkNumRules None None (Some (NI 128)) None (Some (NI 256)) [] [] (Some true)))))] [] false MBoth;
  (* numbers.proto:49 *) mkMsg "Int64None" [mkField "Val" (FOne (TNum KInt64)) fr_none] [] false MBoth;
  (* numbers.proto:50 *) mkMsg "Int64Const" [mkField "Val" (FOne (TNum KInt64)) (FR None (Some (RNum KInt64 (mkNumRules (Some (NI 1)) None None None None [] [] None))))] [] false MBoth;
  (* numbers.proto:51 *) mkMsg "Int64In" [mkField "Val" (FOne (TNum KInt64)) (FR None (Some (RNum KInt64 (mkNumRules None None None None None [(NI 2); (NI 3)] [] None))))] [] false MBoth;
  (* numbers.proto:52 *) mkMsg "Int64NotIn" [mkField "Val" (FOne (TNum KInt64)) (FR None (Some (RNum KInt64 (mkNumRules None None None None None [] [(NI 0)] None))))] [] false MBoth;
  (* numbers.proto:53 *) mkMsg "Int64LT" [mkField "Val" (FOne (TNum KInt64)) (FR None (Some (RNum KInt64 (mkNumRules None (Some (NI 0)) None None None [] [] None))))] [] false MBoth;
  (* numbers.proto:54 *) mkMsg "Int64LTE" [mkField "Val" (FOne (TNum KInt64)) (FR None (Some (RNum KInt64 (mkNumRules None None (Some (NI 64)) None None [] [] None))))] [] false MBoth;
  (* numbers.proto:55 *) mkMsg "Int64GT" [mkField "Val" (FOne (TNum KInt64)) (FR None (Some (RNum KInt64 (mkNumRules None None None (Some (NI 16)) None [] [] None))))] [] false MBoth;
  (* numbers.proto:56 *) mkMsg "Int64GTE" [mkField "Val" (FOne (TNum KInt64)) (FR None (Some (RNum KInt64 (mkNumRules None None None None (Some (NI 8)) [] [] None))))] [] false MBoth;
  (* numbers.proto:57 *) mkMsg "Int64GTLT" [mkField "Val" (FOne (TNum KInt64)) (FR None (Some (RNum KInt64 (mkNumRules None (Some (NI 10)) None (Some (NI 0)) None [] [] None))))] [] false MBoth;
  (* numbers.proto:58 *) mkMsg "Int64ExLTGT" [mkField "Val" (FOne (TNum KInt64)) (FR None (Some (RNum KInt64 (mkNumRules None (Some (NI 0)) None (Some (NI 10)) None [] [] None))))] [] false MBoth;
  (* numbers.proto:59 *) mkMsg "Int64GTELTE" [mkField "Val" (FOne (TNum KInt64)) (FR None (Some (RNum KInt64 (mkNumRules None None (Some (NI 256)) None (Some (NI 128)) [] [] None))))] [] false MBoth;
  (* numbers.proto:60 *) mkMsg "Int64ExGTELTE" [mkField "Val" (FOne (TNum KInt64)) (FR None (Some (RNum KInt64 (mkNumRules None None (Some (NI 128)) None (Some (NI 256)) [] [] None))))] [] false MBoth;
  (* numbers.proto:61 *) mkMsg "Int64Ignore" [mkField "Val" (FOne (TNum KInt64)) (FR None (Some (RNum KInt64 (mkNumRules None None (Some (NI 128)) None (Some (NI 256)) [] [] (Some true)))))] [] false MBoth;
  (* numbers.proto:63 *) mkMsg "UInt32None" [mkField "Val" (FOne (TNum KUInt32)) fr_none] [] false MBoth;
  (* numbers.proto:64 *) mkMsg "UInt32Const" [mkField "Val" (FOne (TNum KUInt32)) (FR None (Some (RNum KUInt32 (mkNumRules (Some (NI 1)) None None None None [] [] None))))] [] false MBoth;
  (* numbers.proto:65 *) mkMsg "UInt32In" [mkField "Val" (FOne (TNum KUInt32)) (FR None (Some (RNum KUInt32 (mkNumRules None None None None None [(NI 2); (NI 3)] [] None))))] [] false MBoth;
  (* numbers.proto:66 *) mkMsg "UInt32NotIn" [mkField "Val" (FOne (TNum KUInt32)) (FR None (Some (RNum KUInt32 (mkNumRules None None None None None [] [(NI 0)] None))))] [] false MBoth;
  (* numbers.proto:67 *) mkMsg "UInt32LT" [mkField "Val" (FOne (TNum KUInt32)) (FR None (Some (RNum KUInt32 (mkNumRules None (Some (NI 5)) None None None [] [] None))))] [] false MBoth;
  (* numbers.proto:68 *) mkMsg "UInt32LTE" [mkField "Val" (FOne (TNum KUInt32)) (FR None (Some (RNum KUInt32 (mkNumRules None None (Some (NI 64)) None None [] [] None))))] [] false MBoth;
  (* numbers.proto:69 *) mkMsg "UInt32GT" [mkField "Val" (FOne (TNum KUInt32)) (FR None (Some (RNum KUInt32 (mkNumRules None None None (Some (NI 16)) None [] [] None))))] [] false MBoth;
  (* numbers.proto:70 *) mkMsg "UInt32GTE" [mkField "Val" (FOne (TNum KUInt32)) (FR None (Some (RNum KUInt32 (mkNumRules None None None None (Some (NI 8)) [] [] None))))] [] false MBoth;
  (* numbers.proto:71 *) mkMsg "UInt32GTLT" [mkField "Val" (FOne (TNum KUInt32)) (FR None (Some (RNum KUInt32 (mkNumRules None (Some (NI 10)) None (Some (NI 5)) None [] [] None))))] [] false MBoth;
  (* numbers.proto:72 *) mkMsg "UInt32ExLTGT" [mkField "Val" (FOne (TNum KUInt32)) (FR None (Some (RNum KUInt32 (mkNumRules None (Some (NI 5)) None (Some (NI 10)) None [] [] None))))] [] false MBoth;
  (* numbers.proto:73 *) mkMsg "UInt32GTELTE" [mkField "Val" (FOne (TNum KUInt32)) (FR None (Some (RNum KUInt32 (mkNumRules None None (Some (NI 256)) None (Some (NI 128)) [] [] None))))] [] false MBoth;
  (* numbers.proto:74 *) mkMsg "UInt32ExGTELTE" [mkField "Val" (FOne (TNum KUInt32)) (FR None (Some (RNum KUInt32 (mkNumRules None None (Some (NI 128)) None (Some (NI 256)) [] [] None))))] [] false MBoth;
  (* numbers.proto:75 *) mkMsg "UInt32Ignore" [mkField "Val" (FOne (TNum KUInt32)) (FR None (Some (RNum KUInt32 (mkNumRules None None (Some (NI 128)) None (Some (NI 256)) [] [] (Some true)))))] [] false MBoth;
  (* numbers.proto:77 *) mkMsg "UInt64None" [mkField "Val" (FOne (TNum KUInt64)) fr_none] [] false MBoth;
  (* numbers.proto:78 *) mkMsg "UInt64Const" [mkField "Val" (FOne (TNum KUInt64)) (FR None (Some (RNum KUInt64 (mkNumRules (Some (NI 1)) None None None None [] [] None))))] [] false MBoth;
  (* numbers.proto:79 *) mkMsg "UInt64In" [mkField "Val" (FOne (TNum KUInt64)) (FR None (Some (RNum KUInt64 (mkNumRules None None None None None [(NI 2); (NI 3)] [] None))))] [] false MBoth;
  (* numbers.proto:80 *) mkMsg "UInt64NotIn" [mkField "Val" (FOne (TNum KUInt64)) (FR None (Some (RNum KUInt64 (mkNumRules None None None None None [] [(NI 0)] None))))] [] false MBoth;
  (* numbers.proto:81 *) mkMsg "UInt64LT" [mkField "Val" (FOne (TNum KUInt64)) (FR None (Some (RNum KUInt64 (mkNumRules None (Some (NI 5)) None None None [] [] None))))] [] false MBoth;
  (* numbers.proto:82 *) mkMsg "UInt64LTE" [mkField "Val" (FOne (TNum KUInt64)) (FR None (Some (RNum KUInt64 (mkNumRules None None (Some (NI 64)) None None [] [] None))))] [] false MBoth;
  (* numbers.proto:83 *) mkMsg "UInt64GT" [mkField "Val" (FOne (TNum KUInt64)) (FR None (Some (RNum KUInt64 (mkNumRules None None None (Some (NI 16)) None [] [] None))))] [] false MBoth;
  (* numbers.proto:84 *) mkMsg "UInt64GTE" [mkField "Val" (FOne (TNum KUInt64)) (FR None (Some (RNum KUInt64 (mkNumRules None None None None (Some (NI 8)) [] [] None))))] [] false MBoth;
  (* numbers.proto:85 *) mkMsg "UInt64GTLT" [mkField "Val" (FOne (TNum KUInt64)) (FR None (Some (RNum KUInt64 (mkNumRules None (Some (NI 10)) None (Some (NI 5)) None [] [] None))))] [] false MBoth;
  (* numbers.proto:86 *) mkMsg "UInt64ExLTGT" [mkField "Val" (FOne (TNum KUInt64)) (FR None (Some (RNum KUInt64 (mkNumRules None (Some (NI 5)) None (Some (NI 10)) None [] [] None))))] [] false MBoth;
  (* numbers.proto:87 *) mkMsg "UInt64GTELTE" [mkField "Val" (FOne (TNum KUInt64)) (FR None (Some (RNum KUInt64 (mkNumRules None None (Some (NI 256)) None (Some (NI 128)) [] [] None))))] [] false MBoth;
  (* numbers.proto:88 *) mkMsg "UInt64ExGTELTE" [mkField "Val" (FOne (TNum KUInt64)) (FR None (Some (RNum KUInt64 (mkNumRules None None (Some (NI 128)) None (Some (NI 256)) [] [] None))))] [] false MBoth;
  (* numbers.proto:89 *) mkMsg "UInt64Ignore" [mkField "Val" (FOne (TNum KUInt64)) (FR None (Some (RNum KUInt64 (mkNumRules None None (Some (NI 128)) None (Some (NI 256)) [] [] (Some true)))))] [] false MBoth;
  (* numbers.proto:91 *) mkMsg "SInt32None" [mkField "Val" (FOne (TNum KSInt32)) fr_none] [] false MBoth;
  (* numbers.proto:92 *) mkMsg "SInt32Const" [mkField "Val" (FOne (TNum KSInt32)) (FR None (Some (RNum KSInt32 (mkNumRules (Some (NI 1)) None None None None [] [] None))))] [] false MBoth;
  (* numbers.proto:93 *) mkMsg "SInt32In" [mkField "Val" (FOne (TNum KSInt32)) (FR None (Some (RNum KSInt32 (mkNumRules None None None None None [(NI 2); (NI 3)] [] None))))] [] false MBoth;
  (* numbers.proto:94 *) mkMsg "SInt32NotIn" [mkField "Val" (FOne (TNum KSInt32)) (FR None (Some (RNum KSInt32 (mkNumRules None None None None None [] [(NI 0)] None))))] [] false MBoth;
  (* numbers.proto:95 *) mkMsg "SInt32LT" [mkField "Val" (FOne (TNum KSInt32)) (FR None (Some (RNum KSInt32 (mkNumRules None (Some (NI 0)) None None None [] [] None))))] [] false MBoth;
  (* numbers.proto:96 *) mkMsg "SInt32LTE" [mkField "Val" (FOne (TNum KSInt32)) (FR None (Some (RNum KSInt32 (mkNumRules None None (Some (NI 64)) None None [] [] None))))] [] false MBoth;
  (* numbers.proto:97 *) mkMsg "SInt32GT" [mkField "Val" (FOne (TNum KSInt32)) (FR None (Some (RNum KSInt32 (mkNumRules None None None (Some (NI 16)) None [] [] None))))] [] false MBoth;
  (* numbers.proto:98 *) mkMsg "SInt32GTE" [mkField "Val" (FOne (TNum KSInt32)) (FR None (Some (RNum KSInt32 (mkNumRules None None None None (Some (NI 8)) [] [] None))))] [] false MBoth;
  (* numbers.proto:99 *) mkMsg "SInt32GTLT" [mkField "Val" (FOne (TNum KSInt32)) (FR None (Some (RNum KSInt32 (mkNumRules None (Some (NI 10)) None (Some (NI 0)) None [] [] None))))] [] false MBoth;
  (* numbers.proto:100 *) mkMsg "SInt32ExLTGT" [mkField "Val" (FOne (TNum KSInt32)) (FR None (Some (RNum KSInt32 (mkNumRules None (Some (NI 0)) None (Some (NI 10)) None [] [] None))))] [] false MBoth;
  (* numbers.proto:101 *) mkMsg "SInt32GTELTE" [mkField "Val" (FOne (TNum KSInt32)) (FR None (Some (RNum KSInt32 (mkNumRules None None (Some (NI 256)) None (Some (NI 128)) [] [] None))))] [] false MBoth;
  (* numbers.proto:102 *) mkMsg "SInt32ExGTELTE" [mkField "Val" (FOne (TNum KSInt32)) (FR None (Some (RNum KSInt32 (mkNumRules None None (Some (NI 128)) None (Some (NI 256)) [] [] None))))] [] false MBoth;
  (* numbers.proto:103 *) mkMsg "SInt32Ignore" [mkField "Val" (FOne (TNum KSInt32)) (FR None (Some (RNum KSInt32 (mkNumRules None None (Some (NI 128)) None (Some (NI 256)) [] [] (Some true)))))] [] false MBoth;
  (* numbers.proto:105 *) mkMsg "SInt64None" [mkField "Val" (FOne (TNum KSInt64)) fr_none] [] false MBoth;
  (* numbers.proto:106 *) mkMsg "SInt64Const" [mkField "Val" (FOne (TNum KSInt64)) (FR None (Some (RNum KSInt64 (mkNumRules (Some (NI 1)) None None None None [] [] None))))] [] false MBoth;
  (* numbers.proto:107 *) mkMsg "SInt64In" [mkField "Val" (FOne (TNum KSInt64)) (FR None (Some (RNum KSInt64 (mkNumRules None None None None None [(NI 2); (NI 3)] [] None))))] [] false MBoth;
  (* numbers.proto:108 *) mkMsg "SInt64NotIn" [mkField "Val" (FOne (TNum KSInt64)) (FR None (Some (RNum KSInt64 (mkNumRules None None None None None [] [(NI 0)] None))))] [] false MBoth;
  (* numbers.proto:109 *) mkMsg "SInt64LT" [mkField "Val" (FOne (TNum KSInt64)) (FR None (Some (RNum KSInt64 (mkNumRules None (Some (NI 0)) None None None [] [] None))))] [] false MBoth;
  (* numbers.proto:110 *) mkMsg "SInt64LTE" [mkField "Val" (FOne (TNum KSInt64)) (FR None (Some (RNum KSInt64 (mkNumRules None None (Some (NI 64)) None None [] [] None))))] [] false MBoth;
  (* numbers.proto:111 *) mkMsg "SInt64GT" [mkField "Val" (FOne (TNum KSInt64)) (FR None (Some (RNum KSInt64 (mkNumRules None None None (Some (NI 16)) None [] [] None))))] [] false MBoth;
  (* numbers.proto:112 *) mkMsg "SInt64GTE" [mkField "Val" (FOne (TNum KSInt64)) (FR None (Some (RNum KSInt64 (mkNumRules None None None None (Some (NI 8)) [] [] None))))] [] false MBoth;
  (* numbers.proto:113 *) mkMsg "SInt64GTLT" [mkField "Val" (FOne (TNum KSInt64)) (FR None (Some (RNum KSInt64 (mkNumRules None (Some (NI 10)) None (Some (NI 0)) None [] [] None))))] [] false MBoth;
  (* numbers.proto:114 *) mkMsg "SInt64ExLTGT" [mkField "Val" (FOne (TNum KSInt64)) (FR None (Some (RNum KSInt64 (mkNumRules None (Some (NI 0)) None (Some (NI 10)) None [] [] None))))] [] false MBoth;
  (* numbers.proto:115 *) mkMsg "SInt64GTELTE" [mkField "Val" (FOne (TNum KSInt64)) (FR None (Some (RNum KSInt64 (mkNumRules None None (Some (NI 256)) None (Some (NI 128)) [] [] None))))] [] false MBoth;
  (* numbers.proto:116 *) mkMsg "SInt64ExGTELTE" [mkField "Val" (FOne (TNum KSInt64)) (FR None (Some (RNum KSInt64 (mkNumRules None None (Some (NI 128)) None (Some (NI 256)) [] [] None))))] [] false MBoth;
  (* numbers.proto:117 *) mkMsg "SInt64Ignore" [mkField "Val" (FOne (TNum KSInt64)) (FR None (Some (RNum KSInt64 (mkNumRules None None (Some (NI 128)) None (Some (NI 256)) [] [] (Some true)))))] [] false MBoth;
  (* numbers.proto:119 *) mkMsg "Fixed32None" [mkField "Val" (FOne (TNum KFixed32)) fr_none] [] false MBoth;
  (* numbers.proto:120 *) mkMsg "Fixed32Const" [mkField "Val" (FOne (TNum KFixed32)) (FR None (Some (RNum KFixed32 (mkNumRules (Some (NI 1)) None None None None [] [] None))))] [] false MBoth;
  (* numbers.proto:121 *) mkMsg "Fixed32In" [mkField "Val" (FOne (TNum KFixed32)) (FR None (Some (RNum KFixed32 (mkNumRules None None None None None [(NI 2); (NI 3)] [] None))))] [] false MBoth;
  (* numbers.proto:122 *) mkMsg "Fixed32NotIn" [mkField "Val" (FOne (TNum KFixed32)) (FR None (Some (RNum KFixed32 (mkNumRules None None None None None [] [(NI 0)] None))))] [] false MBoth;
  (* numbers.proto:123 *) mkMsg "Fixed32LT" [mkField "Val" (FOne (TNum KFixed32)) (FR None (Some (RNum KFixed32 (mkNumRules None (Some (NI 5)) None None None [] [] None))))] [] false MBoth;
  (* numbers.proto:124 *) mkMsg "Fixed32LTE" [mkField "Val" (FOne (TNum KFixed32)) (FR None (Some (RNum KFixed32 (mkNumRules None None (Some (NI 64)) None None [] [] None))))] [] false MBoth;
  (* numbers.proto:125 *) mkMsg "Fixed32GT" [mkField "Val" (FOne (TNum KFixed32)) (FR None (Some (RNum KFixed32 (mkNumRules None None None (Some (NI 16)) None [] [] None))))] [] false MBoth;
  (* numbers.proto:126 *) mkMsg "Fixed32GTE" [mkField "Val" (FOne (TNum KFixed32)) (FR None (Some (RNum KFixed32 (mkNumRules None None None None (Some (NI 8)) [] [] None))))] [] false MBoth;
  (* numbers.proto:127 *) mkMsg "Fixed32GTLT" [mkField "Val" (FOne (TNum KFixed32)) (FR None (Some (RNum KFixed32 (mkNumRules None (Some (NI 10)) None (Some (NI 5)) None [] [] None))))] [] false MBoth;
  (* numbers.proto:128 *) mkMsg "Fixed32ExLTGT" [mkField "Val" (FOne (TNum KFixed32)) (FR None (Some (RNum KFixed32 (mkNumRules None (Some (NI 5)) None (Some (NI 10)) None [] [] None))))] [] false MBoth;
  (* numbers.proto:129 *) mkMsg "Fixed32GTELTE" [mkField "Val" (FOne (TNum KFixed32)) (FR None (Some (RNum KFixed32 (mkNumRules None None (Some (NI 256)) None (Some (NI 128)) [] [] None))))] [] false MBoth;
  (* numbers.proto:130 *) mkMsg "Fixed32ExGTELTE" [mkField "Val" (FOne (TNum KFixed32)) (FR None (Some (RNum KFixed32 (mkNumRules None None (Some (NI 128)) None (Some (NI 256)) [] [] None))))] [] false MBoth;
  (* numbers.proto:131 *) mkMsg "Fixed32Ignore" [mkField "Val" (FOne (TNum KFixed32)) (FR None (Some (RNum KFixed32 (mkNumRules None None (Some (NI 128)) None (Some (NI 256)) [] [] (Some true)))))] [] false MBoth;
  (* numbers.proto:133 *) mkMsg "Fixed64None" [mkField "Val" (FOne (TNum KFixed64)) fr_none] [] false MBoth;
  (* numbers.proto:134 *) mkMsg "Fixed64Const" [mkField "Val" (FOne (TNum KFixed64)) (FR None (Some (RNum KFixed64 (mkNumRules (Some (NI 1)) None None None None [] [] None))))] [] false MBoth;
  (* numbers.proto:135 *) mkMsg "Fixed64In" [mkField "Val" (FOne (TNum KFixed64)) (FR None (Some (RNum KFixed64 (mkNumRules None None None None None [(NI 2); (NI 3)] [] None))))] [] false MBoth;
  (* numbers.proto:136 *) mkMsg "Fixed64NotIn" [mkField "Val" (FOne (TNum KFixed64)) (FR None (Some (RNum KFixed64 (mkNumRules None None None None None [] [(NI 0)] None))))] [] false MBoth;
  (* numbers.proto:137 *) mkMsg "Fixed64LT" [mkField "Val" (FOne (TNum KFixed64)) (FR None (Some (RNum KFixed64 (mkNumRules None (Some (NI 5)) None None None [] [] None))))] [] false MBoth;
  (* numbers.proto:138 *) mkMsg "Fixed64LTE" [mkField "Val" (FOne (TNum KFixed64)) (FR None (Some (RNum KFixed64 (mkNumRules None None (Some (NI 64)) None None [] [] None))))] [] false MBoth;
  (* numbers.proto:139 *) mkMsg "Fixed64GT" [mkField "Val" (FOne (TNum KFixed64)) (FR None (Some (RNum KFixed64 (mkNumRules None None None (Some (NI 16)) None [] [] None))))] [] false MBoth;
  (* numbers.proto:140 *) mkMsg "Fixed64GTE" [mkField "Val" (FOne (TNum KFixed64)) (FR None (Some (RNum KFixed64 (mkNumRules None None None None (Some (NI 8)) [] [] None))))] [] false MBoth;
  (* numbers.proto:141 *) mkMsg "Fixed64GTLT" [mkField "Val" (FOne (TNum KFixed64)) (FR None (Some (RNum KFixed64 (mkNumRules None (Some (NI 10)) None (Some (NI 5)) None [] [] None))))] [] false MBoth;
  (* numbers.proto:142 *) mkMsg "Fixed64ExLTGT" [mkField "Val" (FOne (TNum KFixed64)) (FR None (Some (RNum KFixed64 (mkNumRules None (Some (NI 5)) None (Some (NI 10)) None [] [] None))))] [] false MBoth;
  (* numbers.proto:143 *) mkMsg "Fixed64GTELTE" [mkField "Val" (FOne (TNum KFixed64)) (FR None (Some (RNum KFixed64 (mkNumRules None None (Some (NI 256)) None (Some (NI 128)) [] [] None))))] [] false MBoth;
  (* numbers.proto:144 *) mkMsg "Fixed64ExGTELTE" [mkField "Val" (FOne (TNum KFixed64)) (FR None (Some (RNum KFixed64 (mkNumRules None None (Some (NI 128)) None (Some (NI 256)) [] [] None))))] [] false MBoth;
  (* numbers.proto:145 *) mkMsg "Fixed64Ignore" [mkField "Val" (FOne (TNum KFixed64)) (FR None (Some (RNum KFixed64 (mkNumRules None None (Some (NI 128)) None (Some (NI 256)) [] [] (Some true)))))] [] false MBoth;
  (* numbers.proto:147 *) mkMsg "SFixed32None" [mkField "Val" (FOne (TNum KSFixed32)) fr_none] [] false MBoth;
  (* numbers.proto:148 *) mkMsg "SFixed32Const" [mkField "Val" (FOne (TNum KSFixed32)) (FR None (Some (RNum KSFixed32 (mkNumRules (Some (NI 1)) None None None None [] [] None))))] [] false MBoth;
  (* numbers.proto:149 *) mkMsg "SFixed32In" [mkField "Val" (FOne (TNum KSFixed32)) (FR None (Some (RNum KSFixed32 (mkNumRules None None None None None [(NI 2); (NI 3)] [] None))))] [] false MBoth;
  (* numbers.proto:150 *) mkMsg "SFixed32NotIn" [mkField "Val" (FOne (TNum KSFixed32)) (FR None (Some (RNum KSFixed32 (mkNumRules None None None None None [] [(NI 0)] None))))] [] false MBoth;
  (* numbers.proto:151 *) mkMsg "SFixed32LT" [mkField "Val" (FOne (TNum KSFixed32)) (FR None (Some (RNum KSFixed32 (mkNumRules None (Some (NI 0)) None None None [] [] None))))] [] false MBoth;
  (* numbers.proto:152 *) mkMsg "SFixed32LTE" [mkField "Val" (FOne (TNum KSFixed32)) (FR None (Some (RNum KSFixed32 (mkNumRules None None (Some (NI 64)) None None [] [] None))))] [] false MBoth;
  (* numbers.proto:153 *) mkMsg "SFixed32GT" [mkField "Val" (FOne (TNum KSFixed32)) (FR None (Some (RNum KSFixed32 (mkNumRules None None None (Some (NI 16)) None [] [] None))))] [] false MBoth;
  (* numbers.proto:154 *) mkMsg "SFixed32GTE" [mkField "Val" (FOne (TNum KSFixed32)) (FR None (Some (RNum KSFixed32 (mkNumRules None None None None (Some (NI 8)) [] [] None))))] [] false MBoth;
  (* numbers.proto:155 *) mkMsg "SFixed32GTLT" [mkField "Val" (FOne (TNum KSFixed32)) (FR None (Some (RNum KSFixed32 (mkNumRules None (Some (NI 10)) None (Some (NI 0)) None [] [] None))))] [] false MBoth;
  (* numbers.proto:156 *) mkMsg "SFixed32ExLTGT" [mkField "Val" (FOne (TNum KSFixed32)) (FR None (Some (RNum KSFixed32 (mkNumRules None (Some (NI 0)) None (Some (NI 10)) None [] [] None))))] [] false MBoth;
  (* numbers.proto:157 *) mkMsg "SFixed32GTELTE" [mkField "Val" (FOne (TNum KSFixed32)) (FR None (Some (RNum KSFixed32 (mkNumRules None None (Some (NI 256)) None (Some (NI 128)) [] [] None))))] [] false MBoth;
  (* numbers.proto:158 *) mkMsg "SFixed32ExGTELTE" [mkField "Val" (FOne (TNum KSFixed32)) (FR None (Some (RNum KSFixed32 (mkNumRules None None (Some (NI 128)) None (Some (NI 256)) [] [] None))))] [] false MBoth;
  (* numbers.proto:159 *) mkMsg "SFixed32Ignore" [mkField "Val" (FOne (TNum KSFixed32)) (FR None (Some (RNum KSFixed32 (mkNumRules None None (Some (NI 128)) None (Some (NI 256)) [] [] (Some true)))))] [] false MBoth;
  (* numbers.proto:161 *) mkMsg "SFixed64None" [mkField "Val" (FOne (TNum KSFixed64)) fr_none] [] false MBoth;
  (* numbers.proto:162 *) mkMsg "SFixed64Const" [mkField "Val" (FOne (TNum KSFixed64)) (FR None (Some (RNum KSFixed64 (mkNumRules (Some (NI 1)) None None None None [] [] None))))] [] false MBoth;
  (* numbers.proto:163 *) mkMsg "SFixed64In" [mkField "Val" (FOne (TNum KSFixed64)) (FR None (Some (RNum KSFixed64 (mkNumRules None None None None None [(NI 2); (NI 3)] [] None))))] [] false MBoth;
  (* numbers.proto:164 *) mkMsg "SFixed64NotIn" [mkField "Val" (FOne (TNum KSFixed64)) (FR None (Some (RNum KSFixed64 (mkNumRules None None None None None [] [(NI 0)] None))))] [] false MBoth;
  (* numbers.proto:165 *) mkMsg "SFixed64LT" [mkField "Val" (FOne (TNum KSFixed64)) (FR None (Some (RNum KSFixed64 (mkNumRules None (Some (NI 0)) None None None [] [] None))))] [] false MBoth;
  (* numbers.proto:166 *) mkMsg "SFixed64LTE" [mkField "Val" (FOne (TNum KSFixed64)) (FR None (Some (RNum KSFixed64 (mkNumRules None None (Some (NI 64)) None None [] [] None))))] [] false MBoth;
  (* numbers.proto:167 *) mkMsg "SFixed64GT" [mkField "Val" (FOne (TNum KSFixed64)) (FR None (Some (RNum KSFixed64 (mkNumRules None None None (Some (NI 16)) None [] [] None))))] [] false MBoth;
  (* numbers.proto:168 *) mkMsg "SFixed64GTE" [mkField "Val" (FOne (TNum KSFixed64)) (FR None (Some (RNum KSFixed64 (mkNumRules None None None None (Some (NI 8)) [] [] None))))] [] false MBoth;
  (* numbers.proto:169 *) mkMsg "SFixed64GTLT" [mkField "Val" (FOne (TNum KSFixed64)) (FR None (Some (RNum KSFixed64 (mkNumRules None (Some (NI 10)) None (Some (NI 0)) None [] [] None))))] [] false MBoth;
  (* numbers.proto:170 *) mkMsg "SFixed64ExLTGT" [mkField "Val" (FOne (TNum KSFixed64)) (FR None (Some (RNum KSFixed64 (mkNumRules None (Some (NI 0)) None (Some (NI 10)) None [] [] None))))] [] false MBoth;
  (* numbers.proto:171 *) mkMsg "SFixed64GTELTE" [mkField "Val" (FOne (TNum KSFixed64)) (FR None (Some (RNum KSFixed64 (mkNumRules None None (Some (NI 256)) None (Some (NI 128)) [] [] None))))] [] false MBoth;
  (* numbers.proto:172 *) mkMsg "SFixed64ExGTELTE" [mkField "Val" (FOne (TNum KSFixed64)) (FR None (Some (RNum KSFixed64 (mkNumRules None None (Some (NI 128)) None (Some (NI 256)) [] [] None))))] [] false MBoth;
  (* numbers.proto:173 *) mkMsg "SFixed64Ignore" [mkField "Val" (FOne (TNum KSFixed64)) (FR None (Some (RNum KSFixed64 (mkNumRules None None (Some (NI 128)) None (Some (NI 256)) [] [] (Some true)))))] [] false MBoth;
  (* oneofs.proto:7 *) mkMsg "TestOneOfMsg" [mkField "Val" (FOne TBool) (FR None (Some (RBool (Some true))))] [] false MBoth;
  (* oneofs.proto:11 *) mkMsg "OneOfNone" [] [mkOneof "O" [mkField "X" (FOne TString) fr_none; mkField "Y" (FOne (TNum KInt32)) fr_none] None] false MBoth;
  (* oneofs.proto:18 *) mkMsg "OneOf" [] [mkOneof "O" [mkField "X" (FOne TString) (FR None (Some (RString (mkStringRules None None None None None None None None (Some (bs "foo")) None None None [] [] None None None)))); mkField "Y" (FOne (TNum KInt32)) (FR None (Some (RNum KInt32 (mkNumRules None None None (Some (NI 0)) None [] [] None)))); mkField "Z" (FOne (TMsg "TestOneOfMsg")) fr_none] None] false MBoth;
  (* oneofs.proto:26 *) mkMsg "OneOfRequired" [] [mkOneof "O" [mkField "X" (FOne TString) fr_none; mkField "Y" (FOne (TNum KInt32)) fr_none; mkField "NameWithUnderscores" (FOne (TNum KInt32)) fr_none; mkField "UnderAnd_1Number" (FOne (TNum KInt32)) fr_none] (Some true)] false MBoth;
  (* other_package/embed.proto:9 *) mkMsg "other_package.Embed" [mkField "Val" (FOne (TNum KInt64)) (FR None (Some (RNum KInt64 (mkNumRules None None None (Some (NI 0)) None [] [] None))))] [] false MBoth;
  (* repeated.proto:10 *) mkMsg "Embed" [mkField "Val" (FOne (TNum KInt64)) (FR None (Some (RNum KInt64 (mkNumRules None None None (Some (NI 0)) None [] [] None))))] [] false MBoth;
  (* repeated.proto:16 *) mkMsg "RepeatedNone" [mkField "Val" (FRep (TNum KInt64)) fr_none] [] false MBoth;
  (* repeated.proto:17 *) mkMsg "RepeatedEmbedNone" [mkField "Val" (FRep (TMsg "Embed")) fr_none] [] false MBoth;
  (* repeated.proto:18 *) mkMsg "RepeatedEmbedCrossPackageNone" [mkField "Val" (FRep (TMsg "other_package.Embed")) fr_none] [] false MBoth;
  (* repeated.proto:19 *) mkMsg "RepeatedMin" [mkField "Val" (FRep (TMsg "Embed")) (FR None (Some (RRepeated (mkRepRules (Some 2%N) None None None None))))] [] false MBoth;
  (* repeated.proto:20 *) mkMsg "RepeatedMax" [mkField "Val" (FRep (TNum KDouble)) (FR None (Some (RRepeated (mkRepRules None (Some 3%N) None None None))))] [] false MBoth;
  (* repeated.proto:21 *) mkMsg "RepeatedMinMax" [mkField "Val" (FRep (TNum KSFixed32)) (FR None (Some (RRepeated (mkRepRules (Some 2%N) (Some 4%N) None None None))))] [] false MBoth;
  (* repeated.proto:22 *) mkMsg "RepeatedExact" [mkField "Val" (FRep (TNum KUInt32)) (FR None (Some (RRepeated (mkRepRules (Some 3%N) (Some 3%N) None None None))))] [] false MBoth;
  (* repeated.proto:23 *) mkMsg "RepeatedUnique" [mkField "Val" (FRep TString) (FR None (Some (RRepeated (mkRepRules None None (Some true) None None))))] [] false MBoth;
  (* repeated.proto:24 *) mkMsg "RepeatedItemRule" [mkField "Val" (FRep (TNum KFloat)) (FR None (Some (RRepeated (mkRepRules None None None (Some (FR None (Some (RNum KFloat (mkNumRules None None None (Some (NF (S754_zero false))) None [] [] None))))) None))))] [] false MBoth;
  (* repeated.proto:25 *) mkMsg "RepeatedItemPattern" [mkField "Val" (FRep TString) (FR None (Some (RRepeated (mkRepRules None None None (Some (FR None (Some (RString (mkStringRules None None None None None None None (Some (bs "(?i)^[a-z0-9]+$")) None None None None [] [] None None None))))) None))))] [] false MBoth;
  (* repeated.proto:26 *) mkMsg "RepeatedEmbedSkip" [mkField "Val" (FRep (TMsg "Embed")) (FR None (Some (RRepeated (mkRepRules None None None (Some (FR (Some (mkMessageRules (Some true) None)) None)) None))))] [] false MBoth;
  (* repeated.proto:27 *) mkMsg "RepeatedItemIn" [mkField "Val" (FRep TString) (FR None (Some (RRepeated (mkRepRules None None None (Some (FR None (Some (RString (mkStringRules None None None None None None None None None None None None [(bs "foo"); (bs "bar")] [] None None None))))) None))))] [] false MBoth;
  (* repeated.proto:28 *) mkMsg "RepeatedItemNotIn" [mkField "Val" (FRep TString) (FR None (Some (RRepeated (mkRepRules None None None (Some (FR None (Some (RString (mkStringRules None None None None None None None None None None None None [] [(bs "foo"); (bs "bar")] None None None))))) None))))] [] false MBoth;
  (* repeated.proto:29 *) mkMsg "RepeatedEnumIn" [mkField "Val" (FRep (TEnum "AnEnum")) (FR None (Some (RRepeated (mkRepRules None None None (Some (FR None (Some (REnum (mkEnumRules None None [0] []))))) None))))] [] false MBoth;
  (* repeated.proto:30 *) mkMsg "RepeatedEnumNotIn" [mkField "Val" (FRep (TEnum "AnEnum")) (FR None (Some (RRepeated (mkRepRules None None None (Some (FR None (Some (REnum (mkEnumRules None None [] [0]))))) None))))] [] false MBoth;
  (* repeated.proto:31 *) mkMsg "RepeatedEmbeddedEnumIn" [mkField "Val" (FRep (TEnum "RepeatedEmbeddedEnumIn_AnotherInEnum")) (FR None (Some (RRepeated (mkRepRules None None None (Some (FR None (Some (REnum (mkEnumRules None None [0] []))))) None))))] [] false MBoth;
  (* repeated.proto:32 *) mkMsg "RepeatedEmbeddedEnumNotIn" [mkField "Val" (FRep (TEnum "RepeatedEmbeddedEnumNotIn_AnotherNotInEnum")) (FR None (Some (RRepeated (mkRepRules None None None (Some (FR None (Some (REnum (mkEnumRules None None [] [0]))))) None))))] [] false MBoth;
  (* repeated.proto:33 *) mkMsg "RepeatedMinAndItemLen" [mkField "Val" (FRep TString) (FR None (Some (RRepeated (mkRepRules (Some 1%N) None None (Some (FR None (Some (RString (mkStringRules None (Some 3%N) None None None None None None None None None None [] [] None None None))))) None))))] [] false MBoth;
  (* repeated.proto:34 *) mkMsg "RepeatedMinAndMaxItemLen" [mkField "Val" (FRep TString) (FR None (Some (RRepeated (mkRepRules (Some 1%N) (Some 3%N) None None None))))] [] false MBoth;
  (* repeated.proto:35 *) mkMsg "RepeatedDuration" [mkField "Val" (FRep TDur) (FR None (Some (RRepeated (mkRepRules None None None (Some (FR None (Some (RDuration (mkDurationRules None None None None None (Some (mkSN 0 1000000)) [] []))))) None))))] [] false MBoth;
  (* repeated.proto:36 *) mkMsg "RepeatedExactIgnore" [mkField "Val" (FRep (TNum KUInt32)) (FR None (Some (RRepeated (mkRepRules (Some 3%N) (Some 3%N) None None (Some true)))))] [] false MBoth;
  (* strings.proto:7 *) mkMsg "StringNone" [mkField "Val" (FOne TString) fr_none] [] false MBoth;
  (* strings.proto:8 *) mkMsg "StringConst" [mkField "Val" (FOne TString) (FR None (Some (RString (mkStringRules (Some (bs "foo")) None None None None None None None None None None None [] [] None None None))))] [] false MBoth;
  (* strings.proto:9 *) mkMsg "StringIn" [mkField "Val" (FOne TString) (FR None (Some (RString (mkStringRules None None None None None None None None None None None None [(bs "bar"); (bs "baz")] [] None None None))))] [] false MBoth;
  (* strings.proto:10 *) mkMsg "StringNotIn" [mkField "Val" (FOne TString) (FR None (Some (RString (mkStringRules None None None None None None None None None None None None [] [(bs "fizz"); (bs "buzz")] None None None))))] [] false MBoth;
  (* strings.proto:11 *) mkMsg "StringLen" [mkField "Val" (FOne TString) (FR None (Some (RString (mkStringRules None (Some 3%N) None None None None None None None None None None [] [] None None None))))] [] false MBoth;
  (* strings.proto:12 *) mkMsg "StringMinLen" [mkField "Val" (FOne TString) (FR None (Some (RString (mkStringRules None None (Some 3%N) None None None None None None None None None [] [] None None None))))] [] false MBoth;
  (* strings.proto:13 *) mkMsg "StringMaxLen" [mkField "Val" (FOne TString) (FR None (Some (RString (mkStringRules None None None (Some 5%N) None None None None None None None None [] [] None None None))))] [] false MBoth;
  (* strings.proto:14 *) mkMsg "StringMinMaxLen" [mkField "Val" (FOne TString) (FR None (Some (RString (mkStringRules None None (Some 3%N) (Some 5%N) None None None None None None None None [] [] None None None))))] [] false MBoth;
  (* strings.proto:15 *) mkMsg "StringEqualMinMaxLen" [mkField "Val" (FOne TString) (FR None (Some (RString (mkStringRules None None (Some 5%N) (Some 5%N) None None None None None None None None [] [] None None None))))] [] false MBoth;
  (* strings.proto:16 *) mkMsg "StringLenBytes" [mkField "Val" (FOne TString) (FR None (Some (RString (mkStringRules None None None None (Some 4%N) None None None None None None None [] [] None None None))))] [] false MBoth;
  (* strings.proto:17 *) mkMsg "StringMinBytes" [mkField "Val" (FOne TString) (FR None (Some (RString (mkStringRules None None None None None (Some 4%N) None None None None None None [] [] None None None))))] [] false MBoth;
  (* strings.proto:18 *) mkMsg "StringMaxBytes" [mkField "Val" (FOne TString) (FR None (Some (RString (mkStringRules None None None None None None (Some 8%N) None None None None None [] [] None None None))))] [] false MBoth;
  (* strings.proto:19 *) mkMsg "StringMinMaxBytes" [mkField "Val" (FOne TString) (FR None (Some (RString (mkStringRules None None None None None (Some 4%N) (Some 8%N) None None None None None [] [] None None None))))] [] false MBoth;
  (* strings.proto:20 *) mkMsg "StringEqualMinMaxBytes" [mkField "Val" (FOne TString) (FR None (Some (RString (mkStringRules None None None None None (Some 4%N) (Some 8%N) None None None None None [] [] None None None))))] [] false MBoth;
  (* strings.proto:21 *) mkMsg "StringPattern" [mkField "Val" (FOne TString) (FR None (Some (RString (mkStringRules None None None None None None None (Some (bs "(?i)^[a-z0-9]+$")) None None None None [] [] None None None))))] [] false MBoth;
  (* strings.proto:22 *) mkMsg "StringPatternEscapes" [mkField "Val" (FOne TString) (FR None (Some (RString (mkStringRules None None None None None None None (Some (bs "\* \\ \w")) None None None None [] [] None None None))))] [] false MBoth;
  (* strings.proto:23 *) mkMsg "StringPrefix" [mkField "Val" (FOne TString) (FR None (Some (RString (mkStringRules None None None None None None None None (Some (bs "foo")) None None None [] [] None None None))))] [] false MBoth;
  (* strings.proto:24 *) mkMsg "StringContains" [mkField "Val" (FOne TString) (FR None (Some (RString (mkStringRules None None None None None None None None None None (Some (bs "bar")) None [] [] None None None))))] [] false MBoth;
  (* strings.proto:25 *) mkMsg "StringNotContains" [mkField "Val" (FOne TString) (FR None (Some (RString (mkStringRules None None None None None None None None None None None (Some (bs "bar")) [] [] None None None))))] [] false MBoth;
  (* strings.proto:26 *) mkMsg "StringSuffix" [mkField "Val" (FOne TString) (FR None (Some (RString (mkStringRules None None None None None None None None None (Some (bs "baz")) None None [] [] None None None))))] [] false MBoth;
  (* strings.proto:27 *) mkMsg "StringEmail" [mkField "Val" (FOne TString) (FR None (Some (RString (mkStringRules None None None None None None None None None None None None [] [] (Some (WEmail true)) None None))))] [] false MBoth;
  (* strings.proto:28 *) mkMsg "StringAddress" [mkField "Val" (FOne TString) (FR None (Some (RString (mkStringRules None None None None None None None None None None None None [] [] (Some (WAddress true)) None None))))] [] false MBoth;
  (* strings.proto:29 *) mkMsg "StringHostname" [mkField "Val" (FOne TString) (FR None (Some (RString (mkStringRules None None None None None None None None None None None None [] [] (Some (WHostname true)) None None))))] [] false MBoth;
  (* strings.proto:30 *) mkMsg "StringIP" [mkField "Val" (FOne TString) (FR None (Some (RString (mkStringRules None None None None None None None None None None None None [] [] (Some (WIp true)) None None))))] [] false MBoth;
  (* strings.proto:31 *) mkMsg "StringIPv4" [mkField "Val" (FOne TString) (FR None (Some (RString (mkStringRules None None None None None None None None None None None None [] [] (Some (WIpv4 true)) None None))))] [] false MBoth;
  (* strings.proto:32 *) mkMsg "StringIPv6" [mkField "Val" (FOne TString) (FR None (Some (RString (mkStringRules None None None None None None None None None None None None [] [] (Some (WIpv6 true)) None None))))] [] false MBoth;
  (* strings.proto:33 *) mkMsg "StringURI" [mkField "Val" (FOne TString) (FR None (Some (RString (mkStringRules None None None None None None None None None None None None [] [] (Some (WUri true)) None None))))] [] false MBoth;
  (* strings.proto:34 *) mkMsg "StringURIRef" [mkField "Val" (FOne TString) (FR None (Some (RString (mkStringRules None None None None None None None None None None None None [] [] (Some (WUriRef true)) None None))))] [] false MBoth;
  (* strings.proto:35 *) mkMsg "StringUUID" [mkField "Val" (FOne TString) (FR None (Some (RString (mkStringRules None None None None None None None None None None None None [] [] (Some (WUuid true)) None None))))] [] false MBoth;
  (* strings.proto:36 *) mkMsg "StringHttpHeaderName" [mkField "Val" (FOne TString) (FR None (Some (RString (mkStringRules None None None None None None None None None None None None [] [] (Some (WRegex KRHeaderName)) None None))))] [] false MBoth;
  (* strings.proto:37 *) mkMsg "StringHttpHeaderValue" [mkField "Val" (FOne TString) (FR None (Some (RString (mkStringRules None None None None None None None None None None None None [] [] (Some (WRegex KRHeaderValue)) None None))))] [] false MBoth;
  (* strings.proto:38 *) mkMsg "StringValidHeader" [mkField "Val" (FOne TString) (FR None (Some (RString (mkStringRules None None None None None None None None None None None None [] [] (Some (WRegex KRHeaderValue)) (Some false) None))))] [] false MBoth;
  (* strings.proto:39 *) mkMsg "StringUUIDIgnore" [mkField "Val" (FOne TString) (FR None (Some (RString (mkStringRules None None None None None None None None None None None None [] [] (Some (WUuid true)) None (Some true)))))] [] false MBoth;
  (* wkt_any.proto:8 *) mkMsg "AnyNone" [mkField "Val" (FOne TAny) fr_none] [] false MBoth;
  (* wkt_any.proto:9 *) mkMsg "AnyRequired" [mkField "Val" (FOne TAny) (FR None (Some (RAny (mkAnyRules (Some true) [] []))))] [] false MBoth;
  (* wkt_any.proto:10 *) mkMsg "AnyIn" [mkField "Val" (FOne TAny) (FR None (Some (RAny (mkAnyRules None [(bs "type.googleapis.com/google.protobuf.Duration")] []))))] [] false MBoth;
  (* wkt_any.proto:11 *) mkMsg "AnyNotIn" [mkField "Val" (FOne TAny) (FR None (Some (RAny (mkAnyRules None [] [(bs "type.googleapis.com/google.protobuf.Timestamp")]))))] [] false MBoth;
  (* wkt_duration.proto:9 *) mkMsg "DurationNone" [mkField "Val" (FOne TDur) fr_none] [] false MBoth;
  (* wkt_duration.proto:11 *) mkMsg "DurationRequired" [mkField "Val" (FOne TDur) (FR None (Some (RDuration (mkDurationRules (Some true) None None None None None [] []))))] [] false MBoth;
  (* wkt_duration.proto:14 *) mkMsg "DurationConst" [mkField "Val" (FOne TDur) (FR None (Some (RDuration (mkDurationRules None (Some (mkSN 3 0)) None None None None [] []))))] [] false MBoth;
  (* wkt_duration.proto:16 *) mkMsg "DurationIn" [mkField "Val" (FOne TDur) (FR None (Some (RDuration (mkDurationRules None None None None None None [(mkSN 1 0); (mkSN 0 1000)] []))))] [] false MBoth;
  (* wkt_duration.proto:17 *) mkMsg "DurationNotIn" [mkField "Val" (FOne TDur) (FR None (Some (RDuration (mkDurationRules None None None None None None [] [(mkSN 0 0)]))))] [] false MBoth;
  (* wkt_duration.proto:19 *) mkMsg "DurationLT" [mkField "Val" (FOne TDur) (FR None (Some (RDuration (mkDurationRules None None (Some (mkSN 0 0)) None None None [] []))))] [] false MBoth;
  (* wkt_duration.proto:20 *) mkMsg "DurationLTE" [mkField "Val" (FOne TDur) (FR None (Some (RDuration (mkDurationRules None None None (Some (mkSN 1 0)) None None [] []))))] [] false MBoth;
  (* wkt_duration.proto:21 *) mkMsg "DurationGT" [mkField "Val" (FOne TDur) (FR None (Some (RDuration (mkDurationRules None None None None (Some (mkSN 0 1000)) None [] []))))] [] false MBoth;
  (* wkt_duration.proto:22 *) mkMsg "DurationGTE" [mkField "Val" (FOne TDur) (FR None (Some (RDuration (mkDurationRules None None None None None (Some (mkSN 0 1000000)) [] []))))] [] false MBoth;
  (* wkt_duration.proto:23 *) mkMsg "DurationGTLT" [mkField "Val" (FOne TDur) (FR None (Some (RDuration (mkDurationRules None None (Some (mkSN 1 0)) None (Some (mkSN 0 0)) None [] []))))] [] false MBoth;
  (* wkt_duration.proto:24 *) mkMsg "DurationExLTGT" [mkField "Val" (FOne TDur) (FR None (Some (RDuration (mkDurationRules None None (Some (mkSN 0 0)) None (Some (mkSN 1 0)) None [] []))))] [] false MBoth;
  (* wkt_duration.proto:25 *) mkMsg "DurationGTELTE" [mkField "Val" (FOne TDur) (FR None (Some (RDuration (mkDurationRules None None None (Some (mkSN 3600 0)) None (Some (mkSN 60 0)) [] []))))] [] false MBoth;
  (* wkt_duration.proto:26 *) mkMsg "DurationExGTELTE" [mkField "Val" (FOne TDur) (FR None (Some (RDuration (mkDurationRules None None None (Some (mkSN 60 0)) None (Some (mkSN 3600 0)) [] []))))] [] false MBoth;
  (* wkt_duration.proto:30 *) mkMsg "DurationFieldWithOtherFields" [mkField "DurationVal" (FOne TDur) (FR None (Some (RDuration (mkDurationRules None None None (Some (mkSN 1 0)) None None [] [])))); mkField "IntVal" (FOne (TNum KInt32)) (FR None (Some (RNum KInt32 (mkNumRules None None None (Some (NI 16)) None [] [] None))))] [] false MBoth;
  (* wkt_timestamp.proto:8 *) mkMsg "TimestampNone" [mkField "Val" (FOne TTs) fr_none] [] false MBoth;
  (* wkt_timestamp.proto:9 *) mkMsg "TimestampRequired" [mkField "Val" (FOne TTs) (FR None (Some (RTimestamp (mkTimestampRules (Some true) None None None None None None None None))))] [] false MBoth;
  (* wkt_timestamp.proto:10 *) mkMsg "TimestampConst" [mkField "Val" (FOne TTs) (FR None (Some (RTimestamp (mkTimestampRules None (Some (mkSN 3 0)) None None None None None None None))))] [] false MBoth;
  (* wkt_timestamp.proto:12 *) mkMsg "TimestampLT" [mkField "Val" (FOne TTs) (FR None (Some (RTimestamp (mkTimestampRules None None (Some (mkSN 0 0)) None None None None None None))))] [] false MBoth;
  (* wkt_timestamp.proto:13 *) mkMsg "TimestampLTE" [mkField "Val" (FOne TTs) (FR None (Some (RTimestamp (mkTimestampRules None None None (Some (mkSN 1 0)) None None None None None))))] [] false MBoth;
  (* wkt_timestamp.proto:14 *) mkMsg "TimestampGT" [mkField "Val" (FOne TTs) (FR None (Some (RTimestamp (mkTimestampRules None None None None (Some (mkSN 0 1000)) None None None None))))] [] false MBoth;
  (* wkt_timestamp.proto:15 *) mkMsg "TimestampGTE" [mkField "Val" (FOne TTs) (FR None (Some (RTimestamp (mkTimestampRules None None None None None (Some (mkSN 0 1000000)) None None None))))] [] false MBoth;
  (* wkt_timestamp.proto:16 *) mkMsg "TimestampGTLT" [mkField "Val" (FOne TTs) (FR None (Some (RTimestamp (mkTimestampRules None None (Some (mkSN 1 0)) None (Some (mkSN 0 0)) None None None None))))] [] false MBoth;
  (* wkt_timestamp.proto:17 *) mkMsg "TimestampExLTGT" [mkField "Val" (FOne TTs) (FR None (Some (RTimestamp (mkTimestampRules None None (Some (mkSN 0 0)) None (Some (mkSN 1 0)) None None None None))))] [] false MBoth;
  (* wkt_timestamp.proto:18 *) mkMsg "TimestampGTELTE" [mkField "Val" (FOne TTs) (FR None (Some (RTimestamp (mkTimestampRules None None None (Some (mkSN 3600 0)) None (Some (mkSN 60 0)) None None None))))] [] false MBoth;
  (* wkt_timestamp.proto:19 *) mkMsg "TimestampExGTELTE" [mkField "Val" (FOne TTs) (FR None (Some (RTimestamp (mkTimestampRules None None None (Some (mkSN 60 0)) None (Some (mkSN 3600 0)) None None None))))] [] false MBoth;
  (* wkt_timestamp.proto:21 *) mkMsg "TimestampLTNow" [mkField "Val" (FOne TTs) (FR None (Some (RTimestamp (mkTimestampRules None None None None None None (Some true) None None))))] [] false MBoth;
  (* wkt_timestamp.proto:22 *) mkMsg "TimestampGTNow" [mkField "Val" (FOne TTs) (FR None (Some (RTimestamp (mkTimestampRules None None None None None None None (Some true) None))))] [] false MBoth;
  (* wkt_timestamp.proto:24 *) mkMsg "TimestampWithin" [mkField "Val" (FOne TTs) (FR None (Some (RTimestamp (mkTimestampRules None None None None None None None None (Some (mkSN 3600 0))))))] [] false MBoth;
  (* wkt_timestamp.proto:26 *) mkMsg "TimestampLTNowWithin" [mkField "Val" (FOne TTs) (FR None (Some (RTimestamp (mkTimestampRules None None None None None None (Some true) None (Some (mkSN 3600 0))))))] [] false MBoth;
  (* wkt_timestamp.proto:27 *) mkMsg "TimestampGTNowWithin" [mkField "Val" (FOne TTs) (FR None (Some (RTimestamp (mkTimestampRules None None None None None None None (Some true) (Some (mkSN 3600 0))))))] [] false MBoth;
  (* wkt_wrappers.proto:8 *) mkMsg "WrapperNone" [mkField "Val" (FOne (TWrap WkInt32)) fr_none] [] false MBoth;
  (* wkt_wrappers.proto:10 *) mkMsg "WrapperFloat" [mkField "Val" (FOne (TWrap WkFloat)) (FR None (Some (RNum KFloat (mkNumRules None None None (Some (NF (S754_zero false))) None [] [] None))))] [] false MBoth;
  (* wkt_wrappers.proto:11 *) mkMsg "WrapperDouble" [mkField "Val" (FOne (TWrap WkDouble)) (FR None (Some (RNum KDouble (mkNumRules None None None (Some (NF (S754_zero false))) None [] [] None))))] [] false MBoth;
  (* wkt_wrappers.proto:12 *) mkMsg "WrapperInt64" [mkField "Val" (FOne (TWrap WkInt64)) (FR None (Some (RNum KInt64 (mkNumRules None None None (Some (NI 0)) None [] [] None))))] [] false MBoth;
  (* wkt_wrappers.proto:13 *) mkMsg "WrapperInt32" [mkField "Val" (FOne (TWrap WkInt32)) (FR None (Some (RNum KInt32 (mkNumRules None None None (Some (NI 0)) None [] [] None))))] [] false MBoth;
  (* wkt_wrappers.proto:14 *) mkMsg "WrapperUInt64" [mkField "Val" (FOne (TWrap WkUInt64)) (FR None (Some (RNum KUInt64 (mkNumRules None None None (Some (NI 0)) None [] [] None))))] [] false MBoth;
  (* wkt_wrappers.proto:15 *) mkMsg "WrapperUInt32" [mkField "Val" (FOne (TWrap WkUInt32)) (FR None (Some (RNum KUInt32 (mkNumRules None None None (Some (NI 0)) None [] [] None))))] [] false MBoth;
  (* wkt_wrappers.proto:16 *) mkMsg "WrapperBool" [mkField "Val" (FOne (TWrap WkBool)) (FR None (Some (RBool (Some true))))] [] false MBoth;
  (* wkt_wrappers.proto:17 *) mkMsg "WrapperString" [mkField "Val" (FOne (TWrap WkString)) (FR None (Some (RString (mkStringRules None None None None None None None None None (Some (bs "bar")) None None [] [] None None None))))] [] false MBoth;
  (* wkt_wrappers.proto:18 *) mkMsg "WrapperBytes" [mkField "Val" (FOne (TWrap WkBytes)) (FR None (Some (RBytes (mkBytesRules None None (Some 3%N) None None None None None [] [] None None))))] [] false MBoth;
  (* wkt_wrappers.proto:19 *) mkMsg "WrapperRequiredString" [mkField "Val" (FOne (TWrap WkString)) (FR (Some (mkMessageRules None (Some true))) (Some (RString (mkStringRules (Some (bs "bar")) None None None None None None None None None None None [] [] None None None))))] [] false MBoth;
  (* wkt_wrappers.proto:20 *) mkMsg "WrapperRequiredEmptyString" [mkField "Val" (FOne (TWrap WkString)) (FR (Some (mkMessageRules None (Some true))) (Some (RString (mkStringRules (Some []%N) None None None None None None None None None None None [] [] None None None))))] [] false MBoth;
  (* wkt_wrappers.proto:21 *) mkMsg "WrapperOptionalUuidString" [mkField "Val" (FOne (TWrap WkString)) (FR (Some (mkMessageRules None (Some false))) (Some (RString (mkStringRules None None None None None None None None None None None None [] [] (Some (WUuid true)) None None))))] [] false MBoth;
  (* wkt_wrappers.proto:22 *) mkMsg "WrapperRequiredFloat" [mkField "Val" (FOne (TWrap WkFloat)) (FR (Some (mkMessageRules None (Some true))) (Some (RNum KFloat (mkNumRules None None None (Some (NF (S754_zero false))) None [] [] None))))] [] false MBoth
] [
  mkEnum "TestEnum" [0; 1; 2];
  mkEnum "TestEnumAlias" [0; 1; 2; 0; 1; 2];
  mkEnum "ComplexTestEnum" [0; 1; 2];
  mkEnum "other_package.Embed_Enumerated" [0];
  mkEnum "AnEnum" [0; 1];
  mkEnum "RepeatedEmbeddedEnumIn_AnotherInEnum" [0; 1];
  mkEnum "RepeatedEmbeddedEnumNotIn_AnotherNotInEnum" [0; 1]
] [
  "BoolNone";
  "BoolConstTrue";
  "BoolConstFalse";
  "BytesNone";
  "BytesConst";
  "BytesIn";
  "BytesNotIn";
  "BytesLen";
  "BytesMinLen";
  "BytesMaxLen";
  "BytesMinMaxLen";
  "BytesEqualMinMaxLen";
  "BytesPattern";
  "BytesPrefix";
  "BytesContains";
  "BytesSuffix";
  "BytesIP";
  "BytesIPv4";
  "BytesIPv6";
  "BytesIPv6Ignore";
  "EnumNone";
  "EnumConst";
  "EnumAliasConst";
  "EnumDefined";
  "EnumAliasDefined";
  "EnumIn";
  "EnumAliasIn";
  "EnumNotIn";
  "EnumAliasNotIn";
  "EnumExternal";
  "RepeatedEnumDefined";
  "RepeatedExternalEnumDefined";
  "MapEnumDefined";
  "MapExternalEnumDefined";
  "ComplexTestMsg";
  "KitchenSinkMessage";
  "MapNone";
  "MapMin";
  "MapMax";
  "MapMinMax";
  "MapExact";
  "MapNoSparse";
  "MapKeys";
  "MapValues";
  "MapKeysPattern";
  "MapValuesPattern";
  "MapRecursive";
  "MapExactIgnore";
  "TestMsg";
  "MessageNone";
  "MessageDisabled";
  "MessageIgnored";
  "Message";
  "MessageCrossPackage";
  "MessageSkip";
  "MessageRequired";
  "MessageRequiredOneof";
  "MessageWith3dInside";
  "FloatNone";
  "FloatConst";
  "FloatIn";
  "FloatNotIn";
  "FloatLT";
  "FloatLTE";
  "FloatGT";
  "FloatGTE";
  "FloatGTLT";
  "FloatExLTGT";
  "FloatGTELTE";
  "FloatExGTELTE";
  "FloatIgnore";
  "DoubleNone";
  "DoubleConst";
  "DoubleIn";
  "DoubleNotIn";
  "DoubleLT";
  "DoubleLTE";
  "DoubleGT";
  "DoubleGTE";
  "DoubleGTLT";
  "DoubleExLTGT";
  "DoubleGTELTE";
  "DoubleExGTELTE";
  "DoubleIgnore";
  "Int32None";
  "Int32Const";
  "Int32In";
  "Int32NotIn";
  "Int32LT";
  "Int32LTE";
  "Int32GT";
  "Int32GTE";
  "Int32GTLT";
  "Int32ExLTGT";
  "Int32GTELTE";
  "Int32ExGTELTE";
  "Int32Ignore";
  "Int64None";
  "Int64Const";
  "Int64In";
  "Int64NotIn";
  "Int64LT";
  "Int64LTE";
  "Int64GT";
  "Int64GTE";
  "Int64GTLT";
  "Int64ExLTGT";
  "Int64GTELTE";
  "Int64ExGTELTE";
  "Int64Ignore";
  "UInt32None";
  "UInt32Const";
  "UInt32In";
  "UInt32NotIn";
  "UInt32LT";
  "UInt32LTE";
  "UInt32GT";
  "UInt32GTE";
  "UInt32GTLT";
  "UInt32ExLTGT";
  "UInt32GTELTE";
  "UInt32ExGTELTE";
  "UInt32Ignore";
  "UInt64None";
  "UInt64Const";
  "UInt64In";
  "UInt64NotIn";
  "UInt64LT";
  "UInt64LTE";
  "UInt64GT";
  "UInt64GTE";
  "UInt64GTLT";
  "UInt64ExLTGT";
  "UInt64GTELTE";
  "UInt64ExGTELTE";
  "UInt64Ignore";
  "SInt32None";
  "SInt32Const";
  "SInt32In";
  "SInt32NotIn";
  "SInt32LT";
  "SInt32LTE";
  "SInt32GT";
  "SInt32GTE";
  "SInt32GTLT";
  "SInt32ExLTGT";
  "SInt32GTELTE";
  "SInt32ExGTELTE";
  "SInt32Ignore";
  "SInt64None";
  "SInt64Const";
  "SInt64In";
  "SInt64NotIn";
  "SInt64LT";
  "SInt64LTE";
  "SInt64GT";
  "SInt64GTE";
  "SInt64GTLT";
  "SInt64ExLTGT";
  "SInt64GTELTE";
  "SInt64ExGTELTE";
  "SInt64Ignore";
  "Fixed32None";
  "Fixed32Const";
  "Fixed32In";
  "Fixed32NotIn";
  "Fixed32LT";
  "Fixed32LTE";
  "Fixed32GT";
  "Fixed32GTE";
  "Fixed32GTLT";
  "Fixed32ExLTGT";
  "Fixed32GTELTE";
  "Fixed32ExGTELTE";
  "Fixed32Ignore";
  "Fixed64None";
  "Fixed64Const";
  "Fixed64In";
  "Fixed64NotIn";
  "Fixed64LT";
  "Fixed64LTE";
  "Fixed64GT";
  "Fixed64GTE";
  "Fixed64GTLT";
  "Fixed64ExLTGT";
  "Fixed64GTELTE";
  "Fixed64ExGTELTE";
  "Fixed64Ignore";
  "SFixed32None";
  "SFixed32Const";
  "SFixed32In";
  "SFixed32NotIn";
  "SFixed32LT";
  "SFixed32LTE";
  "SFixed32GT";
  "SFixed32GTE";
  "SFixed32GTLT";
  "SFixed32ExLTGT";
  "SFixed32GTELTE";
  "SFixed32ExGTELTE";
  "SFixed32Ignore";
  "SFixed64None";
  "SFixed64Const";
  "SFixed64In";
  "SFixed64NotIn";
  "SFixed64LT";
  "SFixed64LTE";
  "SFixed64GT";
  "SFixed64GTE";
  "SFixed64GTLT";
  "SFixed64ExLTGT";
  "SFixed64GTELTE";
  "SFixed64ExGTELTE";
  "SFixed64Ignore";
  "TestOneOfMsg";
  "OneOfNone";
  "OneOf";
  "OneOfRequired";
  "other_package.Embed";
  "Embed";
  "RepeatedNone";
  "RepeatedEmbedNone";
  "RepeatedEmbedCrossPackageNone";
  "RepeatedMin";
  "RepeatedMax";
  "RepeatedMinMax";
  "RepeatedExact";
  "RepeatedUnique";
  "RepeatedItemRule";
  "RepeatedItemPattern";
  "RepeatedEmbedSkip";
  "RepeatedItemIn";
  "RepeatedItemNotIn";
  "RepeatedEnumIn";
  "RepeatedEnumNotIn";
  "RepeatedEmbeddedEnumIn";
  "RepeatedEmbeddedEnumNotIn";
  "RepeatedMinAndItemLen";
  "RepeatedMinAndMaxItemLen";
  "RepeatedDuration";
  "RepeatedExactIgnore";
  "StringNone";
  "StringConst";
  "StringIn";
  "StringNotIn";
  "StringLen";
  "StringMinLen";
  "StringMaxLen";
  "StringMinMaxLen";
  "StringEqualMinMaxLen";
  "StringLenBytes";
  "StringMinBytes";
  "StringMaxBytes";
  "StringMinMaxBytes";
  "StringEqualMinMaxBytes";
  "StringPattern";
  "StringPatternEscapes";
  "StringPrefix";
  "StringContains";
  "StringNotContains";
  "StringSuffix";
  "StringEmail";
  "StringAddress";
  "StringHostname";
  "StringIP";
  "StringIPv4";
  "StringIPv6";
  "StringURI";
  "StringURIRef";
  "StringUUID";
  "StringHttpHeaderName";
  "StringHttpHeaderValue";
  "StringValidHeader";
  "StringUUIDIgnore";
  "AnyNone";
  "AnyRequired";
  "AnyIn";
  "AnyNotIn";
  "DurationNone";
  "DurationRequired";
  "DurationConst";
  "DurationIn";
  "DurationNotIn";
  "DurationLT";
  "DurationLTE";
  "DurationGT";
  "DurationGTE";
  "DurationGTLT";
  "DurationExLTGT";
  "DurationGTELTE";
  "DurationExGTELTE";
  "DurationFieldWithOtherFields";
  "TimestampNone";
  "TimestampRequired";
  "TimestampConst";
  "TimestampLT";
  "TimestampLTE";
  "TimestampGT";
  "TimestampGTE";
  "TimestampGTLT";
  "TimestampExLTGT";
  "TimestampGTELTE";
  "TimestampExGTELTE";
  "TimestampLTNow";
  "TimestampGTNow";
  "TimestampWithin";
  "TimestampLTNowWithin";
  "TimestampGTNowWithin";
  "WrapperNone";
  "WrapperFloat";
  "WrapperDouble";
  "WrapperInt64";
  "WrapperInt32";
  "WrapperUInt64";
  "WrapperUInt32";
  "WrapperBool";
  "WrapperString";
  "WrapperBytes";
  "WrapperRequiredString";
  "WrapperRequiredEmptyString";
  "WrapperOptionalUuidString";
  "WrapperRequiredFloat"
].

Definition suite_ignored (n : string) : bool := existsb (String.eqb n) ["MessageIgnored"].

(** tests/harness/executor/cases.go: the line of the case, the type, the message, the number of failures. *)
Definition suite_floatCases (now : Z) : list (Z * string * msgval * Z) := [
  (63, "FloatNone", (MV [("Val", VNum (NF (S754_finite true 10356240 (-23))))] []), 0);
  (65, "FloatConst", (MV [("Val", VNum (NF (S754_finite false 10317988 (-23))))] []), 0);
  (66, "FloatConst", (MV [("Val", VNum (NF (S754_finite false 9563013 (-21))))] []), 1);
  (68, "FloatIn", (MV [("Val", VNum (NF (S754_finite false 16546529 (-21))))] []), 0);
  (69, "FloatIn", (MV [("Val", VNum (NF (S754_finite false 10601103 (-20))))] []), 1);
  (71, "FloatNotIn", (MV [("Val", VNum (NF (S754_finite false 8388608 (-23))))] []), 0);
  (72, "FloatNotIn", (MV [("Val", VNum (NF (S754_zero false)))] []), 1);
  (74, "FloatLT", (MV [("Val", VNum (NF (S754_finite true 8388608 (-23))))] []), 0);
  (75, "FloatLT", (MV [("Val", VNum (NF (S754_zero false)))] []), 1);
  (76, "FloatLT", (MV [("Val", VNum (NF (S754_finite false 8388608 (-23))))] []), 1);
  (78, "FloatLTE", (MV [("Val", VNum (NF (S754_finite false 16515072 (-18))))] []), 0);
  (79, "FloatLTE", (MV [("Val", VNum (NF (S754_finite false 8388608 (-17))))] []), 0);
  (80, "FloatLTE", (MV [("Val", VNum (NF (S754_finite false 8519680 (-17))))] []), 1);
  (82, "FloatGT", (MV [("Val", VNum (NF (S754_finite false 8912896 (-19))))] []), 0);
  (83, "FloatGT", (MV [("Val", VNum (NF (S754_finite false 8388608 (-19))))] []), 1);
  (84, "FloatGT", (MV [("Val", VNum (NF (S754_finite false 15728640 (-20))))] []), 1);
  (86, "FloatGTE", (MV [("Val", VNum (NF (S754_finite false 9437184 (-20))))] []), 0);
  (87, "FloatGTE", (MV [("Val", VNum (NF (S754_finite false 8388608 (-20))))] []), 0);
  (88, "FloatGTE", (MV [("Val", VNum (NF (S754_finite false 14680064 (-21))))] []), 1);
  (90, "FloatGTLT", (MV [("Val", VNum (NF (S754_finite false 10485760 (-21))))] []), 0);
  (91, "FloatGTLT", (MV [("Val", VNum (NF (S754_finite false 11534336 (-20))))] []), 1);
  (92, "FloatGTLT", (MV [("Val", VNum (NF (S754_finite true 8388608 (-23))))] []), 1);
  (93, "FloatGTLT", (MV [("Val", VNum (NF (S754_finite false 10485760 (-20))))] []), 1);
  (94, "FloatGTLT", (MV [("Val", VNum (NF (S754_zero false)))] []), 1);
  (96, "FloatExLTGT", (MV [("Val", VNum (NF (S754_finite false 11534336 (-20))))] []), 0);
  (97, "FloatExLTGT", (MV [("Val", VNum (NF (S754_finite true 8388608 (-23))))] []), 0);
  (98, "FloatExLTGT", (MV [("Val", VNum (NF (S754_finite false 10485760 (-21))))] []), 1);
  (99, "FloatExLTGT", (MV [("Val", VNum (NF (S754_finite false 10485760 (-20))))] []), 1);
  (100, "FloatExLTGT", (MV [("Val", VNum (NF (S754_zero false)))] []), 1);
  (102, "FloatGTELTE", (MV [("Val", VNum (NF (S754_finite false 13107200 (-16))))] []), 0);
  (103, "FloatGTELTE", (MV [("Val", VNum (NF (S754_finite false 8388608 (-15))))] []), 0);
  (104, "FloatGTELTE", (MV [("Val", VNum (NF (S754_finite false 8388608 (-16))))] []), 0);
  (105, "FloatGTELTE", (MV [("Val", VNum (NF (S754_finite false 9830400 (-15))))] []), 1);
  (106, "FloatGTELTE", (MV [("Val", VNum (NF (S754_finite false 13107200 (-17))))] []), 1);
  (108, "FloatExGTELTE", (MV [("Val", VNum (NF (S754_finite false 9830400 (-15))))] []), 0);
  (109, "FloatExGTELTE", (MV [("Val", VNum (NF (S754_finite false 13107200 (-17))))] []), 0);
  (110, "FloatExGTELTE", (MV [("Val", VNum (NF (S754_finite false 8388608 (-15))))] []), 0);
  (111, "FloatExGTELTE", (MV [("Val", VNum (NF (S754_finite false 8388608 (-16))))] []), 0);
  (112, "FloatExGTELTE", (MV [("Val", VNum (NF (S754_finite false 13107200 (-16))))] []), 1);
  (114, "FloatIgnore", (MV [("Val", VNum (NF (S754_zero false)))] []), 0)
].
Definition suite_doubleCases (now : Z) : list (Z * string * msgval * Z) := [
  (118, "DoubleNone", (MV [("Val", VNum (NF (S754_finite true 5559963955966520 (-52))))] []), 0);
  (120, "DoubleConst", (MV [("Val", VNum (NF (S754_finite false 5539427541665710 (-52))))] []), 0);
  (121, "DoubleConst", (MV [("Val", VNum (NF (S754_finite false 5134103575202365 (-50))))] []), 1);
  (123, "DoubleIn", (MV [("Val", VNum (NF (S754_finite false 8883350264988303 (-50))))] []), 0);
  (124, "DoubleIn", (MV [("Val", VNum (NF (S754_finite false 5691424029089464 (-49))))] []), 1);
  (126, "DoubleNotIn", (MV [("Val", VNum (NF (S754_finite false 4503599627370496 (-52))))] []), 0);
  (127, "DoubleNotIn", (MV [("Val", VNum (NF (S754_zero false)))] []), 1);
  (129, "DoubleLT", (MV [("Val", VNum (NF (S754_finite true 4503599627370496 (-52))))] []), 0);
  (130, "DoubleLT", (MV [("Val", VNum (NF (S754_zero false)))] []), 1);
  (131, "DoubleLT", (MV [("Val", VNum (NF (S754_finite false 4503599627370496 (-52))))] []), 1);
  (133, "DoubleLTE", (MV [("Val", VNum (NF (S754_finite false 8866461766385664 (-47))))] []), 0);
  (134, "DoubleLTE", (MV [("Val", VNum (NF (S754_finite false 4503599627370496 (-46))))] []), 0);
  (135, "DoubleLTE", (MV [("Val", VNum (NF (S754_finite false 4573968371548160 (-46))))] []), 1);
  (137, "DoubleGT", (MV [("Val", VNum (NF (S754_finite false 4785074604081152 (-48))))] []), 0);
  (138, "DoubleGT", (MV [("Val", VNum (NF (S754_finite false 4503599627370496 (-48))))] []), 1);
  (139, "DoubleGT", (MV [("Val", VNum (NF (S754_finite false 8444249301319680 (-49))))] []), 1);
  (141, "DoubleGTE", (MV [("Val", VNum (NF (S754_finite false 5066549580791808 (-49))))] []), 0);
  (142, "DoubleGTE", (MV [("Val", VNum (NF (S754_finite false 4503599627370496 (-49))))] []), 0);
  (143, "DoubleGTE", (MV [("Val", VNum (NF (S754_finite false 7881299347898368 (-50))))] []), 1);
  (145, "DoubleGTLT", (MV [("Val", VNum (NF (S754_finite false 5629499534213120 (-50))))] []), 0);
  (146, "DoubleGTLT", (MV [("Val", VNum (NF (S754_finite false 6192449487634432 (-49))))] []), 1);
  (147, "DoubleGTLT", (MV [("Val", VNum (NF (S754_finite true 4503599627370496 (-52))))] []), 1);
  (148, "DoubleGTLT", (MV [("Val", VNum (NF (S754_finite false 5629499534213120 (-49))))] []), 1);
  (149, "DoubleGTLT", (MV [("Val", VNum (NF (S754_zero false)))] []), 1);
  (151, "DoubleExLTGT", (MV [("Val", VNum (NF (S754_finite false 6192449487634432 (-49))))] []), 0);
  (152, "DoubleExLTGT", (MV [("Val", VNum (NF (S754_finite true 4503599627370496 (-52))))] []), 0);
  (153, "DoubleExLTGT", (MV [("Val", VNum (NF (S754_finite false 5629499534213120 (-50))))] []), 1);
  (154, "DoubleExLTGT", (MV [("Val", VNum (NF (S754_finite false 5629499534213120 (-49))))] []), 1);
  (155, "DoubleExLTGT", (MV [("Val", VNum (NF (S754_zero false)))] []), 1);
  (157, "DoubleGTELTE", (MV [("Val", VNum (NF (S754_finite false 7036874417766400 (-45))))] []), 0);
  (158, "DoubleGTELTE", (MV [("Val", VNum (NF (S754_finite false 4503599627370496 (-44))))] []), 0);
  (159, "DoubleGTELTE", (MV [("Val", VNum (NF (S754_finite false 4503599627370496 (-45))))] []), 0);
  (160, "DoubleGTELTE", (MV [("Val", VNum (NF (S754_finite false 5277655813324800 (-44))))] []), 1);
  (161, "DoubleGTELTE", (MV [("Val", VNum (NF (S754_finite false 7036874417766400 (-46))))] []), 1);
  (163, "DoubleExGTELTE", (MV [("Val", VNum (NF (S754_finite false 5277655813324800 (-44))))] []), 0);
  (164, "DoubleExGTELTE", (MV [("Val", VNum (NF (S754_finite false 7036874417766400 (-46))))] []), 0);
  (165, "DoubleExGTELTE", (MV [("Val", VNum (NF (S754_finite false 4503599627370496 (-44))))] []), 0);
  (166, "DoubleExGTELTE", (MV [("Val", VNum (NF (S754_finite false 4503599627370496 (-45))))] []), 0);
  (167, "DoubleExGTELTE", (MV [("Val", VNum (NF (S754_finite false 7036874417766400 (-45))))] []), 1);
  (169, "DoubleIgnore", (MV [("Val", VNum (NF (S754_zero false)))] []), 0)
].
Definition suite_int32Cases (now : Z) : list (Z * string * msgval * Z) := [
  (173, "Int32None", (MV [("Val", VNum (NI 123))] []), 0);
  (175, "Int32Const", (MV [("Val", VNum (NI 1))] []), 0);
  (176, "Int32Const", (MV [("Val", VNum (NI 2))] []), 1);
  (178, "Int32In", (MV [("Val", VNum (NI 3))] []), 0);
  (179, "Int32In", (MV [("Val", VNum (NI 5))] []), 1);
  (181, "Int32NotIn", (MV [("Val", VNum (NI 1))] []), 0);
  (182, "Int32NotIn", (MV [("Val", VNum (NI 0))] []), 1);
  (184, "Int32LT", (MV [("Val", VNum (NI (-1)))] []), 0);
  (185, "Int32LT", (MV [("Val", VNum (NI 0))] []), 1);
  (186, "Int32LT", (MV [("Val", VNum (NI 1))] []), 1);
  (188, "Int32LTE", (MV [("Val", VNum (NI 63))] []), 0);
  (189, "Int32LTE", (MV [("Val", VNum (NI 64))] []), 0);
  (190, "Int32LTE", (MV [("Val", VNum (NI 65))] []), 1);
  (192, "Int32GT", (MV [("Val", VNum (NI 17))] []), 0);
  (193, "Int32GT", (MV [("Val", VNum (NI 16))] []), 1);
  (194, "Int32GT", (MV [("Val", VNum (NI 15))] []), 1);
  (196, "Int32GTE", (MV [("Val", VNum (NI 9))] []), 0);
  (197, "Int32GTE", (MV [("Val", VNum (NI 8))] []), 0);
  (198, "Int32GTE", (MV [("Val", VNum (NI 7))] []), 1);
  (200, "Int32GTLT", (MV [("Val", VNum (NI 5))] []), 0);
  (201, "Int32GTLT", (MV [("Val", VNum (NI 11))] []), 1);
  (202, "Int32GTLT", (MV [("Val", VNum (NI (-1)))] []), 1);
  (203, "Int32GTLT", (MV [("Val", VNum (NI 10))] []), 1);
  (204, "Int32GTLT", (MV [("Val", VNum (NI 0))] []), 1);
  (206, "Int32ExLTGT", (MV [("Val", VNum (NI 11))] []), 0);
  (207, "Int32ExLTGT", (MV [("Val", VNum (NI (-1)))] []), 0);
  (208, "Int32ExLTGT", (MV [("Val", VNum (NI 5))] []), 1);
  (209, "Int32ExLTGT", (MV [("Val", VNum (NI 10))] []), 1);
  (210, "Int32ExLTGT", (MV [("Val", VNum (NI 0))] []), 1);
  (212, "Int32GTELTE", (MV [("Val", VNum (NI 200))] []), 0);
  (213, "Int32GTELTE", (MV [("Val", VNum (NI 256))] []), 0);
  (214, "Int32GTELTE", (MV [("Val", VNum (NI 128))] []), 0);
  (215, "Int32GTELTE", (MV [("Val", VNum (NI 300))] []), 1);
  (216, "Int32GTELTE", (MV [("Val", VNum (NI 100))] []), 1);
  (218, "Int32ExGTELTE", (MV [("Val", VNum (NI 300))] []), 0);
  (219, "Int32ExGTELTE", (MV [("Val", VNum (NI 100))] []), 0);
  (220, "Int32ExGTELTE", (MV [("Val", VNum (NI 256))] []), 0);
  (221, "Int32ExGTELTE", (MV [("Val", VNum (NI 128))] []), 0);
  (222, "Int32ExGTELTE", (MV [("Val", VNum (NI 200))] []), 1);
  (224, "Int32Ignore", (MV [("Val", VNum (NI 0))] []), 0)
].
Definition suite_int64Cases (now : Z) : list (Z * string * msgval * Z) := [
  (228, "Int64None", (MV [("Val", VNum (NI 123))] []), 0);
  (230, "Int64Const", (MV [("Val", VNum (NI 1))] []), 0);
  (231, "Int64Const", (MV [("Val", VNum (NI 2))] []), 1);
  (233, "Int64In", (MV [("Val", VNum (NI 3))] []), 0);
  (234, "Int64In", (MV [("Val", VNum (NI 5))] []), 1);
  (236, "Int64NotIn", (MV [("Val", VNum (NI 1))] []), 0);
  (237, "Int64NotIn", (MV [("Val", VNum (NI 0))] []), 1);
  (239, "Int64LT", (MV [("Val", VNum (NI (-1)))] []), 0);
  (240, "Int64LT", (MV [("Val", VNum (NI 0))] []), 1);
  (241, "Int64LT", (MV [("Val", VNum (NI 1))] []), 1);
  (243, "Int64LTE", (MV [("Val", VNum (NI 63))] []), 0);
  (244, "Int64LTE", (MV [("Val", VNum (NI 64))] []), 0);
  (245, "Int64LTE", (MV [("Val", VNum (NI 65))] []), 1);
  (247, "Int64GT", (MV [("Val", VNum (NI 17))] []), 0);
  (248, "Int64GT", (MV [("Val", VNum (NI 16))] []), 1);
  (249, "Int64GT", (MV [("Val", VNum (NI 15))] []), 1);
  (251, "Int64GTE", (MV [("Val", VNum (NI 9))] []), 0);
  (252, "Int64GTE", (MV [("Val", VNum (NI 8))] []), 0);
  (253, "Int64GTE", (MV [("Val", VNum (NI 7))] []), 1);
  (255, "Int64GTLT", (MV [("Val", VNum (NI 5))] []), 0);
  (256, "Int64GTLT", (MV [("Val", VNum (NI 11))] []), 1);
  (257, "Int64GTLT", (MV [("Val", VNum (NI (-1)))] []), 1);
  (258, "Int64GTLT", (MV [("Val", VNum (NI 10))] []), 1);
  (259, "Int64GTLT", (MV [("Val", VNum (NI 0))] []), 1);
  (261, "Int64ExLTGT", (MV [("Val", VNum (NI 11))] []), 0);
  (262, "Int64ExLTGT", (MV [("Val", VNum (NI (-1)))] []), 0);
  (263, "Int64ExLTGT", (MV [("Val", VNum (NI 5))] []), 1);
  (264, "Int64ExLTGT", (MV [("Val", VNum (NI 10))] []), 1);
  (265, "Int64ExLTGT", (MV [("Val", VNum (NI 0))] []), 1);
  (267, "Int64GTELTE", (MV [("Val", VNum (NI 200))] []), 0);
  (268, "Int64GTELTE", (MV [("Val", VNum (NI 256))] []), 0);
  (269, "Int64GTELTE", (MV [("Val", VNum (NI 128))] []), 0);
  (270, "Int64GTELTE", (MV [("Val", VNum (NI 300))] []), 1);
  (271, "Int64GTELTE", (MV [("Val", VNum (NI 100))] []), 1);
  (273, "Int64ExGTELTE", (MV [("Val", VNum (NI 300))] []), 0);
  (274, "Int64ExGTELTE", (MV [("Val", VNum (NI 100))] []), 0);
  (275, "Int64ExGTELTE", (MV [("Val", VNum (NI 256))] []), 0);
  (276, "Int64ExGTELTE", (MV [("Val", VNum (NI 128))] []), 0);
  (277, "Int64ExGTELTE", (MV [("Val", VNum (NI 200))] []), 1);
  (279, "Int64Ignore", (MV [("Val", VNum (NI 0))] []), 0)
].
Definition suite_uint32Cases (now : Z) : list (Z * string * msgval * Z) := [
  (283, "UInt32None", (MV [("Val", VNum (NI 123))] []), 0);
  (285, "UInt32Const", (MV [("Val", VNum (NI 1))] []), 0);
  (286, "UInt32Const", (MV [("Val", VNum (NI 2))] []), 1);
  (288, "UInt32In", (MV [("Val", VNum (NI 3))] []), 0);
  (289, "UInt32In", (MV [("Val", VNum (NI 5))] []), 1);
  (291, "UInt32NotIn", (MV [("Val", VNum (NI 1))] []), 0);
  (292, "UInt32NotIn", (MV [("Val", VNum (NI 0))] []), 1);
  (294, "UInt32LT", (MV [("Val", VNum (NI 4))] []), 0);
  (295, "UInt32LT", (MV [("Val", VNum (NI 5))] []), 1);
  (296, "UInt32LT", (MV [("Val", VNum (NI 6))] []), 1);
  (298, "UInt32LTE", (MV [("Val", VNum (NI 63))] []), 0);
  (299, "UInt32LTE", (MV [("Val", VNum (NI 64))] []), 0);
  (300, "UInt32LTE", (MV [("Val", VNum (NI 65))] []), 1);
  (302, "UInt32GT", (MV [("Val", VNum (NI 17))] []), 0);
  (303, "UInt32GT", (MV [("Val", VNum (NI 16))] []), 1);
  (304, "UInt32GT", (MV [("Val", VNum (NI 15))] []), 1);
  (306, "UInt32GTE", (MV [("Val", VNum (NI 9))] []), 0);
  (307, "UInt32GTE", (MV [("Val", VNum (NI 8))] []), 0);
  (308, "UInt32GTE", (MV [("Val", VNum (NI 7))] []), 1);
  (310, "UInt32GTLT", (MV [("Val", VNum (NI 7))] []), 0);
  (311, "UInt32GTLT", (MV [("Val", VNum (NI 11))] []), 1);
  (312, "UInt32GTLT", (MV [("Val", VNum (NI 1))] []), 1);
  (313, "UInt32GTLT", (MV [("Val", VNum (NI 10))] []), 1);
  (314, "UInt32GTLT", (MV [("Val", VNum (NI 5))] []), 1);
  (316, "UInt32ExLTGT", (MV [("Val", VNum (NI 11))] []), 0);
  (317, "UInt32ExLTGT", (MV [("Val", VNum (NI 4))] []), 0);
  (318, "UInt32ExLTGT", (MV [("Val", VNum (NI 7))] []), 1);
  (319, "UInt32ExLTGT", (MV [("Val", VNum (NI 10))] []), 1);
  (320, "UInt32ExLTGT", (MV [("Val", VNum (NI 5))] []), 1);
  (322, "UInt32GTELTE", (MV [("Val", VNum (NI 200))] []), 0);
  (323, "UInt32GTELTE", (MV [("Val", VNum (NI 256))] []), 0);
  (324, "UInt32GTELTE", (MV [("Val", VNum (NI 128))] []), 0);
  (325, "UInt32GTELTE", (MV [("Val", VNum (NI 300))] []), 1);
  (326, "UInt32GTELTE", (MV [("Val", VNum (NI 100))] []), 1);
  (328, "UInt32ExGTELTE", (MV [("Val", VNum (NI 300))] []), 0);
  (329, "UInt32ExGTELTE", (MV [("Val", VNum (NI 100))] []), 0);
  (330, "UInt32ExGTELTE", (MV [("Val", VNum (NI 256))] []), 0);
  (331, "UInt32ExGTELTE", (MV [("Val", VNum (NI 128))] []), 0);
  (332, "UInt32ExGTELTE", (MV [("Val", VNum (NI 200))] []), 1);
  (334, "UInt32Ignore", (MV [("Val", VNum (NI 0))] []), 0)
].
Definition suite_uint64Cases (now : Z) : list (Z * string * msgval * Z) := [
  (338, "UInt64None", (MV [("Val", VNum (NI 123))] []), 0);
  (340, "UInt64Const", (MV [("Val", VNum (NI 1))] []), 0);
  (341, "UInt64Const", (MV [("Val", VNum (NI 2))] []), 1);
  (343, "UInt64In", (MV [("Val", VNum (NI 3))] []), 0);
  (344, "UInt64In", (MV [("Val", VNum (NI 5))] []), 1);
  (346, "UInt64NotIn", (MV [("Val", VNum (NI 1))] []), 0);
  (347, "UInt64NotIn", (MV [("Val", VNum (NI 0))] []), 1);
  (349, "UInt64LT", (MV [("Val", VNum (NI 4))] []), 0);
  (350, "UInt64LT", (MV [("Val", VNum (NI 5))] []), 1);
  (351, "UInt64LT", (MV [("Val", VNum (NI 6))] []), 1);
  (353, "UInt64LTE", (MV [("Val", VNum (NI 63))] []), 0);
  (354, "UInt64LTE", (MV [("Val", VNum (NI 64))] []), 0);
  (355, "UInt64LTE", (MV [("Val", VNum (NI 65))] []), 1);
  (357, "UInt64GT", (MV [("Val", VNum (NI 17))] []), 0);
  (358, "UInt64GT", (MV [("Val", VNum (NI 16))] []), 1);
  (359, "UInt64GT", (MV [("Val", VNum (NI 15))] []), 1);
  (361, "UInt64GTE", (MV [("Val", VNum (NI 9))] []), 0);
  (362, "UInt64GTE", (MV [("Val", VNum (NI 8))] []), 0);
  (363, "UInt64GTE", (MV [("Val", VNum (NI 7))] []), 1);
  (365, "UInt64GTLT", (MV [("Val", VNum (NI 7))] []), 0);
  (366, "UInt64GTLT", (MV [("Val", VNum (NI 11))] []), 1);
  (367, "UInt64GTLT", (MV [("Val", VNum (NI 1))] []), 1);
  (368, "UInt64GTLT", (MV [("Val", VNum (NI 10))] []), 1);
  (369, "UInt64GTLT", (MV [("Val", VNum (NI 5))] []), 1);
  (371, "UInt64ExLTGT", (MV [("Val", VNum (NI 11))] []), 0);
  (372, "UInt64ExLTGT", (MV [("Val", VNum (NI 4))] []), 0);
  (373, "UInt64ExLTGT", (MV [("Val", VNum (NI 7))] []), 1);
  (374, "UInt64ExLTGT", (MV [("Val", VNum (NI 10))] []), 1);
  (375, "UInt64ExLTGT", (MV [("Val", VNum (NI 5))] []), 1);
  (377, "UInt64GTELTE", (MV [("Val", VNum (NI 200))] []), 0);
  (378, "UInt64GTELTE", (MV [("Val", VNum (NI 256))] []), 0);
  (379, "UInt64GTELTE", (MV [("Val", VNum (NI 128))] []), 0);
  (380, "UInt64GTELTE", (MV [("Val", VNum (NI 300))] []), 1);
  (381, "UInt64GTELTE", (MV [("Val", VNum (NI 100))] []), 1);
  (383, "UInt64ExGTELTE", (MV [("Val", VNum (NI 300))] []), 0);
  (384, "UInt64ExGTELTE", (MV [("Val", VNum (NI 100))] []), 0);
  (385, "UInt64ExGTELTE", (MV [("Val", VNum (NI 256))] []), 0);
  (386, "UInt64ExGTELTE", (MV [("Val", VNum (NI 128))] []), 0);
  (387, "UInt64ExGTELTE", (MV [("Val", VNum (NI 200))] []), 1);
  (389, "UInt64Ignore", (MV [("Val", VNum (NI 0))] []), 0)
].
Definition suite_sint32Cases (now : Z) : list (Z * string * msgval * Z) := [
  (393, "SInt32None", (MV [("Val", VNum (NI 123))] []), 0);
  (395, "SInt32Const", (MV [("Val", VNum (NI 1))] []), 0);
  (396, "SInt32Const", (MV [("Val", VNum (NI 2))] []), 1);
  (398, "SInt32In", (MV [("Val", VNum (NI 3))] []), 0);
  (399, "SInt32In", (MV [("Val", VNum (NI 5))] []), 1);
  (401, "SInt32NotIn", (MV [("Val", VNum (NI 1))] []), 0);
  (402, "SInt32NotIn", (MV [("Val", VNum (NI 0))] []), 1);
  (404, "SInt32LT", (MV [("Val", VNum (NI (-1)))] []), 0);
  (405, "SInt32LT", (MV [("Val", VNum (NI 0))] []), 1);
  (406, "SInt32LT", (MV [("Val", VNum (NI 1))] []), 1);
  (408, "SInt32LTE", (MV [("Val", VNum (NI 63))] []), 0);
  (409, "SInt32LTE", (MV [("Val", VNum (NI 64))] []), 0);
  (410, "SInt32LTE", (MV [("Val", VNum (NI 65))] []), 1);
  (412, "SInt32GT", (MV [("Val", VNum (NI 17))] []), 0);
  (413, "SInt32GT", (MV [("Val", VNum (NI 16))] []), 1);
  (414, "SInt32GT", (MV [("Val", VNum (NI 15))] []), 1);
  (416, "SInt32GTE", (MV [("Val", VNum (NI 9))] []), 0);
  (417, "SInt32GTE", (MV [("Val", VNum (NI 8))] []), 0);
  (418, "SInt32GTE", (MV [("Val", VNum (NI 7))] []), 1);
  (420, "SInt32GTLT", (MV [("Val", VNum (NI 5))] []), 0);
  (421, "SInt32GTLT", (MV [("Val", VNum (NI 11))] []), 1);
  (422, "SInt32GTLT", (MV [("Val", VNum (NI (-1)))] []), 1);
  (423, "SInt32GTLT", (MV [("Val", VNum (NI 10))] []), 1);
  (424, "SInt32GTLT", (MV [("Val", VNum (NI 0))] []), 1);
  (426, "SInt32ExLTGT", (MV [("Val", VNum (NI 11))] []), 0);
  (427, "SInt32ExLTGT", (MV [("Val", VNum (NI (-1)))] []), 0);
  (428, "SInt32ExLTGT", (MV [("Val", VNum (NI 5))] []), 1);
  (429, "SInt32ExLTGT", (MV [("Val", VNum (NI 10))] []), 1);
  (430, "SInt32ExLTGT", (MV [("Val", VNum (NI 0))] []), 1);
  (432, "SInt32GTELTE", (MV [("Val", VNum (NI 200))] []), 0);
  (433, "SInt32GTELTE", (MV [("Val", VNum (NI 256))] []), 0);
  (434, "SInt32GTELTE", (MV [("Val", VNum (NI 128))] []), 0);
  (435, "SInt32GTELTE", (MV [("Val", VNum (NI 300))] []), 1);
  (436, "SInt32GTELTE", (MV [("Val", VNum (NI 100))] []), 1);
  (438, "SInt32ExGTELTE", (MV [("Val", VNum (NI 300))] []), 0);
  (439, "SInt32ExGTELTE", (MV [("Val", VNum (NI 100))] []), 0);
  (440, "SInt32ExGTELTE", (MV [("Val", VNum (NI 256))] []), 0);
  (441, "SInt32ExGTELTE", (MV [("Val", VNum (NI 128))] []), 0);
  (442, "SInt32ExGTELTE", (MV [("Val", VNum (NI 200))] []), 1);
  (444, "SInt32Ignore", (MV [("Val", VNum (NI 0))] []), 0)
].
Definition suite_sint64Cases (now : Z) : list (Z * string * msgval * Z) := [
  (448, "SInt64None", (MV [("Val", VNum (NI 123))] []), 0);
  (450, "SInt64Const", (MV [("Val", VNum (NI 1))] []), 0);
  (451, "SInt64Const", (MV [("Val", VNum (NI 2))] []), 1);
  (453, "SInt64In", (MV [("Val", VNum (NI 3))] []), 0);
  (454, "SInt64In", (MV [("Val", VNum (NI 5))] []), 1);
  (456, "SInt64NotIn", (MV [("Val", VNum (NI 1))] []), 0);
  (457, "SInt64NotIn", (MV [("Val", VNum (NI 0))] []), 1);
  (459, "SInt64LT", (MV [("Val", VNum (NI (-1)))] []), 0);
  (460, "SInt64LT", (MV [("Val", VNum (NI 0))] []), 1);
  (461, "SInt64LT", (MV [("Val", VNum (NI 1))] []), 1);
  (463, "SInt64LTE", (MV [("Val", VNum (NI 63))] []), 0);
  (464, "SInt64LTE", (MV [("Val", VNum (NI 64))] []), 0);
  (465, "SInt64LTE", (MV [("Val", VNum (NI 65))] []), 1);
  (467, "SInt64GT", (MV [("Val", VNum (NI 17))] []), 0);
  (468, "SInt64GT", (MV [("Val", VNum (NI 16))] []), 1);
  (469, "SInt64GT", (MV [("Val", VNum (NI 15))] []), 1);
  (471, "SInt64GTE", (MV [("Val", VNum (NI 9))] []), 0);
  (472, "SInt64GTE", (MV [("Val", VNum (NI 8))] []), 0);
  (473, "SInt64GTE", (MV [("Val", VNum (NI 7))] []), 1);
  (475, "SInt64GTLT", (MV [("Val", VNum (NI 5))] []), 0);
  (476, "SInt64GTLT", (MV [("Val", VNum (NI 11))] []), 1);
  (477, "SInt64GTLT", (MV [("Val", VNum (NI (-1)))] []), 1);
  (478, "SInt64GTLT", (MV [("Val", VNum (NI 10))] []), 1);
  (479, "SInt64GTLT", (MV [("Val", VNum (NI 0))] []), 1);
  (481, "SInt64ExLTGT", (MV [("Val", VNum (NI 11))] []), 0);
  (482, "SInt64ExLTGT", (MV [("Val", VNum (NI (-1)))] []), 0);
  (483, "SInt64ExLTGT", (MV [("Val", VNum (NI 5))] []), 1);
  (484, "SInt64ExLTGT", (MV [("Val", VNum (NI 10))] []), 1);
  (485, "SInt64ExLTGT", (MV [("Val", VNum (NI 0))] []), 1);
  (487, "SInt64GTELTE", (MV [("Val", VNum (NI 200))] []), 0);
  (488, "SInt64GTELTE", (MV [("Val", VNum (NI 256))] []), 0);
  (489, "SInt64GTELTE", (MV [("Val", VNum (NI 128))] []), 0);
  (490, "SInt64GTELTE", (MV [("Val", VNum (NI 300))] []), 1);
  (491, "SInt64GTELTE", (MV [("Val", VNum (NI 100))] []), 1);
  (493, "SInt64ExGTELTE", (MV [("Val", VNum (NI 300))] []), 0);
  (494, "SInt64ExGTELTE", (MV [("Val", VNum (NI 100))] []), 0);
  (495, "SInt64ExGTELTE", (MV [("Val", VNum (NI 256))] []), 0);
  (496, "SInt64ExGTELTE", (MV [("Val", VNum (NI 128))] []), 0);
  (497, "SInt64ExGTELTE", (MV [("Val", VNum (NI 200))] []), 1);
  (499, "SInt64Ignore", (MV [("Val", VNum (NI 0))] []), 0)
].
Definition suite_fixed32Cases (now : Z) : list (Z * string * msgval * Z) := [
  (503, "Fixed32None", (MV [("Val", VNum (NI 123))] []), 0);
  (505, "Fixed32Const", (MV [("Val", VNum (NI 1))] []), 0);
  (506, "Fixed32Const", (MV [("Val", VNum (NI 2))] []), 1);
  (508, "Fixed32In", (MV [("Val", VNum (NI 3))] []), 0);
  (509, "Fixed32In", (MV [("Val", VNum (NI 5))] []), 1);
  (511, "Fixed32NotIn", (MV [("Val", VNum (NI 1))] []), 0);
  (512, "Fixed32NotIn", (MV [("Val", VNum (NI 0))] []), 1);
  (514, "Fixed32LT", (MV [("Val", VNum (NI 4))] []), 0);
  (515, "Fixed32LT", (MV [("Val", VNum (NI 5))] []), 1);
  (516, "Fixed32LT", (MV [("Val", VNum (NI 6))] []), 1);
  (518, "Fixed32LTE", (MV [("Val", VNum (NI 63))] []), 0);
  (519, "Fixed32LTE", (MV [("Val", VNum (NI 64))] []), 0);
  (520, "Fixed32LTE", (MV [("Val", VNum (NI 65))] []), 1);
  (522, "Fixed32GT", (MV [("Val", VNum (NI 17))] []), 0);
  (523, "Fixed32GT", (MV [("Val", VNum (NI 16))] []), 1);
  (524, "Fixed32GT", (MV [("Val", VNum (NI 15))] []), 1);
  (526, "Fixed32GTE", (MV [("Val", VNum (NI 9))] []), 0);
  (527, "Fixed32GTE", (MV [("Val", VNum (NI 8))] []), 0);
  (528, "Fixed32GTE", (MV [("Val", VNum (NI 7))] []), 1);
  (530, "Fixed32GTLT", (MV [("Val", VNum (NI 7))] []), 0);
  (531, "Fixed32GTLT", (MV [("Val", VNum (NI 11))] []), 1);
  (532, "Fixed32GTLT", (MV [("Val", VNum (NI 1))] []), 1);
  (533, "Fixed32GTLT", (MV [("Val", VNum (NI 10))] []), 1);
  (534, "Fixed32GTLT", (MV [("Val", VNum (NI 5))] []), 1);
  (536, "Fixed32ExLTGT", (MV [("Val", VNum (NI 11))] []), 0);
  (537, "Fixed32ExLTGT", (MV [("Val", VNum (NI 4))] []), 0);
  (538, "Fixed32ExLTGT", (MV [("Val", VNum (NI 7))] []), 1);
  (539, "Fixed32ExLTGT", (MV [("Val", VNum (NI 10))] []), 1);
  (540, "Fixed32ExLTGT", (MV [("Val", VNum (NI 5))] []), 1);
  (542, "Fixed32GTELTE", (MV [("Val", VNum (NI 200))] []), 0);
  (543, "Fixed32GTELTE", (MV [("Val", VNum (NI 256))] []), 0);
  (544, "Fixed32GTELTE", (MV [("Val", VNum (NI 128))] []), 0);
  (545, "Fixed32GTELTE", (MV [("Val", VNum (NI 300))] []), 1);
  (546, "Fixed32GTELTE", (MV [("Val", VNum (NI 100))] []), 1);
  (548, "Fixed32ExGTELTE", (MV [("Val", VNum (NI 300))] []), 0);
  (549, "Fixed32ExGTELTE", (MV [("Val", VNum (NI 100))] []), 0);
  (550, "Fixed32ExGTELTE", (MV [("Val", VNum (NI 256))] []), 0);
  (551, "Fixed32ExGTELTE", (MV [("Val", VNum (NI 128))] []), 0);
  (552, "Fixed32ExGTELTE", (MV [("Val", VNum (NI 200))] []), 1);
  (554, "Fixed32Ignore", (MV [("Val", VNum (NI 0))] []), 0)
].
Definition suite_fixed64Cases (now : Z) : list (Z * string * msgval * Z) := [
  (558, "Fixed64None", (MV [("Val", VNum (NI 123))] []), 0);
  (560, "Fixed64Const", (MV [("Val", VNum (NI 1))] []), 0);
  (561, "Fixed64Const", (MV [("Val", VNum (NI 2))] []), 1);
  (563, "Fixed64In", (MV [("Val", VNum (NI 3))] []), 0);
  (564, "Fixed64In", (MV [("Val", VNum (NI 5))] []), 1);
  (566, "Fixed64NotIn", (MV [("Val", VNum (NI 1))] []), 0);
  (567, "Fixed64NotIn", (MV [("Val", VNum (NI 0))] []), 1);
  (569, "Fixed64LT", (MV [("Val", VNum (NI 4))] []), 0);
  (570, "Fixed64LT", (MV [("Val", VNum (NI 5))] []), 1);
  (571, "Fixed64LT", (MV [("Val", VNum (NI 6))] []), 1);
  (573, "Fixed64LTE", (MV [("Val", VNum (NI 63))] []), 0);
  (574, "Fixed64LTE", (MV [("Val", VNum (NI 64))] []), 0);
  (575, "Fixed64LTE", (MV [("Val", VNum (NI 65))] []), 1);
  (577, "Fixed64GT", (MV [("Val", VNum (NI 17))] []), 0);
  (578, "Fixed64GT", (MV [("Val", VNum (NI 16))] []), 1);
  (579, "Fixed64GT", (MV [("Val", VNum (NI 15))] []), 1);
  (581, "Fixed64GTE", (MV [("Val", VNum (NI 9))] []), 0);
  (582, "Fixed64GTE", (MV [("Val", VNum (NI 8))] []), 0);
  (583, "Fixed64GTE", (MV [("Val", VNum (NI 7))] []), 1);
  (585, "Fixed64GTLT", (MV [("Val", VNum (NI 7))] []), 0);
  (586, "Fixed64GTLT", (MV [("Val", VNum (NI 11))] []), 1);
  (587, "Fixed64GTLT", (MV [("Val", VNum (NI 1))] []), 1);
  (588, "Fixed64GTLT", (MV [("Val", VNum (NI 10))] []), 1);
  (589, "Fixed64GTLT", (MV [("Val", VNum (NI 5))] []), 1);
  (591, "Fixed64ExLTGT", (MV [("Val", VNum (NI 11))] []), 0);
  (592, "Fixed64ExLTGT", (MV [("Val", VNum (NI 4))] []), 0);
  (593, "Fixed64ExLTGT", (MV [("Val", VNum (NI 7))] []), 1);
  (594, "Fixed64ExLTGT", (MV [("Val", VNum (NI 10))] []), 1);
  (595, "Fixed64ExLTGT", (MV [("Val", VNum (NI 5))] []), 1);
  (597, "Fixed64GTELTE", (MV [("Val", VNum (NI 200))] []), 0);
  (598, "Fixed64GTELTE", (MV [("Val", VNum (NI 256))] []), 0);
  (599, "Fixed64GTELTE", (MV [("Val", VNum (NI 128))] []), 0);
  (600, "Fixed64GTELTE", (MV [("Val", VNum (NI 300))] []), 1);
  (601, "Fixed64GTELTE", (MV [("Val", VNum (NI 100))] []), 1);
  (603, "Fixed64ExGTELTE", (MV [("Val", VNum (NI 300))] []), 0);
  (604, "Fixed64ExGTELTE", (MV [("Val", VNum (NI 100))] []), 0);
  (605, "Fixed64ExGTELTE", (MV [("Val", VNum (NI 256))] []), 0);
  (606, "Fixed64ExGTELTE", (MV [("Val", VNum (NI 128))] []), 0);
  (607, "Fixed64ExGTELTE", (MV [("Val", VNum (NI 200))] []), 1);
  (609, "Fixed64Ignore", (MV [("Val", VNum (NI 0))] []), 0)
].
Definition suite_sfixed32Cases (now : Z) : list (Z * string * msgval * Z) := [
  (613, "SFixed32None", (MV [("Val", VNum (NI 123))] []), 0);
  (615, "SFixed32Const", (MV [("Val", VNum (NI 1))] []), 0);
  (616, "SFixed32Const", (MV [("Val", VNum (NI 2))] []), 1);
  (618, "SFixed32In", (MV [("Val", VNum (NI 3))] []), 0);
  (619, "SFixed32In", (MV [("Val", VNum (NI 5))] []), 1);
  (621, "SFixed32NotIn", (MV [("Val", VNum (NI 1))] []), 0);
  (622, "SFixed32NotIn", (MV [("Val", VNum (NI 0))] []), 1);
  (624, "SFixed32LT", (MV [("Val", VNum (NI (-1)))] []), 0);
  (625, "SFixed32LT", (MV [("Val", VNum (NI 0))] []), 1);
  (626, "SFixed32LT", (MV [("Val", VNum (NI 1))] []), 1);
  (628, "SFixed32LTE", (MV [("Val", VNum (NI 63))] []), 0);
  (629, "SFixed32LTE", (MV [("Val", VNum (NI 64))] []), 0);
  (630, "SFixed32LTE", (MV [("Val", VNum (NI 65))] []), 1);
  (632, "SFixed32GT", (MV [("Val", VNum (NI 17))] []), 0);
  (633, "SFixed32GT", (MV [("Val", VNum (NI 16))] []), 1);
  (634, "SFixed32GT", (MV [("Val", VNum (NI 15))] []), 1);
  (636, "SFixed32GTE", (MV [("Val", VNum (NI 9))] []), 0);
  (637, "SFixed32GTE", (MV [("Val", VNum (NI 8))] []), 0);
  (638, "SFixed32GTE", (MV [("Val", VNum (NI 7))] []), 1);
  (640, "SFixed32GTLT", (MV [("Val", VNum (NI 5))] []), 0);
  (641, "SFixed32GTLT", (MV [("Val", VNum (NI 11))] []), 1);
  (642, "SFixed32GTLT", (MV [("Val", VNum (NI (-1)))] []), 1);
  (643, "SFixed32GTLT", (MV [("Val", VNum (NI 10))] []), 1);
  (644, "SFixed32GTLT", (MV [("Val", VNum (NI 0))] []), 1);
  (646, "SFixed32ExLTGT", (MV [("Val", VNum (NI 11))] []), 0);
  (647, "SFixed32ExLTGT", (MV [("Val", VNum (NI (-1)))] []), 0);
  (648, "SFixed32ExLTGT", (MV [("Val", VNum (NI 5))] []), 1);
  (649, "SFixed32ExLTGT", (MV [("Val", VNum (NI 10))] []), 1);
  (650, "SFixed32ExLTGT", (MV [("Val", VNum (NI 0))] []), 1);
  (652, "SFixed32GTELTE", (MV [("Val", VNum (NI 200))] []), 0);
  (653, "SFixed32GTELTE", (MV [("Val", VNum (NI 256))] []), 0);
  (654, "SFixed32GTELTE", (MV [("Val", VNum (NI 128))] []), 0);
  (655, "SFixed32GTELTE", (MV [("Val", VNum (NI 300))] []), 1);
  (656, "SFixed32GTELTE", (MV [("Val", VNum (NI 100))] []), 1);
  (658, "SFixed32ExGTELTE", (MV [("Val", VNum (NI 300))] []), 0);
  (659, "SFixed32ExGTELTE", (MV [("Val", VNum (NI 100))] []), 0);
  (660, "SFixed32ExGTELTE", (MV [("Val", VNum (NI 256))] []), 0);
  (661, "SFixed32ExGTELTE", (MV [("Val", VNum (NI 128))] []), 0);
  (662, "SFixed32ExGTELTE", (MV [("Val", VNum (NI 200))] []), 1);
  (664, "SFixed32Ignore", (MV [("Val", VNum (NI 0))] []), 0)
].
Definition suite_sfixed64Cases (now : Z) : list (Z * string * msgval * Z) := [
  (668, "SFixed64None", (MV [("Val", VNum (NI 123))] []), 0);
  (670, "SFixed64Const", (MV [("Val", VNum (NI 1))] []), 0);
  (671, "SFixed64Const", (MV [("Val", VNum (NI 2))] []), 1);
  (673, "SFixed64In", (MV [("Val", VNum (NI 3))] []), 0);
  (674, "SFixed64In", (MV [("Val", VNum (NI 5))] []), 1);
  (676, "SFixed64NotIn", (MV [("Val", VNum (NI 1))] []), 0);
  (677, "SFixed64NotIn", (MV [("Val", VNum (NI 0))] []), 1);
  (679, "SFixed64LT", (MV [("Val", VNum (NI (-1)))] []), 0);
  (680, "SFixed64LT", (MV [("Val", VNum (NI 0))] []), 1);
  (681, "SFixed64LT", (MV [("Val", VNum (NI 1))] []), 1);
  (683, "SFixed64LTE", (MV [("Val", VNum (NI 63))] []), 0);
  (684, "SFixed64LTE", (MV [("Val", VNum (NI 64))] []), 0);
  (685, "SFixed64LTE", (MV [("Val", VNum (NI 65))] []), 1);
  (687, "SFixed64GT", (MV [("Val", VNum (NI 17))] []), 0);
  (688, "SFixed64GT", (MV [("Val", VNum (NI 16))] []), 1);
  (689, "SFixed64GT", (MV [("Val", VNum (NI 15))] []), 1);
  (691, "SFixed64GTE", (MV [("Val", VNum (NI 9))] []), 0);
  (692, "SFixed64GTE", (MV [("Val", VNum (NI 8))] []), 0);
  (693, "SFixed64GTE", (MV [("Val", VNum (NI 7))] []), 1);
  (695, "SFixed64GTLT", (MV [("Val", VNum (NI 5))] []), 0);
  (696, "SFixed64GTLT", (MV [("Val", VNum (NI 11))] []), 1);
  (697, "SFixed64GTLT", (MV [("Val", VNum (NI (-1)))] []), 1);
  (698, "SFixed64GTLT", (MV [("Val", VNum (NI 10))] []), 1);
  (699, "SFixed64GTLT", (MV [("Val", VNum (NI 0))] []), 1);
  (701, "SFixed64ExLTGT", (MV [("Val", VNum (NI 11))] []), 0);
  (702, "SFixed64ExLTGT", (MV [("Val", VNum (NI (-1)))] []), 0);
  (703, "SFixed64ExLTGT", (MV [("Val", VNum (NI 5))] []), 1);
  (704, "SFixed64ExLTGT", (MV [("Val", VNum (NI 10))] []), 1);
  (705, "SFixed64ExLTGT", (MV [("Val", VNum (NI 0))] []), 1);
  (707, "SFixed64GTELTE", (MV [("Val", VNum (NI 200))] []), 0);
  (708, "SFixed64GTELTE", (MV [("Val", VNum (NI 256))] []), 0);
  (709, "SFixed64GTELTE", (MV [("Val", VNum (NI 128))] []), 0);
  (710, "SFixed64GTELTE", (MV [("Val", VNum (NI 300))] []), 1);
  (711, "SFixed64GTELTE", (MV [("Val", VNum (NI 100))] []), 1);
  (713, "SFixed64ExGTELTE", (MV [("Val", VNum (NI 300))] []), 0);
  (714, "SFixed64ExGTELTE", (MV [("Val", VNum (NI 100))] []), 0);
  (715, "SFixed64ExGTELTE", (MV [("Val", VNum (NI 256))] []), 0);
  (716, "SFixed64ExGTELTE", (MV [("Val", VNum (NI 128))] []), 0);
  (717, "SFixed64ExGTELTE", (MV [("Val", VNum (NI 200))] []), 1);
  (719, "SFixed64Ignore", (MV [("Val", VNum (NI 0))] []), 0)
].
Definition suite_boolCases (now : Z) : list (Z * string * msgval * Z) := [
  (723, "BoolNone", (MV [("Val", VBool true)] []), 0);
  (724, "BoolConstTrue", (MV [("Val", VBool true)] []), 0);
  (725, "BoolConstTrue", (MV [("Val", VBool false)] []), 1);
  (726, "BoolConstFalse", (MV [("Val", VBool false)] []), 0);
  (727, "BoolConstFalse", (MV [("Val", VBool true)] []), 1)
].
Definition suite_stringCases (now : Z) : list (Z * string * msgval * Z) := [
  (731, "StringNone", (MV [("Val", VStr (bs "quux"))] []), 0);
  (733, "StringConst", (MV [("Val", VStr (bs "foo"))] []), 0);
  (734, "StringConst", (MV [("Val", VStr (bs "bar"))] []), 1);
  (736, "StringIn", (MV [("Val", VStr (bs "bar"))] []), 0);
  (737, "StringIn", (MV [("Val", VStr (bs "quux"))] []), 1);
  (738, "StringNotIn", (MV [("Val", VStr (bs "quux"))] []), 0);
  (739, "StringNotIn", (MV [("Val", VStr (bs "fizz"))] []), 1);
  (741, "StringLen", (MV [("Val", VStr (bs "baz"))] []), 0);
  (742, "StringLen", (MV [("Val", VStr [228;189;160;229;165;189;229;144;150]%N)] []), 0);
  (743, "StringLen", (MV [("Val", VStr (bs "go"))] []), 1);
  (744, "StringLen", (MV [("Val", VStr (bs "fizz"))] []), 1);
  (745, "StringLen", (MV [("Val", VStr [228;189;160;229;165;189]%N)] []), 1);
  (747, "StringMinLen", (MV [("Val", VStr (bs "protoc"))] []), 0);
  (748, "StringMinLen", (MV [("Val", VStr (bs "baz"))] []), 0);
  (749, "StringMinLen", (MV [("Val", VStr (bs "go"))] []), 1);
  (750, "StringMinLen", (MV [("Val", VStr [228;189;160;229;165;189]%N)] []), 1);
  (752, "StringMaxLen", (MV [("Val", VStr (bs "foo"))] []), 0);
  (753, "StringMaxLen", (MV [("Val", VStr (bs "proto"))] []), 0);
  (754, "StringMaxLen", (MV [("Val", VStr [228;189;160;229;165;189;228;189;160;229;165;189]%N)] []), 0);
  (755, "StringMaxLen", (MV [("Val", VStr (bs "1234567890"))] []), 1);
  (757, "StringMinMaxLen", (MV [("Val", VStr (bs "quux"))] []), 0);
  (758, "StringMinMaxLen", (MV [("Val", VStr (bs "foo"))] []), 0);
  (759, "StringMinMaxLen", (MV [("Val", VStr (bs "proto"))] []), 0);
  (760, "StringMinMaxLen", (MV [("Val", VStr [228;189;160;229;165;189;228;189;160;229;165;189]%N)] []), 0);
  (761, "StringMinMaxLen", (MV [("Val", VStr (bs "go"))] []), 1);
  (762, "StringMinMaxLen", (MV [("Val", VStr (bs "validate"))] []), 1);
  (764, "StringEqualMinMaxLen", (MV [("Val", VStr (bs "proto"))] []), 0);
  (765, "StringEqualMinMaxLen", (MV [("Val", VStr (bs "validate"))] []), 1);
  (767, "StringLenBytes", (MV [("Val", VStr (bs "pace"))] []), 0);
  (768, "StringLenBytes", (MV [("Val", VStr (bs "val"))] []), 1);
  (769, "StringLenBytes", (MV [("Val", VStr (bs "world"))] []), 1);
  (770, "StringLenBytes", (MV [("Val", VStr [228;184;150;231;149;140;229;146;140;229;185;179]%N)] []), 1);
  (772, "StringMinBytes", (MV [("Val", VStr (bs "proto"))] []), 0);
  (773, "StringMinBytes", (MV [("Val", VStr (bs "quux"))] []), 0);
  (774, "StringMinBytes", (MV [("Val", VStr [228;189;160;229;165;189]%N)] []), 0);
  (775, "StringMinBytes", (MV [("Val", VStr []%N)] []), 1);
  (777, "StringMaxBytes", (MV [("Val", VStr (bs "foo"))] []), 0);
  (778, "StringMaxBytes", (MV [("Val", VStr (bs "12345678"))] []), 0);
  (779, "StringMaxBytes", (MV [("Val", VStr (bs "123456789"))] []), 1);
  (780, "StringMaxBytes", (MV [("Val", VStr [228;189;160;229;165;189;228;189;160;229;165;189;228;189;160;229;165;189]%N)] []), 1);
  (782, "StringMinMaxBytes", (MV [("Val", VStr (bs "protoc"))] []), 0);
  (783, "StringMinMaxBytes", (MV [("Val", VStr (bs "quux"))] []), 0);
  (784, "StringMinMaxBytes", (MV [("Val", VStr (bs "fizzbuzz"))] []), 0);
  (785, "StringMinMaxBytes", (MV [("Val", VStr [228;189;160;229;165;189]%N)] []), 0);
  (786, "StringMinMaxBytes", (MV [("Val", VStr (bs "foo"))] []), 1);
  (787, "StringMinMaxBytes", (MV [("Val", VStr [228;189;160;229;165;189;228;189;160;229;165;189;228;189;160]%N)] []), 1);
  (789, "StringEqualMinMaxBytes", (MV [("Val", VStr (bs "protoc"))] []), 0);
  (790, "StringEqualMinMaxBytes", (MV [("Val", VStr (bs "foo"))] []), 1);
  (792, "StringPattern", (MV [("Val", VStr (bs "Foo123"))] []), 0);
  (793, "StringPattern", (MV [("Val", VStr (bs "!@#$%^&*()"))] []), 1);
  (794, "StringPattern", (MV [("Val", VStr []%N)] []), 1);
  (795, "StringPattern", (MV [("Val", VStr [97;0]%N)] []), 1);
  (797, "StringPatternEscapes", (MV [("Val", VStr (bs "* \ x"))] []), 0);
  (798, "StringPatternEscapes", (MV [("Val", VStr (bs "invalid"))] []), 1);
  (799, "StringPatternEscapes", (MV [("Val", VStr []%N)] []), 1);
  (801, "StringPrefix", (MV [("Val", VStr (bs "foobar"))] []), 0);
  (802, "StringPrefix", (MV [("Val", VStr (bs "foo"))] []), 0);
  (803, "StringPrefix", (MV [("Val", VStr (bs "bar"))] []), 1);
  (804, "StringPrefix", (MV [("Val", VStr (bs "Foobar"))] []), 1);
  (806, "StringContains", (MV [("Val", VStr (bs "candy bars"))] []), 0);
  (807, "StringContains", (MV [("Val", VStr (bs "bar"))] []), 0);
  (808, "StringContains", (MV [("Val", VStr (bs "candy bazs"))] []), 1);
  (809, "StringContains", (MV [("Val", VStr (bs "Candy Bars"))] []), 1);
  (811, "StringNotContains", (MV [("Val", VStr (bs "candy bazs"))] []), 0);
  (812, "StringNotContains", (MV [("Val", VStr (bs "Candy Bars"))] []), 0);
  (813, "StringNotContains", (MV [("Val", VStr (bs "candy bars"))] []), 1);
  (814, "StringNotContains", (MV [("Val", VStr (bs "bar"))] []), 1);
  (816, "StringSuffix", (MV [("Val", VStr (bs "foobaz"))] []), 0);
  (817, "StringSuffix", (MV [("Val", VStr (bs "baz"))] []), 0);
  (818, "StringSuffix", (MV [("Val", VStr (bs "foobar"))] []), 1);
  (819, "StringSuffix", (MV [("Val", VStr (bs "FooBaz"))] []), 1);
  (821, "StringEmail", (MV [("Val", VStr (bs "foo@bar.com"))] []), 0);
  (822, "StringEmail", (MV [("Val", VStr (bs "John Smith <foo@bar.com>"))] []), 0);
  (823, "StringEmail", (MV [("Val", VStr (bs "foobar"))] []), 1);
  (824, "StringEmail", (MV [("Val", VStr (bs "x0123456789012345678901234567890123456789012345678901234567890123456789@example.com"))] []), 1);
  (825, "StringEmail", (MV [("Val", VStr (bs "foo@x0123456789012345678901234567890123456789012345678901234567890123456789.com"))] []), 1);
  (826, "StringEmail", (MV [("Val", VStr (bs "foo@-bar.com"))] []), 1);
  (827, "StringEmail", (MV [("Val", VStr []%N)] []), 1);
  (829, "StringAddress", (MV [("Val", VStr (bs "example.com"))] []), 0);
  (830, "StringAddress", (MV [("Val", VStr (bs "ASD.example.com"))] []), 0);
  (831, "StringAddress", (MV [("Val", VStr (bs "foo-bar.com"))] []), 0);
  (832, "StringAddress", (MV [("Val", VStr (bs "example.com."))] []), 0);
  (833, "StringAddress", (MV [("Val", VStr (bs "!@#$%^&"))] []), 1);
  (834, "StringAddress", (MV [("Val", VStr (bs "foo_bar.com"))] []), 1);
  (835, "StringAddress", (MV [("Val", VStr (bs "x0123456789012345678901234567890123456789012345678901234567890123456789.com"))] []), 1);
  (836, "StringAddress", (MV [("Val", VStr (bs "foo-bar-.com"))] []), 1);
  (837, "StringAddress", (MV [("Val", VStr (bs "foo-bar.-com"))] []), 1);
  (838, "StringAddress", (MV [("Val", VStr (bs "asd..asd.com"))] []), 1);
  (839, "StringAddress", (MV [("Val", VStr [228;189;160;229;165;189;46;99;111;109]%N)] []), 1);
  (840, "StringAddress", (MV [("Val", VStr (bs "192.168.0.1"))] []), 0);
  (841, "StringAddress", (MV [("Val", VStr (bs "3e::99"))] []), 0);
  (842, "StringAddress", (MV [("Val", VStr (bs "ff::fff::0b"))] []), 1);
  (844, "StringHostname", (MV [("Val", VStr (bs "example.com"))] []), 0);
  (845, "StringHostname", (MV [("Val", VStr (bs "ASD.example.com"))] []), 0);
  (846, "StringHostname", (MV [("Val", VStr (bs "foo-bar.com"))] []), 0);
  (847, "StringHostname", (MV [("Val", VStr (bs "example.com."))] []), 0);
  (848, "StringHostname", (MV [("Val", VStr (bs "!@#$%^&"))] []), 1);
  (849, "StringHostname", (MV [("Val", VStr (bs "foo_bar.com"))] []), 1);
  (850, "StringHostname", (MV [("Val", VStr (bs "x0123456789012345678901234567890123456789012345678901234567890123456789.com"))] []), 1);
  (851, "StringHostname", (MV [("Val", VStr (bs "foo-bar-.com"))] []), 1);
  (852, "StringHostname", (MV [("Val", VStr (bs "foo-bar.-com"))] []), 1);
  (853, "StringHostname", (MV [("Val", VStr (bs "asd..asd.com"))] []), 1);
  (854, "StringHostname", (MV [("Val", VStr [228;189;160;229;165;189;46;99;111;109]%N)] []), 1);
  (856, "StringIP", (MV [("Val", VStr (bs "192.168.0.1"))] []), 0);
  (857, "StringIP", (MV [("Val", VStr (bs "3e::99"))] []), 0);
  (858, "StringIP", (MV [("Val", VStr (bs "foobar"))] []), 1);
  (860, "StringIPv4", (MV [("Val", VStr (bs "192.168.0.1"))] []), 0);
  (861, "StringIPv4", (MV [("Val", VStr (bs "foobar"))] []), 1);
  (862, "StringIPv4", (MV [("Val", VStr (bs "256.0.0.0"))] []), 1);
  (863, "StringIPv4", (MV [("Val", VStr (bs "3e::99"))] []), 1);
  (865, "StringIPv6", (MV [("Val", VStr (bs "2001:0db8:85a3:0000:0000:8a2e:0370:7334"))] []), 0);
  (866, "StringIPv6", (MV [("Val", VStr (bs "2001:db8:85a3::8a2e:370:7334"))] []), 0);
  (867, "StringIPv6", (MV [("Val", VStr (bs "foobar"))] []), 1);
  (868, "StringIPv6", (MV [("Val", VStr (bs "192.168.0.1"))] []), 1);
  (869, "StringIPv6", (MV [("Val", VStr (bs "ff::fff::0b"))] []), 1);
  (871, "StringURI", (MV [("Val", VStr (bs "http://example.com/foo/bar?baz=quux"))] []), 0);
  (872, "StringURI", (MV [("Val", VStr (bs "!@#$%^&*%$#"))] []), 1);
  (873, "StringURI", (MV [("Val", VStr (bs "/foo/bar?baz=quux"))] []), 1);
  (875, "StringURIRef", (MV [("Val", VStr (bs "http://example.com/foo/bar?baz=quux"))] []), 0);
  (876, "StringURIRef", (MV [("Val", VStr (bs "/foo/bar?baz=quux"))] []), 0);
  (877, "StringURIRef", (MV [("Val", VStr (bs "!@#$%^&*%$#"))] []), 1);
  (879, "StringUUID", (MV [("Val", VStr (bs "00000000-0000-0000-0000-000000000000"))] []), 0);
  (880, "StringUUID", (MV [("Val", VStr (bs "b45c0c80-8880-11e9-a5b1-000000000000"))] []), 0);
  (881, "StringUUID", (MV [("Val", VStr (bs "B45C0C80-8880-11E9-A5B1-000000000000"))] []), 0);
  (882, "StringUUID", (MV [("Val", VStr (bs "b45c0c80-8880-21e9-a5b1-000000000000"))] []), 0);
  (883, "StringUUID", (MV [("Val", VStr (bs "B45C0C80-8880-21E9-A5B1-000000000000"))] []), 0);
  (884, "StringUUID", (MV [("Val", VStr (bs "a3bb189e-8bf9-3888-9912-ace4e6543002"))] []), 0);
  (885, "StringUUID", (MV [("Val", VStr (bs "A3BB189E-8BF9-3888-9912-ACE4E6543002"))] []), 0);
  (886, "StringUUID", (MV [("Val", VStr (bs "8b208305-00e8-4460-a440-5e0dcd83bb0a"))] []), 0);
  (887, "StringUUID", (MV [("Val", VStr (bs "8B208305-00E8-4460-A440-5E0DCD83BB0A"))] []), 0);
  (888, "StringUUID", (MV [("Val", VStr (bs "a6edc906-2f9f-5fb2-a373-efac406f0ef2"))] []), 0);
  (889, "StringUUID", (MV [("Val", VStr (bs "A6EDC906-2F9F-5FB2-A373-EFAC406F0EF2"))] []), 0);
  (890, "StringUUID", (MV [("Val", VStr (bs "foobar"))] []), 1);
  (891, "StringUUID", (MV [("Val", VStr (bs "ffffffff-ffff-ffff-ffff-fffffffffffff"))] []), 1);
  (892, "StringUUIDIgnore", (MV [("Val", VStr []%N)] []), 0);
  (894, "StringHttpHeaderName", (MV [("Val", VStr (bs "clustername"))] []), 0);
  (895, "StringHttpHeaderName", (MV [("Val", VStr (bs ":path"))] []), 0);
  (896, "StringHttpHeaderName", (MV [("Val", VStr (bs "cluster-123"))] []), 0);
  (897, "StringHttpHeaderName", (MV [("Val", VStr (bs "!+#&.%"))] []), 0);
  (898, "StringHttpHeaderName", (MV [("Val", VStr (bs "CLUSTER.NAME"))] []), 0);
  (899, "StringHttpHeaderName", (MV [("Val", VStr (bs ":"))] []), 1);
  (900, "StringHttpHeaderName", (MV [("Val", VStr (bs ":path:"))] []), 1);
  (901, "StringHttpHeaderName", (MV [("Val", VStr (bs "cluster name"))] []), 1);
  (902, "StringHttpHeaderName", (MV [("Val", VStr [101;120;97;109;112;108;101;13]%N)] []), 1);
  (903, "StringHttpHeaderName", (MV [("Val", VStr [101;120;97;109;112;108;101;9]%N)] []), 1);
  (904, "StringHttpHeaderName", (MV [("Val", VStr (bs "/test/long/url"))] []), 1);
  (906, "StringHttpHeaderValue", (MV [("Val", VStr (bs "cluster.name.123"))] []), 0);
  (907, "StringHttpHeaderValue", (MV [("Val", VStr (bs "/TEST/LONG/URL"))] []), 0);
  (908, "StringHttpHeaderValue", (MV [("Val", VStr (bs "cluster name"))] []), 0);
  (909, "StringHttpHeaderValue", (MV [("Val", VStr [101;120;97;109;112;108;101;9]%N)] []), 0);
  (910, "StringHttpHeaderValue", (MV [("Val", VStr (bs "!#%&./+"))] []), 0);
  (911, "StringHttpHeaderValue", (MV [("Val", VStr [102;111;111;0;98;97;114]%N)] []), 1);
  (912, "StringHttpHeaderValue", (MV [("Val", VStr [127]%N)] []), 1);
  (913, "StringHttpHeaderValue", (MV [("Val", VStr [101;120;97;109;112;108;101;13]%N)] []), 1);
  (915, "StringValidHeader", (MV [("Val", VStr (bs "cluster.name.123"))] []), 0);
  (916, "StringValidHeader", (MV [("Val", VStr (bs "/TEST/LONG/URL"))] []), 0);
  (917, "StringValidHeader", (MV [("Val", VStr (bs "cluster name"))] []), 0);
  (918, "StringValidHeader", (MV [("Val", VStr [101;120;97;109;112;108;101;9]%N)] []), 0);
  (919, "StringValidHeader", (MV [("Val", VStr [127]%N)] []), 0);
  (920, "StringValidHeader", (MV [("Val", VStr [102;111;111;0;98;97;114]%N)] []), 1);
  (921, "StringValidHeader", (MV [("Val", VStr [101;120;97;109;112;108;101;13]%N)] []), 1);
  (922, "StringValidHeader", (MV [("Val", VStr [101;120;97;10;109;112;108;101]%N)] []), 1)
].
Definition suite_bytesCases (now : Z) : list (Z * string * msgval * Z) := [
  (926, "BytesNone", (MV [("Val", VByt (bs "quux"))] []), 0);
  (928, "BytesConst", (MV [("Val", VByt (bs "foo"))] []), 0);
  (929, "BytesConst", (MV [("Val", VByt (bs "bar"))] []), 1);
  (931, "BytesIn", (MV [("Val", VByt (bs "bar"))] []), 0);
  (932, "BytesIn", (MV [("Val", VByt (bs "quux"))] []), 1);
  (933, "BytesNotIn", (MV [("Val", VByt (bs "quux"))] []), 0);
  (934, "BytesNotIn", (MV [("Val", VByt (bs "fizz"))] []), 1);
  (936, "BytesLen", (MV [("Val", VByt (bs "baz"))] []), 0);
  (937, "BytesLen", (MV [("Val", VByt (bs "go"))] []), 1);
  (938, "BytesLen", (MV [("Val", VByt (bs "fizz"))] []), 1);
  (940, "BytesMinLen", (MV [("Val", VByt (bs "fizz"))] []), 0);
  (941, "BytesMinLen", (MV [("Val", VByt (bs "baz"))] []), 0);
  (942, "BytesMinLen", (MV [("Val", VByt (bs "go"))] []), 1);
  (944, "BytesMaxLen", (MV [("Val", VByt (bs "foo"))] []), 0);
  (945, "BytesMaxLen", (MV [("Val", VByt (bs "proto"))] []), 0);
  (946, "BytesMaxLen", (MV [("Val", VByt (bs "1234567890"))] []), 1);
  (948, "BytesMinMaxLen", (MV [("Val", VByt (bs "quux"))] []), 0);
  (949, "BytesMinMaxLen", (MV [("Val", VByt (bs "foo"))] []), 0);
  (950, "BytesMinMaxLen", (MV [("Val", VByt (bs "proto"))] []), 0);
  (951, "BytesMinMaxLen", (MV [("Val", VByt (bs "go"))] []), 1);
  (952, "BytesMinMaxLen", (MV [("Val", VByt (bs "validate"))] []), 1);
  (954, "BytesEqualMinMaxLen", (MV [("Val", VByt (bs "proto"))] []), 0);
  (955, "BytesEqualMinMaxLen", (MV [("Val", VByt (bs "validate"))] []), 1);
  (957, "BytesPattern", (MV [("Val", VByt (bs "Foo123"))] []), 0);
  (958, "BytesPattern", (MV [("Val", VByt [228;189;160;229;165;189;228;189;160;229;165;189]%N)] []), 1);
  (959, "BytesPattern", (MV [("Val", VByt []%N)] []), 1);
  (961, "BytesPrefix", (MV [("Val", VByt [153;159;8]%N)] []), 0);
  (962, "BytesPrefix", (MV [("Val", VByt [153]%N)] []), 0);
  (963, "BytesPrefix", (MV [("Val", VByt (bs "bar"))] []), 1);
  (965, "BytesContains", (MV [("Val", VByt (bs "candy bars"))] []), 0);
  (966, "BytesContains", (MV [("Val", VByt (bs "bar"))] []), 0);
  (967, "BytesContains", (MV [("Val", VByt (bs "candy bazs"))] []), 1);
  (969, "BytesSuffix", (MV [("Val", VByt (bs "buzz"))] []), 0);
  (970, "BytesSuffix", (MV [("Val", VByt (bs "buzz"))] []), 0);
  (971, "BytesSuffix", (MV [("Val", VByt (bs "foobar"))] []), 1);
  (972, "BytesSuffix", (MV [("Val", VByt (bs "FooBaz"))] []), 1);
  (974, "BytesIP", (MV [("Val", VByt [192;168;0;1]%N)] []), 0);
  (975, "BytesIP", (MV [("Val", VByt [32;1;13;184;133;163;0;0;0;0;138;46;3;112;115;52]%N)] []), 0);
  (976, "BytesIP", (MV [("Val", VByt (bs "foobar"))] []), 1);
  (978, "BytesIPv4", (MV [("Val", VByt [192;168;0;1]%N)] []), 0);
  (979, "BytesIPv4", (MV [("Val", VByt (bs "foobar"))] []), 1);
  (980, "BytesIPv4", (MV [("Val", VByt [32;1;13;184;133;163;0;0;0;0;138;46;3;112;115;52]%N)] []), 1);
  (982, "BytesIPv6", (MV [("Val", VByt [32;1;13;184;133;163;0;0;0;0;138;46;3;112;115;52]%N)] []), 0);
  (983, "BytesIPv6", (MV [("Val", VByt (bs "fooar"))] []), 1);
  (984, "BytesIPv6", (MV [("Val", VByt [192;168;0;1]%N)] []), 1);
  (986, "BytesIPv6Ignore", (MV [("Val", VByt [])] []), 0)
].
Definition suite_enumCases (now : Z) : list (Z * string * msgval * Z) := [
  (990, "EnumNone", (MV [("Val", VEnum 1)] []), 0);
  (992, "EnumConst", (MV [("Val", VEnum 2)] []), 0);
  (993, "EnumConst", (MV [("Val", VEnum 1)] []), 1);
  (994, "EnumAliasConst", (MV [("Val", VEnum 2)] []), 0);
  (995, "EnumAliasConst", (MV [("Val", VEnum 2)] []), 0);
  (996, "EnumAliasConst", (MV [("Val", VEnum 0)] []), 1);
  (998, "EnumDefined", (MV [("Val", VEnum 0)] []), 0);
  (999, "EnumDefined", (MV [("Val", VEnum 2147483647)] []), 1);
  (1000, "EnumAliasDefined", (MV [("Val", VEnum 1)] []), 0);
  (1001, "EnumAliasDefined", (MV [("Val", VEnum 2147483647)] []), 1);
  (1003, "EnumIn", (MV [("Val", VEnum 2)] []), 0);
  (1004, "EnumIn", (MV [("Val", VEnum 1)] []), 1);
  (1005, "EnumAliasIn", (MV [("Val", VEnum 0)] []), 0);
  (1006, "EnumAliasIn", (MV [("Val", VEnum 0)] []), 0);
  (1007, "EnumAliasIn", (MV [("Val", VEnum 1)] []), 1);
  (1009, "EnumNotIn", (MV [("Val", VEnum 0)] []), 0);
  (1010, "EnumNotIn", (MV [("Val", VEnum 2147483647)] []), 0);
  (1011, "EnumNotIn", (MV [("Val", VEnum 1)] []), 1);
  (1012, "EnumAliasNotIn", (MV [("Val", VEnum 0)] []), 0);
  (1013, "EnumAliasNotIn", (MV [("Val", VEnum 1)] []), 1);
  (1014, "EnumAliasNotIn", (MV [("Val", VEnum 1)] []), 1);
  (1016, "EnumExternal", (MV [("Val", VEnum 0)] []), 0);
  (1017, "EnumExternal", (MV [("Val", VEnum 2147483647)] []), 1);
  (1019, "RepeatedEnumDefined", (MV [("Val", VList [(VEnum 1); (VEnum 2)])] []), 0);
  (1020, "RepeatedEnumDefined", (MV [("Val", VList [(VEnum 1); (VEnum 2147483647)])] []), 1);
  (1022, "RepeatedExternalEnumDefined", (MV [("Val", VList [(VEnum 0)])] []), 0);
  (1023, "RepeatedExternalEnumDefined", (MV [("Val", VList [(VEnum 2147483647)])] []), 1);
  (1025, "MapEnumDefined", (MV [("Val", VMap [((VStr (bs "foo")), (VEnum 2))])] []), 0);
  (1026, "MapEnumDefined", (MV [("Val", VMap [((VStr (bs "foo")), (VEnum 2147483647))])] []), 1);
  (1028, "MapExternalEnumDefined", (MV [("Val", VMap [((VStr (bs "foo")), (VEnum 0))])] []), 0);
  (1029, "MapExternalEnumDefined", (MV [("Val", VMap [((VStr (bs "foo")), (VEnum 2147483647))])] []), 1)
].
Definition suite_messageCases (now : Z) : list (Z * string * msgval * Z) := [
  (1033, "MessageNone", (MV [("Val", VMsg (Some (MV [] [])))] []), 0);
  (1034, "MessageNone", (MV [("Val", VMsg None)] []), 0);
  (1036, "MessageDisabled", (MV [("Val", VNum (NI 456))] []), 0);
  (1037, "MessageDisabled", (MV [("Val", VNum (NI 0))] []), 0);
  (1039, "MessageIgnored", (MV [("Val", VNum (NI 456))] []), 0);
  (1040, "MessageIgnored", (MV [("Val", VNum (NI 0))] []), 0);
  (1042, "Message", (MV [("Val", VMsg (Some (MV [("Const", VStr (bs "foo")); ("Nested", VMsg None)] [])))] []), 0);
  (1043, "Message", (MV [("Val", VMsg None)] []), 0);
  (1044, "Message", (MV [("Val", VMsg (Some (MV [("Const", VStr []%N); ("Nested", VMsg None)] [])))] []), 1);
  (1045, "Message", (MV [("Val", VMsg (Some (MV [("Const", VStr (bs "foo")); ("Nested", VMsg (Some (MV [("Const", VStr []%N); ("Nested", VMsg None)] [])))] [])))] []), 1);
  (1047, "MessageSkip", (MV [("Val", VMsg (Some (MV [("Const", VStr []%N); ("Nested", VMsg None)] [])))] []), 0);
  (1049, "MessageRequired", (MV [("Val", VMsg (Some (MV [("Const", VStr (bs "foo")); ("Nested", VMsg None)] [])))] []), 0);
  (1050, "MessageRequiredOneof", (MV [] [("One", Some ("Val", VMsg (Some (MV [("Const", VStr (bs "foo")); ("Nested", VMsg None)] []))))]), 0);
  (1051, "MessageRequired", (MV [("Val", VMsg None)] []), 1);
  (1052, "MessageRequiredOneof", (MV [] [("One", None)]), 1);
  (1054, "MessageCrossPackage", (MV [("Val", VMsg (Some (MV [("Val", VNum (NI 1))] [])))] []), 0);
  (1055, "MessageCrossPackage", (MV [("Val", VMsg None)] []), 0);
  (1056, "MessageCrossPackage", (MV [("Val", VMsg (Some (MV [("Val", VNum (NI 0))] [])))] []), 1);
  (1057, "MessageCrossPackage", (MV [("Val", VMsg (Some (MV [("Val", VNum (NI (-1)))] [])))] []), 1)
].
Definition suite_repeatedCases (now : Z) : list (Z * string * msgval * Z) := [
  (1061, "RepeatedNone", (MV [("Val", VList [(VNum (NI 1)); (VNum (NI 2)); (VNum (NI 3))])] []), 0);
  (1063, "RepeatedEmbedNone", (MV [("Val", VList [(VMsg (Some (MV [("Val", VNum (NI 1))] [])))])] []), 0);
  (1064, "RepeatedEmbedNone", (MV [("Val", VList [])] []), 0);
  (1065, "RepeatedEmbedNone", (MV [("Val", VList [])] []), 0);
  (1066, "RepeatedEmbedNone", (MV [("Val", VList [(VMsg (Some (MV [("Val", VNum (NI (-1)))] [])))])] []), 1);
  (1068, "RepeatedEmbedCrossPackageNone", (MV [("Val", VList [(VMsg (Some (MV [("Val", VNum (NI 1))] [])))])] []), 0);
  (1069, "RepeatedEmbedCrossPackageNone", (MV [("Val", VList [])] []), 0);
  (1070, "RepeatedEmbedCrossPackageNone", (MV [("Val", VList [])] []), 0);
  (1071, "RepeatedEmbedCrossPackageNone", (MV [("Val", VList [(VMsg (Some (MV [("Val", VNum (NI (-1)))] [])))])] []), 1);
  (1073, "RepeatedMin", (MV [("Val", VList [(VMsg (Some (MV [("Val", VNum (NI 1))] []))); (VMsg (Some (MV [("Val", VNum (NI 2))] []))); (VMsg (Some (MV [("Val", VNum (NI 3))] [])))])] []), 0);
  (1074, "RepeatedMin", (MV [("Val", VList [(VMsg (Some (MV [("Val", VNum (NI 1))] []))); (VMsg (Some (MV [("Val", VNum (NI 2))] [])))])] []), 0);
  (1075, "RepeatedMin", (MV [("Val", VList [(VMsg (Some (MV [("Val", VNum (NI 1))] [])))])] []), 1);
  (1076, "RepeatedMin", (MV [("Val", VList [(VMsg (Some (MV [("Val", VNum (NI 1))] []))); (VMsg (Some (MV [("Val", VNum (NI (-1)))] [])))])] []), 1);
  (1078, "RepeatedMax", (MV [("Val", VList [(VNum (NF (S754_finite false 4503599627370496 (-52)))); (VNum (NF (S754_finite false 4503599627370496 (-51))))])] []), 0);
  (1079, "RepeatedMax", (MV [("Val", VList [(VNum (NF (S754_finite false 4503599627370496 (-52)))); (VNum (NF (S754_finite false 4503599627370496 (-51)))); (VNum (NF (S754_finite false 6755399441055744 (-51))))])] []), 0);
  (1080, "RepeatedMax", (MV [("Val", VList [(VNum (NF (S754_finite false 4503599627370496 (-52)))); (VNum (NF (S754_finite false 4503599627370496 (-51)))); (VNum (NF (S754_finite false 6755399441055744 (-51)))); (VNum (NF (S754_finite false 4503599627370496 (-50))))])] []), 1);
  (1082, "RepeatedMinMax", (MV [("Val", VList [(VNum (NI 1)); (VNum (NI 2)); (VNum (NI 3))])] []), 0);
  (1083, "RepeatedMinMax", (MV [("Val", VList [(VNum (NI 1)); (VNum (NI 2))])] []), 0);
  (1084, "RepeatedMinMax", (MV [("Val", VList [(VNum (NI 1)); (VNum (NI 2)); (VNum (NI 3)); (VNum (NI 4))])] []), 0);
  (1085, "RepeatedMinMax", (MV [("Val", VList [])] []), 1);
  (1086, "RepeatedMinMax", (MV [("Val", VList [(VNum (NI 1)); (VNum (NI 2)); (VNum (NI 3)); (VNum (NI 4)); (VNum (NI 5))])] []), 1);
  (1088, "RepeatedExact", (MV [("Val", VList [(VNum (NI 1)); (VNum (NI 2)); (VNum (NI 3))])] []), 0);
  (1089, "RepeatedExact", (MV [("Val", VList [(VNum (NI 1)); (VNum (NI 2))])] []), 1);
  (1090, "RepeatedExact", (MV [("Val", VList [(VNum (NI 1)); (VNum (NI 2)); (VNum (NI 3)); (VNum (NI 4))])] []), 1);
  (1092, "RepeatedUnique", (MV [("Val", VList [(VStr (bs "foo")); (VStr (bs "bar")); (VStr (bs "baz"))])] []), 0);
  (1093, "RepeatedUnique", (MV [("Val", VList [])] []), 0);
  (1094, "RepeatedUnique", (MV [("Val", VList [(VStr (bs "foo")); (VStr (bs "Foo"))])] []), 0);
  (1095, "RepeatedUnique", (MV [("Val", VList [(VStr (bs "foo")); (VStr (bs "bar")); (VStr (bs "foo")); (VStr (bs "baz"))])] []), 1);
  (1097, "RepeatedItemRule", (MV [("Val", VList [(VNum (NF (S754_finite false 8388608 (-23)))); (VNum (NF (S754_finite false 8388608 (-22)))); (VNum (NF (S754_finite false 12582912 (-22))))])] []), 0);
  (1098, "RepeatedItemRule", (MV [("Val", VList [])] []), 0);
  (1099, "RepeatedItemPattern", (MV [("Val", VList [(VStr (bs "Alpha")); (VStr (bs "Beta123"))])] []), 0);
  (1100, "RepeatedItemRule", (MV [("Val", VList [(VNum (NF (S754_finite false 8388608 (-23)))); (VNum (NF (S754_finite true 8388608 (-22)))); (VNum (NF (S754_finite false 12582912 (-22))))])] []), 1);
  (1101, "RepeatedItemPattern", (MV [("Val", VList [(VStr (bs "Alpha")); (VStr (bs "!@#$%^&*()"))])] []), 1);
  (1102, "RepeatedItemIn", (MV [("Val", VList [(VStr (bs "baz"))])] []), 1);
  (1103, "RepeatedItemIn", (MV [("Val", VList [(VStr (bs "foo"))])] []), 0);
  (1104, "RepeatedItemNotIn", (MV [("Val", VList [(VStr (bs "foo"))])] []), 1);
  (1105, "RepeatedItemNotIn", (MV [("Val", VList [(VStr (bs "baz"))])] []), 0);
  (1107, "RepeatedEnumIn", (MV [("Val", VList [(VEnum 1)])] []), 1);
  (1108, "RepeatedEnumIn", (MV [("Val", VList [(VEnum 0)])] []), 0);
  (1109, "RepeatedEnumNotIn", (MV [("Val", VList [(VEnum 0)])] []), 1);
  (1110, "RepeatedEnumNotIn", (MV [("Val", VList [(VEnum 1)])] []), 0);
  (1111, "RepeatedEmbeddedEnumIn", (MV [("Val", VList [(VEnum 1)])] []), 1);
  (1112, "RepeatedEmbeddedEnumIn", (MV [("Val", VList [(VEnum 0)])] []), 0);
  (1113, "RepeatedEmbeddedEnumNotIn", (MV [("Val", VList [(VEnum 0)])] []), 1);
  (1114, "RepeatedEmbeddedEnumNotIn", (MV [("Val", VList [(VEnum 1)])] []), 0);
  (1116, "RepeatedEmbedSkip", (MV [("Val", VList [(VMsg (Some (MV [("Val", VNum (NI 1))] [])))])] []), 0);
  (1117, "RepeatedEmbedSkip", (MV [("Val", VList [(VMsg (Some (MV [("Val", VNum (NI (-1)))] [])))])] []), 0);
  (1118, "RepeatedMinAndItemLen", (MV [("Val", VList [(VStr (bs "aaa")); (VStr (bs "bbb"))])] []), 0);
  (1119, "RepeatedMinAndItemLen", (MV [("Val", VList [])] []), 1);
  (1120, "RepeatedMinAndItemLen", (MV [("Val", VList [(VStr (bs "x"))])] []), 1);
  (1121, "RepeatedMinAndMaxItemLen", (MV [("Val", VList [(VStr (bs "aaa")); (VStr (bs "bbb"))])] []), 0);
  (1122, "RepeatedMinAndMaxItemLen", (MV [("Val", VList [])] []), 1);
  (1123, "RepeatedMinAndMaxItemLen", (MV [("Val", VList [(VStr (bs "aaa")); (VStr (bs "bbb")); (VStr (bs "ccc")); (VStr (bs "ddd"))])] []), 1);
  (1125, "RepeatedDuration", (MV [("Val", VList [(VDur (Some (mkSN 3 0)))])] []), 0);
  (1126, "RepeatedDuration", (MV [("Val", VList [])] []), 0);
  (1127, "RepeatedDuration", (MV [("Val", VList [(VDur (Some (mkSN 0 1000000)))])] []), 0);
  (1128, "RepeatedDuration", (MV [("Val", VList [(VDur (Some (mkSN (-1) 0)))])] []), 1);
  (1130, "RepeatedExactIgnore", (MV [("Val", VList [])] []), 0)
].
Definition suite_mapCases (now : Z) : list (Z * string * msgval * Z) := [
  (1134, "MapNone", (MV [("Val", VMap [((VNum (NI 123)), (VBool true)); ((VNum (NI 456)), (VBool false))])] []), 0);
  (1136, "MapMin", (MV [("Val", VMap [((VNum (NI 1)), (VNum (NF (S754_finite false 8388608 (-22))))); ((VNum (NI 3)), (VNum (NF (S754_finite false 8388608 (-21))))); ((VNum (NI 5)), (VNum (NF (S754_finite false 12582912 (-21)))))])] []), 0);
  (1137, "MapMin", (MV [("Val", VMap [((VNum (NI 1)), (VNum (NF (S754_finite false 8388608 (-22))))); ((VNum (NI 3)), (VNum (NF (S754_finite false 8388608 (-21)))))])] []), 0);
  (1138, "MapMin", (MV [("Val", VMap [((VNum (NI 1)), (VNum (NF (S754_finite false 8388608 (-22)))))])] []), 1);
  (1140, "MapMax", (MV [("Val", VMap [((VNum (NI 1)), (VNum (NF (S754_finite false 4503599627370496 (-51))))); ((VNum (NI 3)), (VNum (NF (S754_finite false 4503599627370496 (-50)))))])] []), 0);
  (1141, "MapMax", (MV [("Val", VMap [((VNum (NI 1)), (VNum (NF (S754_finite false 4503599627370496 (-51))))); ((VNum (NI 3)), (VNum (NF (S754_finite false 4503599627370496 (-50))))); ((VNum (NI 5)), (VNum (NF (S754_finite false 6755399441055744 (-50)))))])] []), 0);
  (1142, "MapMax", (MV [("Val", VMap [((VNum (NI 1)), (VNum (NF (S754_finite false 4503599627370496 (-51))))); ((VNum (NI 3)), (VNum (NF (S754_finite false 4503599627370496 (-50))))); ((VNum (NI 5)), (VNum (NF (S754_finite false 6755399441055744 (-50))))); ((VNum (NI 7)), (VNum (NF (S754_finite false 4503599627370496 (-49)))))])] []), 1);
  (1144, "MapMinMax", (MV [("Val", VMap [((VStr (bs "a")), (VBool true)); ((VStr (bs "b")), (VBool false)); ((VStr (bs "c")), (VBool true))])] []), 0);
  (1145, "MapMinMax", (MV [("Val", VMap [((VStr (bs "a")), (VBool true)); ((VStr (bs "b")), (VBool false))])] []), 0);
  (1146, "MapMinMax", (MV [("Val", VMap [((VStr (bs "a")), (VBool true)); ((VStr (bs "b")), (VBool false)); ((VStr (bs "c")), (VBool true)); ((VStr (bs "d")), (VBool false))])] []), 0);
  (1147, "MapMinMax", (MV [("Val", VMap [])] []), 1);
  (1148, "MapMinMax", (MV [("Val", VMap [((VStr (bs "a")), (VBool true)); ((VStr (bs "b")), (VBool false)); ((VStr (bs "c")), (VBool true)); ((VStr (bs "d")), (VBool false)); ((VStr (bs "e")), (VBool true))])] []), 1);
  (1150, "MapExact", (MV [("Val", VMap [((VNum (NI 1)), (VStr (bs "a"))); ((VNum (NI 2)), (VStr (bs "b"))); ((VNum (NI 3)), (VStr (bs "c")))])] []), 0);
  (1151, "MapExact", (MV [("Val", VMap [((VNum (NI 1)), (VStr (bs "a"))); ((VNum (NI 2)), (VStr (bs "b")))])] []), 1);
  (1152, "MapExact", (MV [("Val", VMap [((VNum (NI 1)), (VStr (bs "a"))); ((VNum (NI 2)), (VStr (bs "b"))); ((VNum (NI 3)), (VStr (bs "c"))); ((VNum (NI 4)), (VStr (bs "d")))])] []), 1);
  (1154, "MapNoSparse", (MV [("Val", VMap [((VNum (NI 1)), (VMsg (Some (MV [] [])))); ((VNum (NI 2)), (VMsg (Some (MV [] []))))])] []), 0);
  (1155, "MapNoSparse", (MV [("Val", VMap [])] []), 0);
  (1159, "MapKeys", (MV [("Val", VMap [((VNum (NI (-1))), (VStr (bs "a"))); ((VNum (NI (-2))), (VStr (bs "b")))])] []), 0);
  (1160, "MapKeys", (MV [("Val", VMap [])] []), 0);
  (1161, "MapKeysPattern", (MV [("Val", VMap [((VStr (bs "A")), (VStr (bs "a")))])] []), 0);
  (1162, "MapKeys", (MV [("Val", VMap [((VNum (NI 1)), (VStr (bs "a")))])] []), 1);
  (1163, "MapKeysPattern", (MV [("Val", VMap [((VStr (bs "A")), (VStr (bs "a"))); ((VStr (bs "!@#$%^&*()")), (VStr (bs "b")))])] []), 1);
  (1165, "MapValues", (MV [("Val", VMap [((VStr (bs "a")), (VStr (bs "Alpha"))); ((VStr (bs "b")), (VStr (bs "Beta")))])] []), 0);
  (1166, "MapValues", (MV [("Val", VMap [])] []), 0);
  (1167, "MapValuesPattern", (MV [("Val", VMap [((VStr (bs "a")), (VStr (bs "A")))])] []), 0);
  (1168, "MapValues", (MV [("Val", VMap [((VStr (bs "a")), (VStr (bs "A"))); ((VStr (bs "b")), (VStr (bs "B")))])] []), 2);
  (1169, "MapValuesPattern", (MV [("Val", VMap [((VStr (bs "a")), (VStr (bs "A"))); ((VStr (bs "b")), (VStr (bs "!@#$%^&*()")))])] []), 1);
  (1171, "MapRecursive", (MV [("Val", VMap [((VNum (NI 1)), (VMsg (Some (MV [("Val", VStr (bs "abc"))] []))))])] []), 0);
  (1172, "MapRecursive", (MV [("Val", VMap [((VNum (NI 1)), (VMsg (Some (MV [("Val", VStr []%N)] []))))])] []), 1);
  (1173, "MapExactIgnore", (MV [("Val", VMap [])] []), 0)
].
Definition suite_oneofCases (now : Z) : list (Z * string * msgval * Z) := [
  (1177, "OneOfNone", (MV [] [("O", Some ("X", VStr (bs "foo")))]), 0);
  (1178, "OneOfNone", (MV [] [("O", None)]), 0);
  (1180, "OneOf", (MV [] [("O", Some ("X", VStr (bs "foobar")))]), 0);
  (1181, "OneOf", (MV [] [("O", Some ("Y", VNum (NI 123)))]), 0);
  (1182, "OneOf", (MV [] [("O", Some ("Z", VMsg (Some (MV [("Val", VBool true)] []))))]), 0);
  (1183, "OneOf", (MV [] [("O", None)]), 0);
  (1184, "OneOf", (MV [] [("O", Some ("X", VStr (bs "fizzbuzz")))]), 1);
  (1185, "OneOf", (MV [] [("O", Some ("Y", VNum (NI (-1))))]), 1);
  (1186, "OneOf", (MV [] [("O", Some ("Z", VMsg (Some (MV [("Val", VBool false)] []))))]), 1);
  (1188, "OneOfRequired", (MV [] [("O", Some ("X", VStr []%N))]), 0);
  (1189, "OneOfRequired", (MV [] [("O", None)]), 1)
].
Definition suite_wrapperCases (now : Z) : list (Z * string * msgval * Z) := [
  (1193, "WrapperNone", (MV [("Val", VWrap (Some (VNum (NI 123))))] []), 0);
  (1194, "WrapperNone", (MV [("Val", VWrap None)] []), 0);
  (1196, "WrapperFloat", (MV [("Val", VWrap (Some (VNum (NF (S754_finite false 8388608 (-23))))))] []), 0);
  (1197, "WrapperFloat", (MV [("Val", VWrap None)] []), 0);
  (1198, "WrapperFloat", (MV [("Val", VWrap (Some (VNum (NF (S754_zero false)))))] []), 1);
  (1200, "WrapperDouble", (MV [("Val", VWrap (Some (VNum (NF (S754_finite false 4503599627370496 (-52))))))] []), 0);
  (1201, "WrapperDouble", (MV [("Val", VWrap None)] []), 0);
  (1202, "WrapperDouble", (MV [("Val", VWrap (Some (VNum (NF (S754_zero false)))))] []), 1);
  (1204, "WrapperInt64", (MV [("Val", VWrap (Some (VNum (NI 1))))] []), 0);
  (1205, "WrapperInt64", (MV [("Val", VWrap None)] []), 0);
  (1206, "WrapperInt64", (MV [("Val", VWrap (Some (VNum (NI 0))))] []), 1);
  (1208, "WrapperInt32", (MV [("Val", VWrap (Some (VNum (NI 1))))] []), 0);
  (1209, "WrapperInt32", (MV [("Val", VWrap None)] []), 0);
  (1210, "WrapperInt32", (MV [("Val", VWrap (Some (VNum (NI 0))))] []), 1);
  (1212, "WrapperUInt64", (MV [("Val", VWrap (Some (VNum (NI 1))))] []), 0);
  (1213, "WrapperUInt64", (MV [("Val", VWrap None)] []), 0);
  (1214, "WrapperUInt64", (MV [("Val", VWrap (Some (VNum (NI 0))))] []), 1);
  (1216, "WrapperUInt32", (MV [("Val", VWrap (Some (VNum (NI 1))))] []), 0);
  (1217, "WrapperUInt32", (MV [("Val", VWrap None)] []), 0);
  (1218, "WrapperUInt32", (MV [("Val", VWrap (Some (VNum (NI 0))))] []), 1);
  (1220, "WrapperBool", (MV [("Val", VWrap (Some (VBool true)))] []), 0);
  (1221, "WrapperBool", (MV [("Val", VWrap None)] []), 0);
  (1222, "WrapperBool", (MV [("Val", VWrap (Some (VBool false)))] []), 1);
  (1224, "WrapperString", (MV [("Val", VWrap (Some (VStr (bs "foobar"))))] []), 0);
  (1225, "WrapperString", (MV [("Val", VWrap None)] []), 0);
  (1226, "WrapperString", (MV [("Val", VWrap (Some (VStr (bs "fizzbuzz"))))] []), 1);
  (1228, "WrapperBytes", (MV [("Val", VWrap (Some (VByt (bs "foo"))))] []), 0);
  (1229, "WrapperBytes", (MV [("Val", VWrap None)] []), 0);
  (1230, "WrapperBytes", (MV [("Val", VWrap (Some (VByt (bs "x"))))] []), 1);
  (1232, "WrapperRequiredString", (MV [("Val", VWrap (Some (VStr (bs "bar"))))] []), 0);
  (1233, "WrapperRequiredString", (MV [("Val", VWrap (Some (VStr (bs "foo"))))] []), 1);
  (1234, "WrapperRequiredString", (MV [("Val", VWrap None)] []), 1);
  (1236, "WrapperRequiredEmptyString", (MV [("Val", VWrap (Some (VStr []%N)))] []), 0);
  (1237, "WrapperRequiredEmptyString", (MV [("Val", VWrap (Some (VStr (bs "foo"))))] []), 1);
  (1238, "WrapperRequiredEmptyString", (MV [("Val", VWrap None)] []), 1);
  (1240, "WrapperOptionalUuidString", (MV [("Val", VWrap (Some (VStr (bs "8b72987b-024a-43b3-b4cf-647a1f925c5d"))))] []), 0);
  (1241, "WrapperOptionalUuidString", (MV [("Val", VWrap None)] []), 0);
  (1242, "WrapperOptionalUuidString", (MV [("Val", VWrap (Some (VStr (bs "foo"))))] []), 1);
  (1244, "WrapperRequiredFloat", (MV [("Val", VWrap (Some (VNum (NF (S754_finite false 8388608 (-23))))))] []), 0);
  (1245, "WrapperRequiredFloat", (MV [("Val", VWrap (Some (VNum (NF (S754_finite true 10485760 (-21))))))] []), 1);
  (1246, "WrapperRequiredFloat", (MV [("Val", VWrap None)] []), 1)
].
Definition suite_durationCases (now : Z) : list (Z * string * msgval * Z) := [
  (1250, "DurationNone", (MV [("Val", VDur (Some (mkSN 123 0)))] []), 0);
  (1252, "DurationRequired", (MV [("Val", VDur (Some (mkSN 0 0)))] []), 0);
  (1253, "DurationRequired", (MV [("Val", VDur None)] []), 1);
  (1255, "DurationConst", (MV [("Val", VDur (Some (mkSN 3 0)))] []), 0);
  (1256, "DurationConst", (MV [("Val", VDur None)] []), 0);
  (1257, "DurationConst", (MV [("Val", VDur (Some (mkSN 0 3)))] []), 1);
  (1259, "DurationIn", (MV [("Val", VDur (Some (mkSN 1 0)))] []), 0);
  (1260, "DurationIn", (MV [("Val", VDur None)] []), 0);
  (1261, "DurationIn", (MV [("Val", VDur (Some (mkSN 0 0)))] []), 1);
  (1263, "DurationNotIn", (MV [("Val", VDur (Some (mkSN 0 1)))] []), 0);
  (1264, "DurationNotIn", (MV [("Val", VDur None)] []), 0);
  (1265, "DurationNotIn", (MV [("Val", VDur (Some (mkSN 0 0)))] []), 1);
  (1267, "DurationLT", (MV [("Val", VDur (Some (mkSN 0 (-1))))] []), 0);
  (1268, "DurationLT", (MV [("Val", VDur None)] []), 0);
  (1269, "DurationLT", (MV [("Val", VDur (Some (mkSN 0 0)))] []), 1);
  (1270, "DurationLT", (MV [("Val", VDur (Some (mkSN 1 0)))] []), 1);
  (1272, "DurationLTE", (MV [("Val", VDur (Some (mkSN 0 0)))] []), 0);
  (1273, "DurationLTE", (MV [("Val", VDur None)] []), 0);
  (1274, "DurationLTE", (MV [("Val", VDur (Some (mkSN 1 0)))] []), 0);
  (1275, "DurationLTE", (MV [("Val", VDur (Some (mkSN 1 1)))] []), 1);
  (1277, "DurationGT", (MV [("Val", VDur (Some (mkSN 1 0)))] []), 0);
  (1278, "DurationGT", (MV [("Val", VDur None)] []), 0);
  (1279, "DurationGT", (MV [("Val", VDur (Some (mkSN 0 1000)))] []), 1);
  (1280, "DurationGT", (MV [("Val", VDur (Some (mkSN 0 0)))] []), 1);
  (1282, "DurationGTE", (MV [("Val", VDur (Some (mkSN 3 0)))] []), 0);
  (1283, "DurationGTE", (MV [("Val", VDur None)] []), 0);
  (1284, "DurationGTE", (MV [("Val", VDur (Some (mkSN 0 1000000)))] []), 0);
  (1285, "DurationGTE", (MV [("Val", VDur (Some (mkSN (-1) 0)))] []), 1);
  (1287, "DurationGTLT", (MV [("Val", VDur (Some (mkSN 0 1000)))] []), 0);
  (1288, "DurationGTLT", (MV [("Val", VDur None)] []), 0);
  (1289, "DurationGTLT", (MV [("Val", VDur (Some (mkSN 1000 0)))] []), 1);
  (1290, "DurationGTLT", (MV [("Val", VDur (Some (mkSN 0 (-1000))))] []), 1);
  (1291, "DurationGTLT", (MV [("Val", VDur (Some (mkSN 1 0)))] []), 1);
  (1292, "DurationGTLT", (MV [("Val", VDur (Some (mkSN 0 0)))] []), 1);
  (1294, "DurationExLTGT", (MV [("Val", VDur None)] []), 0);
  (1295, "DurationExLTGT", (MV [("Val", VDur (Some (mkSN 2 0)))] []), 0);
  (1296, "DurationExLTGT", (MV [("Val", VDur (Some (mkSN 0 (-1))))] []), 0);
  (1297, "DurationExLTGT", (MV [("Val", VDur (Some (mkSN 0 1000)))] []), 1);
  (1298, "DurationExLTGT", (MV [("Val", VDur (Some (mkSN 1 0)))] []), 1);
  (1299, "DurationExLTGT", (MV [("Val", VDur (Some (mkSN 0 0)))] []), 1);
  (1301, "DurationGTELTE", (MV [("Val", VDur (Some (mkSN 60 1)))] []), 0);
  (1302, "DurationGTELTE", (MV [("Val", VDur None)] []), 0);
  (1303, "DurationGTELTE", (MV [("Val", VDur (Some (mkSN 3600 0)))] []), 0);
  (1304, "DurationGTELTE", (MV [("Val", VDur (Some (mkSN 60 0)))] []), 0);
  (1305, "DurationGTELTE", (MV [("Val", VDur (Some (mkSN 3600 1)))] []), 1);
  (1306, "DurationGTELTE", (MV [("Val", VDur (Some (mkSN 59 0)))] []), 1);
  (1308, "DurationExGTELTE", (MV [("Val", VDur None)] []), 0);
  (1309, "DurationExGTELTE", (MV [("Val", VDur (Some (mkSN 3601 0)))] []), 0);
  (1310, "DurationExGTELTE", (MV [("Val", VDur (Some (mkSN 0 0)))] []), 0);
  (1311, "DurationExGTELTE", (MV [("Val", VDur (Some (mkSN 3600 0)))] []), 0);
  (1312, "DurationExGTELTE", (MV [("Val", VDur (Some (mkSN 60 0)))] []), 0);
  (1313, "DurationExGTELTE", (MV [("Val", VDur (Some (mkSN 61 0)))] []), 1);
  (1314, "DurationFieldWithOtherFields", (MV [("DurationVal", VDur None); ("IntVal", VNum (NI 12))] []), 1)
].
Definition suite_timestampCases (now : Z) : list (Z * string * msgval * Z) := [
  (1318, "TimestampNone", (MV [("Val", VTs (Some (mkSN 123 0)))] []), 0);
  (1320, "TimestampRequired", (MV [("Val", VTs (Some (mkSN 0 0)))] []), 0);
  (1321, "TimestampRequired", (MV [("Val", VTs None)] []), 1);
  (1323, "TimestampConst", (MV [("Val", VTs (Some (mkSN 3 0)))] []), 0);
  (1324, "TimestampConst", (MV [("Val", VTs None)] []), 0);
  (1325, "TimestampConst", (MV [("Val", VTs (Some (mkSN 0 3)))] []), 1);
  (1327, "TimestampLT", (MV [("Val", VTs (Some (mkSN (-1) 0)))] []), 0);
  (1328, "TimestampLT", (MV [("Val", VTs None)] []), 0);
  (1329, "TimestampLT", (MV [("Val", VTs (Some (mkSN 0 0)))] []), 1);
  (1330, "TimestampLT", (MV [("Val", VTs (Some (mkSN 1 0)))] []), 1);
  (1332, "TimestampLTE", (MV [("Val", VTs (Some (mkSN 0 0)))] []), 0);
  (1333, "TimestampLTE", (MV [("Val", VTs None)] []), 0);
  (1334, "TimestampLTE", (MV [("Val", VTs (Some (mkSN 1 0)))] []), 0);
  (1335, "TimestampLTE", (MV [("Val", VTs (Some (mkSN 1 1)))] []), 1);
  (1337, "TimestampGT", (MV [("Val", VTs (Some (mkSN 1 0)))] []), 0);
  (1338, "TimestampGT", (MV [("Val", VTs None)] []), 0);
  (1339, "TimestampGT", (MV [("Val", VTs (Some (mkSN 0 1000)))] []), 1);
  (1340, "TimestampGT", (MV [("Val", VTs (Some (mkSN 0 0)))] []), 1);
  (1342, "TimestampGTE", (MV [("Val", VTs (Some (mkSN 3 0)))] []), 0);
  (1343, "TimestampGTE", (MV [("Val", VTs None)] []), 0);
  (1344, "TimestampGTE", (MV [("Val", VTs (Some (mkSN 0 1000000)))] []), 0);
  (1345, "TimestampGTE", (MV [("Val", VTs (Some (mkSN (-1) 0)))] []), 1);
  (1347, "TimestampGTLT", (MV [("Val", VTs (Some (mkSN 0 1000)))] []), 0);
  (1348, "TimestampGTLT", (MV [("Val", VTs None)] []), 0);
  (1349, "TimestampGTLT", (MV [("Val", VTs (Some (mkSN 1000 0)))] []), 1);
  (1350, "TimestampGTLT", (MV [("Val", VTs (Some (mkSN (-1000) 0)))] []), 1);
  (1351, "TimestampGTLT", (MV [("Val", VTs (Some (mkSN 1 0)))] []), 1);
  (1352, "TimestampGTLT", (MV [("Val", VTs (Some (mkSN 0 0)))] []), 1);
  (1354, "TimestampExLTGT", (MV [("Val", VTs None)] []), 0);
  (1355, "TimestampExLTGT", (MV [("Val", VTs (Some (mkSN 2 0)))] []), 0);
  (1356, "TimestampExLTGT", (MV [("Val", VTs (Some (mkSN (-1) 0)))] []), 0);
  (1357, "TimestampExLTGT", (MV [("Val", VTs (Some (mkSN 0 1000)))] []), 1);
  (1358, "TimestampExLTGT", (MV [("Val", VTs (Some (mkSN 1 0)))] []), 1);
  (1359, "TimestampExLTGT", (MV [("Val", VTs (Some (mkSN 0 0)))] []), 1);
  (1361, "TimestampGTELTE", (MV [("Val", VTs (Some (mkSN 60 1)))] []), 0);
  (1362, "TimestampGTELTE", (MV [("Val", VTs None)] []), 0);
  (1363, "TimestampGTELTE", (MV [("Val", VTs (Some (mkSN 3600 0)))] []), 0);
  (1364, "TimestampGTELTE", (MV [("Val", VTs (Some (mkSN 60 0)))] []), 0);
  (1365, "TimestampGTELTE", (MV [("Val", VTs (Some (mkSN 3600 1)))] []), 1);
  (1366, "TimestampGTELTE", (MV [("Val", VTs (Some (mkSN 59 0)))] []), 1);
  (1368, "TimestampExGTELTE", (MV [("Val", VTs None)] []), 0);
  (1369, "TimestampExGTELTE", (MV [("Val", VTs (Some (mkSN 3601 0)))] []), 0);
  (1370, "TimestampExGTELTE", (MV [("Val", VTs (Some (mkSN 0 0)))] []), 0);
  (1371, "TimestampExGTELTE", (MV [("Val", VTs (Some (mkSN 3600 0)))] []), 0);
  (1372, "TimestampExGTELTE", (MV [("Val", VTs (Some (mkSN 60 0)))] []), 0);
  (1373, "TimestampExGTELTE", (MV [("Val", VTs (Some (mkSN 61 0)))] []), 1);
  (1375, "TimestampLTNow", (MV [("Val", VTs (Some (mkSN 0 0)))] []), 0);
  (1376, "TimestampLTNow", (MV [("Val", VTs None)] []), 0);
  (1377, "TimestampLTNow", (MV [("Val", VTs (Some (mkSN (now +7200) 0)))] []), 1);
  (1379, "TimestampGTNow", (MV [("Val", VTs (Some (mkSN (now +7200) 0)))] []), 0);
  (1380, "TimestampGTNow", (MV [("Val", VTs None)] []), 0);
  (1381, "TimestampGTNow", (MV [("Val", VTs (Some (mkSN 0 0)))] []), 1);
  (1383, "TimestampWithin", (MV [("Val", VTs (Some (mkSN now 0)))] []), 0);
  (1384, "TimestampWithin", (MV [("Val", VTs None)] []), 0);
  (1385, "TimestampWithin", (MV [("Val", VTs (Some (mkSN 0 0)))] []), 1);
  (1386, "TimestampWithin", (MV [("Val", VTs (Some (mkSN (now +7200) 0)))] []), 1);
  (1388, "TimestampLTNowWithin", (MV [("Val", VTs (Some (mkSN (now -1800) 0)))] []), 0);
  (1389, "TimestampLTNowWithin", (MV [("Val", VTs None)] []), 0);
  (1390, "TimestampLTNowWithin", (MV [("Val", VTs (Some (mkSN (now +1800) 0)))] []), 1);
  (1391, "TimestampLTNowWithin", (MV [("Val", VTs (Some (mkSN (now -7200) 0)))] []), 1);
  (1393, "TimestampGTNowWithin", (MV [("Val", VTs (Some (mkSN (now +1800) 0)))] []), 0);
  (1394, "TimestampGTNowWithin", (MV [("Val", VTs None)] []), 0);
  (1395, "TimestampGTNowWithin", (MV [("Val", VTs (Some (mkSN (now -1800) 0)))] []), 1);
  (1396, "TimestampGTNowWithin", (MV [("Val", VTs (Some (mkSN (now +7200) 0)))] []), 1)
].
Definition suite_anyCases (now : Z) : list (Z * string * msgval * Z) := [
  (1400, "AnyNone", (MV [("Val", VAny (Some []%N))] []), 0);
  (1402, "AnyRequired", (MV [("Val", VAny (Some []%N))] []), 0);
  (1403, "AnyRequired", (MV [("Val", VAny None)] []), 1);
  (1405, "AnyIn", (MV [("Val", VAny (Some (bs "type.googleapis.com/google.protobuf.Duration")))] []), 0);
  (1406, "AnyIn", (MV [("Val", VAny None)] []), 0);
  (1407, "AnyIn", (MV [("Val", VAny (Some (bs "type.googleapis.com/google.protobuf.Timestamp")))] []), 1);
  (1409, "AnyNotIn", (MV [("Val", VAny (Some (bs "type.googleapis.com/google.protobuf.Duration")))] []), 0);
  (1410, "AnyNotIn", (MV [("Val", VAny None)] []), 0);
  (1411, "AnyNotIn", (MV [("Val", VAny (Some (bs "type.googleapis.com/google.protobuf.Timestamp")))] []), 1)
].
Definition suite_kitchenSink (now : Z) : list (Z * string * msgval * Z) := [
  (1415, "KitchenSinkMessage", (MV [("Val", VMsg (Some (MV [("Const", VStr (bs "abcd")); ("Nested", VMsg None); ("IntConst", VNum (NI 5)); ("BoolConst", VBool false); ("FloatVal", VWrap (Some (VNum (NF (S754_finite false 8388608 (-23)))))); ("DurVal", VDur (Some (mkSN 3 0))); ("TsVal", VTs (Some (mkSN 17 0))); ("Another", VMsg None); ("FloatConst", VNum (NF (S754_finite false 14680064 (-21)))); ("DoubleIn", VNum (NF (S754_finite false 8655355533852672 (-46)))); ("EnumConst", VEnum 2); ("AnyVal", VAny (Some (bs "type.googleapis.com/google.protobuf.Duration"))); ("RepTsVal", VList [(VTs (Some (mkSN 3 0)))]); ("MapVal", VMap [((VNum (NI (-1))), (VStr (bs "a"))); ((VNum (NI (-2))), (VStr (bs "b")))]); ("BytesVal", VByt [0;153]%N)] [("O", Some ("X", VStr (bs "foobar")))])))] []), 0);
  (1416, "KitchenSinkMessage", (MV [("Val", VMsg None)] []), 0);
  (1417, "KitchenSinkMessage", (MV [("Val", VMsg (Some (MV [("Const", VStr []%N); ("Nested", VMsg None); ("IntConst", VNum (NI 0)); ("BoolConst", VBool false); ("FloatVal", VWrap None); ("DurVal", VDur None); ("TsVal", VTs None); ("Another", VMsg None); ("FloatConst", VNum (NF (S754_zero false))); ("DoubleIn", VNum (NF (S754_zero false))); ("EnumConst", VEnum 0); ("AnyVal", VAny None); ("RepTsVal", VList []); ("MapVal", VMap []); ("BytesVal", VByt [])] [("O", None)])))] []), 7);
  (1418, "KitchenSinkMessage", (MV [("Val", VMsg (Some (MV [("Const", VStr []%N); ("Nested", VMsg None); ("IntConst", VNum (NI 0)); ("BoolConst", VBool false); ("FloatVal", VWrap None); ("DurVal", VDur None); ("TsVal", VTs None); ("Another", VMsg (Some (MV [("Const", VStr []%N); ("Nested", VMsg None); ("IntConst", VNum (NI 0)); ("BoolConst", VBool false); ("FloatVal", VWrap None); ("DurVal", VDur None); ("TsVal", VTs None); ("Another", VMsg None); ("FloatConst", VNum (NF (S754_zero false))); ("DoubleIn", VNum (NF (S754_zero false))); ("EnumConst", VEnum 0); ("AnyVal", VAny None); ("RepTsVal", VList []); ("MapVal", VMap []); ("BytesVal", VByt [])] [("O", None)]))); ("FloatConst", VNum (NF (S754_zero false))); ("DoubleIn", VNum (NF (S754_zero false))); ("EnumConst", VEnum 0); ("AnyVal", VAny None); ("RepTsVal", VList []); ("MapVal", VMap []); ("BytesVal", VByt [])] [("O", None)])))] []), 14);
  (1419, "KitchenSinkMessage", (MV [("Val", VMsg (Some (MV [("Const", VStr (bs "abcd")); ("Nested", VMsg (Some (MV [("Const", VStr []%N); ("Nested", VMsg None); ("IntConst", VNum (NI 0)); ("BoolConst", VBool false); ("FloatVal", VWrap None); ("DurVal", VDur None); ("TsVal", VTs None); ("Another", VMsg None); ("FloatConst", VNum (NF (S754_zero false))); ("DoubleIn", VNum (NF (S754_zero false))); ("EnumConst", VEnum 0); ("AnyVal", VAny None); ("RepTsVal", VList []); ("MapVal", VMap []); ("BytesVal", VByt [])] [("O", None)]))); ("IntConst", VNum (NI 0)); ("BoolConst", VBool true); ("FloatVal", VWrap None); ("DurVal", VDur None); ("TsVal", VTs None); ("Another", VMsg None); ("FloatConst", VNum (NF (S754_zero false))); ("DoubleIn", VNum (NF (S754_zero false))); ("EnumConst", VEnum 0); ("AnyVal", VAny None); ("RepTsVal", VList []); ("MapVal", VMap []); ("BytesVal", VByt [])] [("O", None)])))] []), 14);
  (1420, "KitchenSinkMessage", (MV [("Val", VMsg (Some (MV [("Const", VStr []%N); ("Nested", VMsg None); ("IntConst", VNum (NI 0)); ("BoolConst", VBool true); ("FloatVal", VWrap (Some (VNum (NF (S754_zero false))))); ("DurVal", VDur None); ("TsVal", VTs (Some (mkSN 0 0))); ("Another", VMsg None); ("FloatConst", VNum (NF (S754_finite false 8388608 (-20)))); ("DoubleIn", VNum (NF (S754_zero false))); ("EnumConst", VEnum 0); ("AnyVal", VAny (Some (bs "asdf"))); ("RepTsVal", VList [(VTs (Some (mkSN 0 1)))]); ("MapVal", VMap []); ("BytesVal", VByt [])] [("O", None)])))] []), 13)
].

Definition suite_cases (now : Z) : list (Z * string * msgval * Z) :=
  List.concat [suite_floatCases now;
    suite_doubleCases now;
    suite_int32Cases now;
    suite_int64Cases now;
    suite_uint32Cases now;
    suite_uint64Cases now;
    suite_sint32Cases now;
    suite_sint64Cases now;
    suite_fixed32Cases now;
    suite_fixed64Cases now;
    suite_sfixed32Cases now;
    suite_sfixed64Cases now;
    suite_boolCases now;
    suite_stringCases now;
    suite_bytesCases now;
    suite_enumCases now;
    suite_messageCases now;
    suite_repeatedCases now;
    suite_mapCases now;
    suite_oneofCases now;
    suite_wrapperCases now;
    suite_durationCases now;
    suite_timestampCases now;
    suite_anyCases now;
    suite_kitchenSink now].
