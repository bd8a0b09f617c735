(** For each row of rule_comparison.md a message type with a rule of that row, and a message for which it decides. *)
From Coq Require Import Floats.SpecFloat.
From Verif Require Import Base Num Rules Types Iface Checker GoSem Outcome Java Cc Py HarnessMainSpec Wt WtDec WtMsgDec Suite TableSpec.
Import ListNotations.
Local Open Scope string_scope.

(** The libraries of Suite.v on the 14th of November 2023. *)
Definition table_now : Z := 1700000000%Z.
Definition table_world : world := mkWorld (fun _ => true) (suite_orc (table_now * 1000000000)) (suite_jl (table_now * 1000)) (fun _ => false) suite_cl
  (suite_pl (S754_finite false 7130316800000000 (-22))) (mkPyNames (fun n => n) (fun _ => false) (fun _ => false)).

Definition one_field (t : ftype) (fr : field_rules) : schema := mkSchema
  [mkMsg "M" [mkField "F" t fr] [] false MBoth;
   mkMsg "Inner" [mkField "X" (FOne TString) (FR None (Some (RString (mkStringRules None None (Some 1%N) None None None None None None None None None [] [] None None None))))]
     [] false MBoth] [mkEnum "Color" [0; 1; 2]%Z] ["M"; "Inner"].
Definition rule (r : rule_type) : field_rules := FR None (Some r).
Definition the (v : value) : msgval := MV [("F", v)] [].

(** Beside the rule in question there is one that all values here meet, so that Python has some code in both cases. *)
Definition num_ex (c lt gt : option Z) (i o : list Z) : schema :=
  one_field (FOne (TNum KInt32)) (rule (RNum KInt32 (mkNumRules (option_map NI c) (option_map NI lt) None (option_map NI gt) None (map NI i)
    (map NI o) (Some false)))).
Definition str_ex (c : option bytes) (mx mb : option N) (pa pre con : option bytes) (i : list bytes) (wk : option str_wk) : schema :=
  one_field (FOne TString) (rule (RString (mkStringRules c None None mx None None mb pa pre None con None i
    (match i with [] => [bs "no"] | _ => [] end) wk None (Some false)))).
Definition str_wk_ex (w : str_wk) : schema := str_ex None None None None None None [] (Some w).
Definition byt_ex (c : option bytes) (mx : option N) (pa pre : option bytes) (i : list bytes) (wk : option byt_wk) : schema :=
  one_field (FOne TBytes) (rule (RBytes (mkBytesRules c None None mx pa pre None None i (match i with [] => [bs "no"] | _ => [] end) wk (Some false)))).
Definition dur_ex (rq : option bool) (c lt : option sn) (i o : list sn) : schema :=
  one_field (FOne TDur) (rule (RDuration (mkDurationRules rq c lt None None None i o))).
Definition ts_ex (rq : option bool) (c lt : option sn) (ln : option bool) (wi : option sn) : schema :=
  one_field (FOne TTs) (rule (RTimestamp (mkTimestampRules rq c lt None None None ln None wi))).
Definition map_ex (v : etype) (mn : option N) (ns : option bool) (ks vs : option field_rules) : schema :=
  one_field (FMap TString v) (rule (RMap (mkMapRules mn None ns ks vs (Some false)))).
Definition short : field_rules := rule (RString (mkStringRules None None None (Some 3%N) None None None None None None None None [] [] None None None)).
Definition long : value := VStr (bs "longer").
Definition inner_bad : value := VMsg (Some (MV [("X", VStr [])] [])).

Definition table_case (x : row) : schema * msgval :=
  match x with
  | Disabled => (mkSchema [mkMsg "M" [mkField "F" (FOne TString) short] [] true MBoth] [] ["M"], the long)
  | NumConst => (num_ex (Some 5%Z) None None [] [], the (VNum (NI 6)))
  | NumRange => (num_ex None (Some 10%Z) (Some 5%Z) [] [99%Z], the (VNum (NI 10)))
  | NumIn => (num_ex None None None [1; 2]%Z [], the (VNum (NI 3)))
  | BoolConst => (one_field (FOne TBool) (rule (RBool (Some true))), the (VBool false))
  | StrConst => (str_ex (Some (bs "abc")) None None None None None [] None, the long)
  | StrLen => (str_ex None (Some 3%N) None None None None [] None, the long)
  | StrBytes => (str_ex None None (Some 3%N) None None None [] None, the long)
  | StrPattern => (str_ex None None None (Some re_alnum) None None [] None, the (VStr (bs "!")))
  | StrAffix => (str_ex None None None None (Some (bs "abc")) None [] None, the long)
  | StrContains => (str_ex None None None None None (Some (bs "abc")) [] None, the long)
  | StrIn => (str_ex None None None None None None [bs "abc"] None, the long)
  | Email => (str_wk_ex (WEmail true), the (VStr (bs "foobar")))
  | Hostname => (str_wk_ex (WHostname true), the (VStr (bs "foo!bar")))
  | Address => (str_wk_ex (WAddress true), the (VStr (bs "foo!bar")))
  | Ip => (str_wk_ex (WIp true), the (VStr (bs "foobar")))
  | Ipv4 => (str_wk_ex (WIpv4 true), the (VStr (bs "foobar")))
  | Ipv6 => (str_wk_ex (WIpv6 true), the (VStr (bs "foobar")))
  | Uri => (str_wk_ex (WUri true), the (VStr (bs "!@#$%^&*%$#")))
  | UriRef => (str_wk_ex (WUriRef true), the (VStr (bs "!@#$%^&*%$#")))
  | Uuid => (str_wk_ex (WUuid true), the (VStr (bs "foobar")))
  | KnownRegex => (str_wk_ex (WRegex KRHeaderName), the (VStr (bs "foo bar")))
  | BytConst => (byt_ex (Some (bs "abc")) None None None [] None, the (VByt (bs "longer")))
  | BytLen => (byt_ex None (Some 3%N) None None [] None, the (VByt (bs "longer")))
  | BytPattern => (byt_ex None None (Some re_ascii) None [] None, the (VByt [200]%N))
  | BytAffix => (byt_ex None None None (Some (bs "abc")) [] None, the (VByt (bs "longer")))
  | BytIn => (byt_ex None None None None [bs "abc"] None, the (VByt (bs "longer")))
  | BytIp => (byt_ex None None None None [] (Some (BIp true)), the (VByt (bs "longer")))
  | BytIpv4 => (byt_ex None None None None [] (Some (BIpv4 true)), the (VByt (bs "longer")))
  | BytIpv6 => (byt_ex None None None None [] (Some (BIpv6 true)), the (VByt (bs "longer")))
  | EnumConst => (one_field (FOne (TEnum "Color")) (rule (REnum (mkEnumRules (Some 1%Z) None [] [99%Z]))), the (VEnum 2))
  | DefinedOnly => (one_field (FOne (TEnum "Color")) (rule (REnum (mkEnumRules None (Some true) [] [1%Z]))), the (VEnum 7))
  | EnumIn => (one_field (FOne (TEnum "Color")) (rule (REnum (mkEnumRules None (Some false) [1%Z] []))), the (VEnum 2))
  | Skip => (one_field (FOne (TMsg "Inner")) (FR (Some (mkMessageRules (Some true) (Some false))) None), the inner_bad)
  | Required => (one_field (FOne (TMsg "Inner")) (FR (Some (mkMessageRules (Some false) (Some true))) None), the (VMsg None))
  | Items_ => (one_field (FRep TString) (rule (RRepeated (mkRepRules (Some 1%N) None (Some false) None None))), the (VList []))
  | Unique => (one_field (FRep TString) (rule (RRepeated (mkRepRules (Some 1%N) None (Some true) None None))), the (VList [long; long]))
  | ItemRules => (one_field (FRep TString) (rule (RRepeated (mkRepRules (Some 1%N) None None (Some short) None))), the (VList [long]))
  | Pairs => (map_ex TString (Some 1%N) None None None, the (VMap []))
  | NoSparse => (map_ex (TMsg "Inner") None (Some true) None None, the (VMap [(long, VMsg None)]))
  | KeyRules => (map_ex TString None None (Some short) None, the (VMap [(long, long)]))
  | ValueRules => (map_ex TString None None None (Some short), the (VMap [(long, long)]))
  | OneofRequired => (mkSchema [mkMsg "M" [] [mkOneof "O" [mkField "F" (FOne TString) short] (Some true)] false MBoth] [] ["M"], MV [] [("O", None)])
  | Wrapped => (one_field (FOne (TWrap WkString)) short, the (VWrap (Some long)))
  | AnyRequired => (one_field (FOne TAny) (rule (RAny (mkAnyRules (Some true) [] [bs "no"]))), the (VAny None))
  | AnyIn => (one_field (FOne TAny) (rule (RAny (mkAnyRules (Some false) [bs "abc"] []))), the (VAny (Some (bs "no"))))
  | DurRequired => (dur_ex (Some true) None None [] [mkSN 99 0], the (VDur None))
  | DurConst => (dur_ex None (Some (mkSN 3 0)) None [] [], the (VDur (Some (mkSN 4 0))))
  | DurRange => (dur_ex (Some false) None (Some (mkSN 3 0)) [] [], the (VDur (Some (mkSN 4 0))))
  | DurIn => (dur_ex (Some false) None None [mkSN 3 0] [], the (VDur (Some (mkSN 4 0))))
  | TsRequired => (ts_ex (Some true) None None (Some true) None, the (VTs None))
  | TsConst => (ts_ex (Some false) (Some (mkSN 3 0)) None None None, the (VTs (Some (mkSN 4 0))))
  | TsRange => (ts_ex (Some false) None (Some (mkSN 3 0)) None None, the (VTs (Some (mkSN 4 0))))
  | TsNow => (ts_ex (Some false) None None (Some true) None, the (VTs (Some (mkSN (table_now + 7200) 0))))
  | TsWithin => (ts_ex (Some false) None None None (Some (mkSN 3600 0)), the (VTs (Some (mkSN (table_now + 7200) 0))))
  end.
(** In C++ a rule on a timestamp other than [required] throws; the plugin refuses some pairs of rules that Python needs. *)
Definition table_case_of (l : lang) (x : row) : schema * msgval :=
  match l, x with
  | LCc, TsRequired => (ts_ex (Some true) None None None None, the (VTs None))
  | LPython, NumConst => (num_ex (Some 5%Z) None None [] [99%Z], the (VNum (NI 6)))
  | LPython, NumIn => (num_ex None (Some 100%Z) None [1; 2]%Z [], the (VNum (NI 3)))
  | LPython, DurConst => (dur_ex None (Some (mkSN 3 0)) None [] [mkSN 99 0], the (VDur (Some (mkSN 4 0))))
  | _, _ => table_case x
  end.

Definition decidesb (l : lang) (x : row) : bool :=
  let '(sc, m) := table_case_of l x in
  match says table_world l sc "M" m, says table_world l (without x sc) "M" m with
  | Some Passes, Some Rejects | Some Rejects, Some Passes => true
  | _, _ => false
  end.
(** The message types are well formed and the message is one of the type. *)
Definition properb (l : lang) (x : row) : bool :=
  let '(sc, m) := table_case_of l x in
  wf_schemab sc && match find_msg sc "M" with Some d => wt_msgb sc 3 d m | None => false end.

Lemma decidesb_sound l x : decidesb l x = true -> let '(sc, m) := table_case_of l x in decides table_world l x sc "M" m.
Proof.
  unfold decidesb, decides. destruct (table_case_of l x) as [sc m].
  destruct (says table_world l sc "M" m) as [[]|]; destruct (says table_world l (without x sc) "M" m) as [[]|]; try discriminate; auto.
Qed.
Lemma properb_sound l x : properb l x = true -> let '(sc, m) := table_case_of l x in
  wf_schema sc /\ exists d, find_msg sc "M" = Some d /\ wt_msg sc d m.
Proof.
  unfold properb. destruct (table_case_of l x) as [sc m]. intros H. apply andb_true_iff in H. destruct H as [H1 H2].
  split; [now apply wf_schemab_sound|]. destruct (find_msg sc "M") as [d|]; [|discriminate]. exists d. split; auto. now apply (wt_msgb_sound sc 3).
Qed.

Lemma some_difference l x : ticked l x = true \/ overlooked l x = true -> decidesb l x = true /\ properb l x = true.
Proof. destruct l, x; intros [H|H]; try discriminate H; split; vm_compute; reflexivity. Qed.
