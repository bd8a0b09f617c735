(** The programs that the conformance executor runs for each case: tests/harness/go/main/harness.go,
    tests/harness/cc/harness.cc, java/pgv-java-validation/.../JavaHarness.java, tests/harness/python/harness.py.

    Each reads a TestCase, validates its message and prints a TestResult.  That the message in the
    TestCase is the one that the executor encoded is the protobuf runtimes' business. *)
From Verif Require Import Base Utf8 Rules Types Iface GoSem ErrText Outcome Harness.

(** tests/harness/harness.proto:13-19. *)
Record test_result := TestResult {
  tr_valid : bool; tr_error : bool; tr_reasons : list bytes; tr_allow : bool; tr_multi : bool }.
(** What the executor looks at. *)
Definition to_answer (r : test_result) : answer :=
  Answer (tr_valid r) (tr_error r) (Z.of_nat (List.length (tr_reasons r))) (tr_allow r) (tr_multi r).

(** [utf8.ValidString]: no byte was replaced. *)
Definition utf8b (s : bytes) : bool := bytes_eqb (utf8_encode (runes s)) s.
(** The executor gets no answer if a reason is not UTF-8: Go's proto.Marshal refuses to encode it
    (harness.go:126-127 then exits with 1), and what C++ encodes anyway, the executor's proto.Unmarshal
    refuses (executor/harness.go:96-98). *)
Definition deliver (r : test_result) : execution := if forallb utf8b (tr_reasons r) then Some (to_answer r) else None.

(** ** Go *)
Section Go.
Variable sprint : list piece -> bytes.
Variable ix_text : ixval -> bytes.
Variable plain_text : plain -> bytes.
Let text := error_text sprint ix_text plain_text.

(** checkErr(err), err not nil (harness.go:113-122); its text is left out. *)
Definition internal_error : test_result := TestResult false true [[]] false false.

(** harness.go:70-77.  FooValidationError has Cause, FooMultiError and library errors have not. *)
Fixpoint root_cause (e : gerr) : gerr := match e with GErr _ _ _ _ (Some c) _ => root_cause c | _ => e end.

(** mergeReasons, harness.go:97-111, for one element of AllErrors(). *)
Fixpoint merge_reasons (e : gerr) : list bytes :=
  match e with
  | GErr _ _ _ _ (Some (GMulti _ es)) _ | GMulti _ es => flat_map merge_reasons es
  | GErr _ _ _ _ (Some c) _ => [text c]
  | _ => [text e]
  end.

(** checkValid, harness.go:59-95; [None]: [reasons[0]] is out of range. *)
Definition check_valid (err multierr : option gerr) : option test_result :=
  match err, multierr with
  | None, None => Some (TestResult true false [] false false)
  | Some e, Some (GMulti _ es) =>
      match flat_map merge_reasons es with
      | r :: t => Some (if bytes_eqb (text (root_cause e)) r then TestResult false false (r :: t) false false else internal_error)
      | [] => None
      end
  | _, _ => Some internal_error
  end.

(** The result of a method; [VStuck] is a panic. *)
Definition go_error (v : vres) : option (option gerr) :=
  match v with VNil => Some None | VErr e => Some (Some e) | VStuck => None end.

(** main, harness.go:16-54.  [ignored]: the type of the message is cases.MessageIgnored.  [m1] and
    [m2] are the message, with its maps in the order in which Validate and ValidateAll visit them. *)
Definition go_main (ignored : string -> bool) (sc : schema) (orc : oracles) (n : string) (m1 m2 : msgval) : option test_result :=
  let methods := match find_msg sc n with Some d => md_methods d | None => MNone end in
  if ignored n then match methods with MNone => check_valid None None | _ => Some internal_error end
  else match methods with
       | MBoth =>
           match go_error (validate sc orc false n m1), go_error (validate sc orc true n m2) with
           | Some e, Some g => check_valid e g
           | _, _ => None
           end
       | _ => Some internal_error
       end.
Definition go_harness ignored sc orc n m1 m2 : execution :=
  match go_main ignored sc orc n m1 m2 with Some r => deliver r | None => None end.
End Go.

(** ** Java *)

(** JavaHarness.java:22-67, once the message is unpacked.  [o]: how assertValid ends; [ignored]: the
    type of the message has the option [ignored], so that its validator is null and the call of assertValid
    throws NullPointerException.  A Java string is always encoded as UTF-8. *)
Definition java_main (ignored : bool) (o : outcome) (reason : bytes) : test_result :=
  if ignored then TestResult false false [reason] true false
  else match o with
       | Passes => TestResult true false [] false false
       | Unimplemented => TestResult false false [reason] true false
       | Rejects => TestResult false false [reason] false false
       | Crashes => TestResult false true [reason] false false
       end.
Definition java_harness (ignored : bool) (o : outcome) (reason : bytes) : execution := Some (to_answer (java_main ignored o reason)).

(** ** C++ *)

(** harness.cc:87-168.  [known]: one of the X_ macros lists the type of the message (they list all types
    of their file that are not ignored, templates/cc/file.go:79-84).  [err_msg]: what Validate
    has put there, nothing if the message is valid; it is added in any case (harness.cc:104).  An
    exception other than UnimplementedException ends the process. *)
Definition cc_main (known : bool) (o : outcome) (err_msg what : bytes) : option test_result :=
  if known then
    match o with
    | Passes => Some (TestResult true false [[]] false false)
    | Rejects => Some (TestResult false false [err_msg] false false)
    | Unimplemented => Some (TestResult false false [what] true false)
    | Crashes => None
    end
  else Some (TestResult false false [bs "not implemented"] true false).
Definition cc_harness (known : bool) (o : outcome) (err_msg what : bytes) : execution :=
  match cc_main known o err_msg what with Some r => deliver r | None => None end.

(** ** Python *)

(** SerializeToString of a TestResult: the wire format of Protocol Buffers.  Fields in the order of their
    numbers; [false] and empty lists are not written. *)
Fixpoint varint (fuel : nat) (n : N) : bytes :=
  match fuel with
  | O => []
  | S k => if (n <? 128)%N then [n] else (128 + n mod 128)%N :: varint k (n / 128)%N
  end.
(** Ten bytes are enough for 64 bits. *)
Definition wire_string (s : bytes) : bytes := (26 :: varint 10 (N.of_nat (List.length s)))%N ++ s.
Definition serialize (r : test_result) : bytes :=
  (if tr_valid r then [8; 1]%N else []) ++ (if tr_error r then [16; 1]%N else []) ++ flat_map wire_string (tr_reasons r) ++
  (if tr_allow r then [32; 1]%N else []) ++ (if tr_multi r then [40; 1]%N else []).

(** harness.py:30-46.  Only ValidationFailed is caught.  [reason]: [repr(e)]. *)
Definition py_main (o : outcome) (reason : bytes) : option test_result :=
  match o with
  | Passes => Some (TestResult true false [] false false)
  | Rejects => Some (TestResult false false [reason] false false)
  | _ => None
  end.
(** harness.py:48-49: [result.SerializeToString().decode("utf-8")] is written to a text file whose
    encoding is UTF-8.  [decode] raises UnicodeDecodeError if the encoded message is not UTF-8. *)
Definition py_harness (o : outcome) (reason : bytes) : execution :=
  match py_main o reason with
  | Some r => if utf8b (serialize r) then Some (to_answer r) else None
  | None => None
  end.
